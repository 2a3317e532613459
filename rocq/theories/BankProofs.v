(** The contracts can always pay. *)
From Verif Require Import Base BaseLemmas MapLemmas Text StdModel StdProofs RouterTypes RegistryTypes OperatorsModel MultisigTypes
  RouterModel GatewayModel NexusModel RewardsModel RewardsSpec RewardsProofs RewardsProofs3 RegistryModel RegistrySpec RegistryProofs VerifierModel MultisigModel
  EncodingModel ProverModel SystemModel SystemSpec SystemProofs SystemProofs3 SystemProofs9 BankModel BankSpec.

(** ** Transfers *)
Lemma balance_insert b a d n a' d' :
  balance (<[(a, d) := n]> b) a' d' = if bool_decide (a = a' /\ d = d') then n else balance b a' d'.
Proof.
  unfold balance. case_bool_decide as H.
  - destruct H as [-> ->]. by rewrite lookup_insert.
  - rewrite lookup_insert_ne; [done|]. intros [= ??]. by apply H.
Qed.

Lemma transfer_ok b m b' : transfer b m = Ok b' ->
  mv_amount m <= balance b (mv_from m) (mv_denom m) /\
  forall a d, balance b' a d + (if bool_decide (mv_from m = a /\ mv_denom m = d) then mv_amount m else 0) =
    balance b a d + (if bool_decide (mv_to m = a /\ mv_denom m = d) then mv_amount m else 0).
Proof.
  unfold transfer. intros H. apply rbind_ok in H as ([] & Hc%ensure_ok & [= <-]). apply N.leb_le in Hc.
  split; [done|]. intros a d. rewrite !balance_insert.
  destruct m as [f t dn n]. cbn [mv_from mv_to mv_denom mv_amount] in *. repeat case_bool_decide; try lia;
    repeat match goal with
    | H : _ /\ _ |- _ => destruct H
    | H : ~ (_ /\ _) |- _ => apply not_and_l in H
    end; subst; naive_solver lia.
Qed.
Lemma transfer_covered b m : mv_amount m <= balance b (mv_from m) (mv_denom m) -> exists b', transfer b m = Ok b'.
Proof. intros H. unfold transfer. apply N.leb_le in H. rewrite H. cbn. eauto. Qed.
Lemma transfer_err b m e : transfer b m = Err e ->
  e = Uncovered (mv_from m) (mv_denom m) /\ balance b (mv_from m) (mv_denom m) < mv_amount m.
Proof. unfold transfer. destruct (mv_amount m <=? _) eqn:E; cbn; [done|]. intros [= <-]. split; [done|]. lia. Qed.
Lemma transfer_no_panic b m : transfer b m <> Panic.
Proof. unfold transfer. by destruct (mv_amount m <=? _). Qed.

Lemma transfers_nil b : transfers b [] = Ok b.
Proof. done. Qed.
Lemma fold_res_bad {E A B} (f : A -> B -> res E A) (r : res E A) l :
  (forall a, r <> Ok a) -> fold_left (fun acc x => let? a := acc in f a x) l r = r.
Proof. intros Hr. induction l as [|x l IH]; [done|]. cbn. destruct r; [by destruct (Hr a)|done|done]. Qed.
Lemma transfers_cons b m l : transfers b (m :: l) = let? b1 := transfer b m in transfers b1 l.
Proof.
  unfold transfers. cbn. destruct (transfer b m) as [b1|e|]; cbn; [done|by apply fold_res_bad..].
Qed.

Lemma transfers_ok l : forall b b', transfers b l = Ok b' ->
  forall a d, balance b' a d + moved d (filter (fun m => mv_from m = a) l) =
              balance b a d + moved d (filter (fun m => mv_to m = a) l).
Proof.
  induction l as [|m l IH]; intros b b' H a d; [injection H as <-; done|].
  rewrite transfers_cons in H. apply rbind_ok in H as (b1 & Hm & H).
  apply transfer_ok in Hm as [_ Hm]. specialize (IH _ _ H a d). specialize (Hm a d).
  rewrite !filter_cons. unfold moved in *.
  destruct (decide (mv_from m = a)), (decide (mv_to m = a)); rewrite ?lsum_cons;
    repeat case_bool_decide; naive_solver lia.
Qed.
(** All by one, who has enough. *)
Lemma transfers_covered a l : forall b, Forall (fun m => mv_from m = a) l ->
  (forall d, moved d l <= balance b a d) -> exists b', transfers b l = Ok b'.
Proof.
  induction l as [|m l IH]; intros b Hf Hc; [by eexists|].
  apply Forall_cons in Hf as [Hm Hf]. rewrite transfers_cons.
  destruct (transfer_covered b m) as [b1 H1].
  { rewrite Hm. specialize (Hc (mv_denom m)). unfold moved in Hc. rewrite lsum_cons in Hc.
    rewrite bool_decide_eq_true_2 in Hc by done. lia. }
  rewrite H1. cbn. apply IH; [done|]. intros d. apply transfer_ok in H1 as [_ H1]. specialize (H1 a d).
  specialize (Hc d). unfold moved in *. rewrite lsum_cons in Hc. rewrite Hm in H1.
  repeat case_bool_decide; naive_solver lia.
Qed.
Lemma transfers_err l : forall b e, transfers b l = Err e ->
  exists m, m ∈ l /\ e = Uncovered (mv_from m) (mv_denom m).
Proof.
  induction l as [|m l IH]; intros b e H; [done|]. rewrite transfers_cons in H.
  destruct (transfer b m) as [b1|e'|] eqn:E; cbn in H.
  - destruct (IH _ _ H) as (x & Hx & ->). exists x. split; [by right|done].
  - injection H as <-. apply transfer_err in E as [-> _]. exists m. split; [by left|done].
  - done.
Qed.
Lemma transfers_no_panic l : forall b, transfers b l <> Panic.
Proof.
  induction l as [|m l IH]; intros b H; [done|]. rewrite transfers_cons in H.
  destruct (transfer b m) as [b1|e'|] eqn:E; cbn in H; [by eapply IH|done|by eapply transfer_no_panic].
Qed.

Lemma moved_nil d : moved d [] = 0. Proof. done. Qed.
Lemma moved_app d l1 l2 : moved d (l1 ++ l2) = moved d l1 + moved d l2.
Proof. apply lsum_app. Qed.
Lemma moved_filter_all d (P : move -> Prop) `{forall m, Decision (P m)} l : Forall P l -> moved d (filter P l) = moved d l.
Proof.
  induction 1 as [|m l Hm Hl IH]; [done|]. rewrite filter_cons, decide_True by done. unfold moved in *.
  by rewrite !lsum_cons, IH.
Qed.
Lemma moved_filter_none d (P : move -> Prop) `{forall m, Decision (P m)} l : Forall (fun m => ~ P m) l -> moved d (filter P l) = 0.
Proof. induction 1 as [|m l Hm Hl IH]; [done|]. by rewrite filter_cons, decide_False. Qed.

Lemma supply_insert b a d n d' :
  supply (<[(a, d) := n]> b) d' + (if bool_decide (d = d') then balance b a d else 0) =
  supply b d' + (if bool_decide (d = d') then n else 0).
Proof.
  unfold supply, balance. destruct (b !! (a, d)) as [x|] eqn:E.
  - pose proof (msum_insert (fun x n => if bool_decide (x.2 = d') then n else 0) b (a, d) x n E) as H. cbn in *. exact H.
  - rewrite msum_insert_fresh by done. cbn. destruct (bool_decide (d = d')); lia.
Qed.
Lemma transfer_supply b m b' d : transfer b m = Ok b' -> supply b' d = supply b d.
Proof.
  unfold transfer. intros H. apply rbind_ok in H as ([] & Hc%ensure_ok & [= <-]). apply N.leb_le in Hc.
  set (b1 := <[(mv_from m, mv_denom m) := _]> b).
  pose proof (supply_insert b1 (mv_to m) (mv_denom m) (balance b1 (mv_to m) (mv_denom m) + mv_amount m) d) as H2.
  pose proof (supply_insert b (mv_from m) (mv_denom m) (balance b (mv_from m) (mv_denom m) - mv_amount m) d) as H1.
  fold b1 in H1. destruct (bool_decide (mv_denom m = d)); lia.
Qed.
Lemma transfers_supply l d : forall b b', transfers b l = Ok b' -> supply b' d = supply b d.
Proof.
  induction l as [|m l IH]; intros b b' H; [by injection H as <-|].
  rewrite transfers_cons in H. apply rbind_ok in H as (b1 & Hm & H).
  rewrite (IH _ _ H). by eapply transfer_supply.
Qed.

(** ** The books of a rewards contract *)
Lemma pooled_insert s c n pools : r_pools s = pools ->
  msum (fun _ n => n) (<[c := n]> pools) + pool_balance s c = pooled s + n.
Proof.
  intros <-. unfold pooled, pool_balance. destruct (r_pools s !! c) as [x|] eqn:E; cbn.
  - exact (msum_insert (fun _ n => n) _ _ _ n E).
  - rewrite msum_insert_fresh by done. unfold id. lia.
Qed.
Lemma cumulate_pos s c l : forall m r, RewardsProofs3.pos m ->
  fold_left (fun acc n => let? m := acc in
    match r_tallies s !! (c, n) with Some t => merge_rewards m (rewards_by_worker t) | None => Ok m end) l (Ok m) = Ok r ->
  RewardsProofs3.pos r.
Proof.
  induction l as [|n l IH]; intros m r Hm H; cbn in H; [by injection H as <-|].
  destruct (r_tallies s !! (c, n)) as [t|]; [|by eapply IH].
  destruct (merge_rewards m (rewards_by_worker t)) as [m'|e|] eqn:E.
  - eapply IH; [|exact H]. apply RewardsProofs3.merge_ok in E as ->. apply RewardsProofs3.merged_pos; [done|].
    intros w v. apply RewardsProofs3.rewards_pos.
  - by rewrite fold_res_bad in H.
  - by rewrite fold_res_bad in H.
Qed.

Lemma rewards_books s op s' l : rewards_step s op = Ok (s', l) ->
  r_denom s' = r_denom s /\ Forall (fun x => 0 < x.2) l /\
  pooled s' + lsum snd l =
  pooled s + match op with AddRewards _ funds => amount_of (r_denom s) funds | _ => 0 end.
Proof.
  destruct op as [h c ev w|c funds|h c limit|h g p]; cbn; intros H.
  - apply rbind_ok in H as (s1 & H & [= <- <-]). unfold record_participation in H. res_inv.
    destruct (match r_events s !! _ with Some n => _ | None => _ end) as [is_new num]. res_inv. subst s1. done.
  - apply rbind_ok in H as (s1 & H & [= <- <-]). apply RewardsProofs.add_inv in H as (a & -> & _ & _ & ->).
    unfold pooled at 1. cbn [r_denom r_pools]. split; [done|]. split; [done|].
    pose proof (pooled_insert s c (pool_balance s c + a) _ eq_refl). unfold amount_of. rewrite lsum_one.
    cbn [fst snd]. rewrite bool_decide_eq_true_2 by done. cbn. lia.
  - unfold distribute_rewards in H. apply rbind_ok in H as (cur & _ & H). apply rbind_ok in H as (from & _ & H).
    apply rbind_ok in H as (bound & _ & H). apply rbind_ok in H as ([] & _ & H).
    apply rbind_ok in H as (rw & Hrw & H). apply rbind_ok in H as (t & Ht & H).
    apply rbind_ok in H as ([] & Hc%ensure_ok & [= <- <-]). apply N.leb_le in Hc. cbn [r_denom].
    split; [done|]. split.
    + apply Forall_forall. intros [w v] Hin. apply elem_of_btree_iter in Hin. eapply cumulate_pos; [|exact Hrw|exact Hin].
      intros ? ?. by rewrite lookup_empty.
    + apply RewardsProofs3.sum_values in Ht.
      pose proof (pooled_insert s c (pool_balance s c - t) _ eq_refl). unfold pooled at 1. cbn [r_pools].
      pose proof (lsum_btree_iter (fun _ v => v) rw) as Hl. cbn beta in Hl.
      change (lsum snd (btree_iter rw)) with (lsum (fun x : addr * N => x.2) (btree_iter rw)). lia.
  - apply rbind_ok in H as (s1 & H & [= <- <-]). apply RewardsProofs.update_inv in H as (? & -> & _ & _ & ->). unfold pooled. cbn. done.
Qed.

(** ** The calls of a history *)
Section Books.
  Context (keccak : string -> string) (wshash : worker_set -> string)
          (sec1 : string -> option string)
          (crypto : key_type -> string -> string -> string -> option bool).
  Notation history := (history keccak wshash sec1 crypto).
  Notation sysrun := (sysrun keccak wshash sec1 crypto).
  Notation prefix := (prefix keccak wshash sec1 crypto).

  Lemma prefix_alone dep txs l st a : prefix dep txs l st -> as_alone keccak wshash crypto (dep !! a) a l (st !! a).
  Proof. intros [H _]. by eapply alone_steps. Qed.
  Lemma prefix_before dep txs l k st : prefix dep txs (l ++ [k]) st -> prefix dep txs l (k_chain k).
  Proof.
    intros [_ [post H]]. eapply prefix_at. rewrite <- app_assoc in H. exact H.
  Qed.

  (** A modelled contract attaches no coins. *)
  Lemma modelled_attach_nothing dep txs pre k post : history dep txs = pre ++ k :: post ->
    is_Some (dep !! k_sender k) -> sb_funds (k_sub k) = [].
  Proof.
    intros H Hd. destruct (called_by _ _ _ _ _ _ _ _ _ H Hd) as (p & Hp & (c & subs & d & l1 & l2 & Hr & -> & _) & Hto).
    assert (is_Some (k_chain p !! k_to p)) as [ct Hct].
    { apply elem_of_list_split in Hp as (q1 & q2 & ->). rewrite <- app_assoc in H. cbn in H.
      pose proof (c80_during keccak wshash sec1 crypto _ _ _ _ _ (k_to p) H) as Ha.
      rewrite Hto. destruct Hd as [d' Hd]. rewrite Hto, Hd in Ha.
      destruct d'; cbn in Ha; try (destruct Ha as [-> _]; eauto). destruct Ha as [s ->]. eauto. }
    unfold received, receive in Hr. unfold k_to in Hct. rewrite Hct in Hr.
    assert (Hin : forall subs, k_sub k ∈ subs -> Forall (fun s => sb_funds s = []) subs -> sb_funds (k_sub k) = []).
    { intros ss Hss HF. rewrite Forall_forall in HF. auto. }
    eapply Hin; [apply elem_of_app; right; by left|].
    destruct ct; repeat (apply rbind_ok in Hr as ([? ?] & _ & Hr) || apply rbind_ok in Hr as (? & _ & Hr));
      injection Hr as _ <- _.
    - unfold router_subs. destruct r0; try done. apply Forall_fmap, Forall_forall. done.
    - unfold gateway_subs. apply Forall_app. split; apply Forall_fmap, Forall_forall; done.
    - unfold nexus_subs. destruct n0; [apply Forall_fmap, Forall_forall; done|done].
    - unfold verifier_subs. destruct v0; try done. apply Forall_fmap, Forall_forall. done.
    - done.
    - done.
    - unfold multisig_subs. destruct m0; try done. by repeat constructor.
    - unfold prover_subs. destruct p1; by repeat constructor.
  Qed.
  (** *** What a contract received with calls, and paid *)
  Definition received_by (a : addr) (d : string) (l : list call) : N :=
    lsum (fun k => if bool_decide (k_to k = a) then amount_of d (sb_funds (k_sub k)) else 0) l.
  Definition paid_by (a : addr) (d : string) (l : list call) : N :=
    lsum (fun k => if bool_decide (k_to k = a) then moved d (payments k) else 0) l.
  Lemma received_by_snoc a d l k : received_by a d (l ++ [k]) =
    received_by a d l + if bool_decide (k_to k = a) then amount_of d (sb_funds (k_sub k)) else 0.
  Proof. unfold received_by. by rewrite lsum_app, lsum_one. Qed.
  Lemma paid_by_snoc a d l k : paid_by a d (l ++ [k]) =
    paid_by a d l + if bool_decide (k_to k = a) then moved d (payments k) else 0.
  Proof. unfold paid_by. by rewrite lsum_app, lsum_one. Qed.

  Lemma calls_snoc {Op} (f : call -> option Op) a l k :
    calls_to f a (l ++ [k]) = calls_to f a l ++
      match (if bool_decide (k_to k = a) then f k else None) with Some o => [o] | None => [] end.
  Proof.
    unfold calls_to. by rewrite omap_app.
  Qed.
  Lemma log_all {S Op Out E} (step : S -> Op -> res E (S * Out)) s0 ops op :
    (log step s0 (ops ++ [op])).*1 = ops ++ [op] -> (log step s0 ops).*1 = ops ->
    exists s' out, step (run step s0 ops) op = Ok (s', out) /\ run step s0 (ops ++ [op]) = s'.
  Proof.
    intros H1 H2. rewrite log_snoc, fmap_app, H2 in H1. apply app_inv_head in H1.
    rewrite run_snoc. unfold log1, exec in *. destruct (step (run step s0 ops) op) as [[s' out]|e|]; [eauto|done..].
  Qed.
  Lemma moved_fmap {A} (f : A -> move) d l :
    moved d (f <$> l) = lsum (fun x => if bool_decide (mv_denom (f x) = d) then mv_amount (f x) else 0) l.
  Proof. unfold moved. by rewrite lsum_fmap. Qed.

  Lemma rewards_covered dep txs a g dn p h : dep !! a = Some (DRewards g dn p h) ->
    forall l st, prefix dep txs l st -> exists s, st !! a = Some (CRewards s) /\ r_denom s = dn /\
      forall d, (if bool_decide (d = dn) then pooled s else 0) + paid_by a d l <= received_by a d l.
  Proof.
    intros Hd l. induction l as [|k l IH] using rev_ind; intros st Hp;
      pose proof (prefix_alone _ _ _ _ a Hp) as Ha; rewrite Hd in Ha; cbn [as_alone] in Ha; destruct Ha as [Hst Hlog].
    - eexists. split; [exact Hst|]. split; [done|]. intros d. cbn. case_bool_decide; done.
    - pose proof (prefix_before _ _ _ _ _ Hp) as Hp0. destruct (IH _ Hp0) as (s0 & Hs0 & Hdn & Hb).
      pose proof (prefix_alone _ _ _ _ a Hp0) as Ha0. rewrite Hd in Ha0. cbn [as_alone] in Ha0. destruct Ha0 as [Hst0 Hlog0].
      rewrite Hs0 in Hst0. injection Hst0 as Hs0'. eexists. split; [exact Hst|].
      unfold rewards_ops in *. rewrite calls_snoc in *.
      destruct (bool_decide (k_to k = a)) eqn:Eto.
      2: { rewrite app_nil_r in *. rewrite <- Hs0'. split; [done|]. intros d. rewrite paid_by_snoc, received_by_snoc, Eto, !N.add_0_r. apply Hb. }
      assert (forall d, paid_by a d (l ++ [k]) = paid_by a d l + moved d (payments k)) as Hpaid.
      { intros d. by rewrite paid_by_snoc, Eto. }
      assert (forall d, received_by a d (l ++ [k]) = received_by a d l + amount_of d (sb_funds (k_sub k))) as Hrec.
      { intros d. by rewrite received_by_snoc, Eto. }
      apply bool_decide_eq_true in Eto. unfold payments in Hpaid. fold (k_to k) in Hpaid. rewrite Eto, Hs0 in Hpaid.
      destruct (rewards_op _ _ _ _) as [op|] eqn:Eop.
      2: { rewrite app_nil_r in *. rewrite <- Hs0'. split; [done|]. intros d. rewrite Hpaid, Hrec. specialize (Hb d).
           change (moved d []) with 0. lia. }
      cbv match in Hlog |- *.
      destruct (log_all _ _ _ _ Hlog Hlog0) as (s' & out & Hstep & Hrun).
      rewrite Hrun. rewrite <- Hs0' in Hstep. rewrite Hstep in Hpaid.
      destruct (rewards_books _ _ _ _ Hstep) as (Hd' & _ & Hbk). split; [congruence|]. intros d. rewrite Hpaid, Hrec.
      rewrite moved_fmap. cbn [mv_denom mv_amount]. rewrite Hdn. specialize (Hb d).
      case_bool_decide as Hdd.
      + subst d. rewrite (lsum_ext _ snd) by (intros; by rewrite bool_decide_eq_true_2).
        assert (match op with AddRewards _ funds => amount_of (r_denom s0) funds | _ => 0 end <= amount_of dn (sb_funds (k_sub k))) as Hle.
        { rewrite Hdn. clear -Eop. destruct op; try lia. destruct (sb_body (k_sub k)); try discriminate Eop. injection Eop as -> ->. lia. }
        lia.
      + rewrite (lsum_ext _ (fun _ => 0)) by (intros; by rewrite bool_decide_eq_false_2). rewrite lsum_const. lia.
  Qed.

  Definition funded_calls (l : list call) : Prop := Forall (fun k => good_coins (sb_funds (k_sub k)) = true) l.
  Lemma good_coins_ok l : good_coins l = true <-> NoDup l.*1 /\ Forall (fun c => 0 < c.2 < U128) l.
  Proof.
    unfold good_coins. rewrite andb_true_iff, bool_decide_eq_true, forallb_forall, Forall_forall.
    split; intros [H1 H2]; (split; [done|]); intros x Hx.
    - apply elem_of_list_In in Hx. specialize (H2 _ Hx). lia.
    - apply elem_of_list_In in Hx. specialize (H2 _ Hx). lia.
  Qed.
  Lemma registry_funds_ok a l : funded_calls l -> Forall valid_funds (registry_ops a l).
  Proof.
    intros Hf. apply Forall_forall. intros op Hop. apply ops_elem in Hop as (k & Hk & _ & Ho).
    unfold funded_calls in Hf. rewrite Forall_forall in Hf. specialize (Hf _ Hk). apply good_coins_ok in Hf as [H1 H2].
    destruct op; try done. destruct (sb_body (k_sub k)); try discriminate Ho. injection Ho as _ <- _. cbn.
    split; [done|]. eapply Forall_impl; [exact H2|]. cbn. lia.
  Qed.
  Lemma registry_sent dep txs a g : dep !! a = Some (DRegistry g) ->
    forall l st, prefix dep txs l st -> forall d,
      paid_by a d l = sent (srlog g (registry_ops a l)) d /\ RegistrySpec.received (srlog g (registry_ops a l)) d <= received_by a d l.
  Proof.
    intros Hd l. induction l as [|k l IH] using rev_ind; intros st Hp d; [done|].
    pose proof (prefix_alone _ _ _ _ a Hp) as Ha. rewrite Hd in Ha. cbn [as_alone] in Ha. destruct Ha as [Hst Hlog].
    pose proof (prefix_before _ _ _ _ _ Hp) as Hp0. destruct (IH _ Hp0 d) as [IH1 IH2].
    pose proof (prefix_alone _ _ _ _ a Hp0) as Ha0. rewrite Hd in Ha0. cbn [as_alone] in Ha0. destruct Ha0 as [Hst0 Hlog0].
    rewrite paid_by_snoc, received_by_snoc. unfold registry_ops in *. rewrite calls_snoc in *.
    destruct (bool_decide (k_to k = a)) eqn:Eto.
    2: { rewrite app_nil_r in *. lia. }
    apply bool_decide_eq_true in Eto. unfold payments. fold (k_to k). rewrite Eto, Hst0.
    destruct (registry_op _ _ _ _) as [op|] eqn:Eop.
    2: { rewrite app_nil_r in *. change (moved d []) with 0. lia. }
    cbv match in Hlog |- *.
    destruct (log_all _ _ _ _ Hlog Hlog0) as (s' & out & Hstep & Hrun).
    unfold srlog in *. rewrite log_snoc. unfold log1.
    change (run registry_step (registry_init g) (calls_to _ a l)) with (run registry_step (registry_init g) (registry_ops a l)) in *.
    rewrite Hstep, sent_snoc, received_snoc, moved_fmap. cbn [mv_denom mv_amount].
    split. { f_equal; [exact IH1|]. unfold amount_of. by rewrite lsum_fmap. }
    assert (match op with BondWorker _ funds _ => amount_of d funds | _ => 0 end <= amount_of d (sb_funds (k_sub k))) as Hle.
    { clear -Eop. destruct op; try lia. destruct (sb_body (k_sub k)); try discriminate Eop. injection Eop as _ <- _. lia. }
    lia.
  Qed.
  Lemma registry_covered dep txs a g : dep !! a = Some (DRegistry g) ->
    forall l st, prefix dep txs l st -> funded_calls l -> exists s, st !! a = Some (CRegistry s) /\
      forall d, owed_in s d + paid_by a d l <= received_by a d l.
  Proof.
    intros Hd l st Hp Hf. pose proof (prefix_alone _ _ _ _ a Hp) as Ha. rewrite Hd in Ha. cbn [as_alone] in Ha. destruct Ha as [Hst Hlog].
    eexists. split; [exact Hst|]. intros d. destruct (registry_sent _ _ _ _ Hd _ _ Hp d) as [-> H2].
    pose proof (c41_balance g (registry_ops a l) d (registry_funds_ok _ _ Hf)) as Hb. unfold srrun in Hb. lia.
  Qed.
End Books.
