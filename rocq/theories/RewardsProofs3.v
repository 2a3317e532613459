(** Proofs about the rewards contract: shares, payouts, pools, parameters. *)
From Verif Require Import Base BaseLemmas StdModel StdSpec StdProofs RewardsModel RewardsSpec
  RewardsProofs RewardsProofs2.

(** C17 *)
Lemma workers_qualify t w : w ∈ workers_to_reward t <-> qualifies t w.
Proof.
  unfold workers_to_reward, qualifies. rewrite elem_of_list_omap. split.
  - intros ([w' n] & Hin & Hf). apply elem_of_btree_iter in Hin.
    destruct (threshold_try_from n (ty_count t)) as [p| |] eqn:Hp; try discriminate.
    apply c01_interval in Hp as (Hn & Hp1 & Hp2).
    destruct (threshold_geb p (rp_threshold (ty_params t))) eqn:Hge; [|discriminate].
    injection Hf as <-. exists n. split; [done|]. split; [lia|].
    unfold threshold_geb, threshold_cmp in Hge.
    destruct (N.compare_spec (t_num p * t_den (rp_threshold (ty_params t)))
               (t_num (rp_threshold (ty_params t)) * t_den p)) as [He|He|He];
      try discriminate; rewrite Hp1, Hp2 in He; lia.
  - intros (n & Hn & Hle & Hth). exists (w, n). split; [by apply elem_of_btree_iter|].
    assert (Hp : threshold_try_from n (ty_count t) = Ok {| t_num := n; t_den := ty_count t |})
      by (by apply c01_interval).
    rewrite Hp. unfold threshold_geb, threshold_cmp. cbn.
    destruct (N.compare_spec (n * t_den (rp_threshold (ty_params t)))
               (t_num (rp_threshold (ty_params t)) * ty_count t)); try done; lia.
Qed.

Lemma omap_fst_nodup {A B} (f : A * B -> option A) (l : list (A * B)) :
  (forall x y, f x = Some y -> y = x.1) -> NoDup l.*1 -> NoDup (omap f l).
Proof.
  intros Hf. induction l as [|x l IH]; cbn; intros Hnd; [constructor|].
  apply NoDup_cons in Hnd as [Hx Hnd]. destruct (f x) as [y|] eqn:Hy; [|auto].
  constructor; [|auto]. intros Hin. apply elem_of_list_omap in Hin as (z & Hz & Hfz).
  apply Hx. apply Hf in Hy. apply Hf in Hfz. apply elem_of_list_fmap. exists z. by subst.
Qed.

Lemma workers_nodup t : NoDup (workers_to_reward t).
Proof.
  apply omap_fst_nodup; [|apply btree_iter_NoDup]. intros [w n] y. cbn.
  destruct (threshold_try_from n (ty_count t)) as [p| |]; try done.
  destruct (threshold_geb _ _); congruence.
Qed.

Lemma lookup_const_map (ws : list addr) (v : N) w x :
  (list_to_map ((fun w => (w, v)) <$> ws) : gmap addr N) !! w = Some x <-> w ∈ ws /\ x = v.
Proof.
  induction ws as [|a ws IH]; cbn.
  - rewrite lookup_empty. set_solver.
  - rewrite lookup_insert_Some, IH, elem_of_cons. destruct (decide (a = w)); naive_solver.
Qed.

Lemma msum_const_map (ws : list addr) (v : N) :
  NoDup ws -> msum (fun _ x => x) (list_to_map ((fun w => (w, v)) <$> ws) : gmap addr N) =
  N.of_nat (length ws) * v.
Proof.
  induction ws as [|a ws IH]; cbn -[N.of_nat]; intros Hnd; [by rewrite msum_empty|].
  apply NoDup_cons in Hnd as [Ha Hnd]. rewrite msum_insert_fresh.
  - rewrite IH by done. lia.
  - apply eq_None_not_Some. intros [x Hl]. apply lookup_const_map in Hl. naive_solver.
Qed.

Lemma c17_shares t :
  exists qs, NoDup qs /\ (forall w, w ∈ qs <-> qualifies t w) /\
    (forall w v, rewards_by_worker t !! w = Some v <->
       qualifies t w /\ v = rp_rewards (ty_params t) / N.of_nat (length qs) /\ 0 < v) /\
    msum (fun _ v => v) (rewards_by_worker t) <= rp_rewards (ty_params t).
Proof.
  set (ws := workers_to_reward t). exists ws.
  split; [apply workers_nodup|]. split; [intros; apply workers_qualify|].
  unfold rewards_by_worker. fold ws. cbn zeta.
  destruct (length ws) eqn:Hlen; cbn -[N.div N.of_nat].
  { apply nil_length_inv in Hlen. split.
    - intros w v. rewrite lookup_empty. rewrite <- workers_qualify. fold ws. rewrite Hlen. set_solver.
    - rewrite msum_empty. lia. }
  rewrite <- Hlen. set (share := rp_rewards (ty_params t) / N.of_nat (length ws)).
  destruct (N.eqb_spec share 0) as [Hz|Hnz].
  - split; [|rewrite msum_empty; lia]. intros w v. rewrite lookup_empty.
    split; [done|]. intros (_ & -> & Hpos). lia.
  - split.
    + intros w v. rewrite lookup_const_map, <- workers_qualify. fold ws.
      split; intros; destruct_and?; repeat split; try done; subst; lia.
    + rewrite msum_const_map by apply workers_nodup. unfold share.
      apply N.mul_div_le. lia.
Qed.

Lemma rewards_pos t w v : rewards_by_worker t !! w = Some v -> 0 < v.
Proof. destruct (c17_shares t) as (qs & _ & _ & H & _). intros Hl. by apply H in Hl as (_ & _ & ?). Qed.

(** Merging. *)
Definition merged (r1 r2 : gmap addr N) : gmap addr N := union_with (fun a b => Some (a + b)) r1 r2.
Lemma merged_default r1 r2 w :
  default 0 (merged r1 r2 !! w) = default 0 (r1 !! w) + default 0 (r2 !! w).
Proof. unfold merged. rewrite lookup_union_with. destruct (r1 !! w), (r2 !! w); cbn; lia. Qed.
Lemma merged_sum r1 r2 :
  msum (fun _ v => v) (merged r1 r2) = msum (fun _ v => v) r1 + msum (fun _ v => v) r2.
Proof.
  revert r1. induction r2 as [|k a m Hk IH] using map_ind; intros r1.
  - assert (merged r1 ∅ = r1) as ->.
    { apply map_eq. intros w. unfold merged. rewrite lookup_union_with, lookup_empty. by destruct (r1 !! w). }
    rewrite msum_empty. lia.
  - assert (Hm : merged r1 (<[k := a]> m) = <[k := default 0 (r1 !! k) + a]> (merged r1 m)).
    { apply map_eq. intros w. destruct (decide (k = w)) as [<-|Hne].
      - rewrite lookup_insert. unfold merged. rewrite lookup_union_with, lookup_insert.
        by destruct (r1 !! k).
      - rewrite lookup_insert_ne by done. unfold merged. rewrite !lookup_union_with.
        by rewrite lookup_insert_ne. }
    rewrite Hm, (msum_insert_fresh _ m k a Hk).
    destruct (r1 !! k) as [x|] eqn:Hx; cbn.
    + assert (Hl : merged r1 m !! k = Some x) by (unfold merged; by rewrite lookup_union_with, Hx, Hk).
      pose proof (msum_insert (fun _ v => v) (merged r1 m) k x (x + a) Hl) as H.
      cbn beta in H. rewrite IH in H. lia.
    + rewrite msum_insert_fresh by (unfold merged; by rewrite lookup_union_with, Hx, Hk).
      rewrite IH. lia.
Qed.

Definition merge_fold (l : list (addr * N)) (acc : res rerror (gmap addr N)) :=
  fold_left (fun (acc : res rerror (gmap addr N)) '(w, amt) =>
               let? m := acc in
               let? v := add_u128 (default 0 (m !! w)) amt in
               Ok (<[w := v]> m)) l acc.

Lemma merge_fold_fail l r : (forall m, r <> Ok m) -> forall m, merge_fold l r <> Ok m.
Proof.
  revert r. induction l as [|[w a] l IH]; intros r Hr m; cbn; [apply Hr|].
  apply IH. intros m'. destruct r; cbn; try done. by destruct (Hr a0).
Qed.

Lemma merged_insert r1 m w a :
  m !! w = None ->
  merged (<[w := default 0 (r1 !! w) + a]> r1) m = merged r1 (<[w := a]> m).
Proof.
  intros Hw. apply map_eq. intros w'. unfold merged. rewrite !lookup_union_with.
  destruct (decide (w = w')) as [<-|Hne].
  - rewrite !lookup_insert, Hw. by destruct (r1 !! w).
  - by rewrite !lookup_insert_ne.
Qed.

Lemma merge_fold_ok l r m :
  NoDup l.*1 -> merge_fold l (Ok r) = Ok m -> m = merged r (list_to_map l).
Proof.
  revert r. induction l as [|[w a] l IH]; intros r Hnd H; cbn in *.
  - injection H as <-. apply map_eq. intros w. unfold merged. rewrite lookup_union_with, lookup_empty.
    by destruct (r !! w).
  - apply NoDup_cons in Hnd as [Hw Hnd].
    destruct (add_u128 (default 0 (r !! w)) a) as [v| |] eqn:Hv; cbn in H.
    + apply add_u128_ok in Hv as [_ ->]. apply IH in H; [|done]. rewrite H.
      apply merged_insert. by apply not_elem_of_list_to_map_1.
    + by destruct (merge_fold_fail l (Err e) ltac:(done) m).
    + by destruct (merge_fold_fail l Panic ltac:(done) m).
Qed.

Lemma merge_fold_total l r :
  NoDup l.*1 -> (forall w, default 0 (merged r (list_to_map l) !! w) < U128) ->
  merge_fold l (Ok r) = Ok (merged r (list_to_map l)).
Proof.
  revert r. induction l as [|[w a] l IH]; intros r Hnd H; cbn in *.
  - f_equal. apply map_eq. intros w. unfold merged. rewrite lookup_union_with, lookup_empty.
    by destruct (r !! w).
  - apply NoDup_cons in Hnd as [Hw Hnd].
    assert (Hn : (list_to_map l : gmap addr N) !! w = None) by (by apply not_elem_of_list_to_map_1).
    assert (Hlt : default 0 (r !! w) + a < U128).
    { specialize (H w). rewrite merged_default, lookup_insert in H. exact H. }
    unfold add_u128, checked. apply N.ltb_lt in Hlt. rewrite Hlt. cbn.
    rewrite IH; [by rewrite merged_insert|done|]. intros w'. rewrite merged_insert by done. apply H.
Qed.

Lemma btree_to_map {A} (m : gmap addr A) : list_to_map (btree_iter m) = m.
Proof.
  apply map_eq. intros w. apply option_eq. intros x.
  rewrite <- elem_of_list_to_map by apply btree_iter_NoDup. apply elem_of_btree_iter.
Qed.

Lemma merge_ok r1 r2 m : merge_rewards r1 r2 = Ok m -> m = merged r1 r2.
Proof.
  intros H. apply merge_fold_ok in H; [|apply btree_iter_NoDup]. by rewrite btree_to_map in H.
Qed.
Lemma merge_total r1 r2 :
  (forall w, default 0 (merged r1 r2 !! w) < U128) -> merge_rewards r1 r2 = Ok (merged r1 r2).
Proof.
  intros H. unfold merge_rewards. fold (merge_fold (btree_iter r2) (Ok r1)).
  rewrite merge_fold_total; rewrite ?btree_to_map; [done|apply btree_iter_NoDup|done].
Qed.

(** Cumulating over epochs. *)
Definition epoch_rewards (s : rstate) (c : addr) (n : N) : gmap addr N :=
  match r_tallies s !! (c, n) with Some t => rewards_by_worker t | None => ∅ end.

Definition cumul_fold (s : rstate) (c : addr) (l : list N) (acc : res rerror (gmap addr N)) :=
  fold_left (fun acc n =>
               let? m := acc in
               match r_tallies s !! (c, n) with
               | Some t => merge_rewards m (rewards_by_worker t)
               | None => Ok m
               end) l acc.

Lemma cumul_fail s c l r : (forall m, r <> Ok m) -> forall m, cumul_fold s c l r <> Ok m.
Proof.
  revert r. induction l as [|n l IH]; intros r Hr m; cbn; [apply Hr|].
  apply IH. intros m'. destruct r; cbn; try done. by destruct (Hr a).
Qed.

Lemma merged_empty r : merged r ∅ = r.
Proof.
  apply map_eq. intros w. unfold merged. rewrite lookup_union_with, lookup_empty. by destruct (r !! w).
Qed.

Definition pos (m : gmap addr N) : Prop := forall w v, m !! w = Some v -> 0 < v.
Lemma pos_empty : pos ∅.
Proof. intros w v. by rewrite lookup_empty. Qed.
Lemma merged_pos r1 r2 : pos r1 -> pos r2 -> pos (merged r1 r2).
Proof.
  intros H1 H2 w v. unfold merged. rewrite lookup_union_with.
  destruct (r1 !! w) eqn:E1, (r2 !! w) eqn:E2; cbn; intros [= <-]; eauto.
  apply H1 in E1. lia.
Qed.
Lemma epoch_rewards_pos s c n : pos (epoch_rewards s c n).
Proof.
  intros w v. unfold epoch_rewards. destruct (r_tallies s !! (c, n)); [apply rewards_pos|].
  by rewrite lookup_empty.
Qed.
Lemma epoch_rewards_owed s c n w : default 0 (epoch_rewards s c n !! w) = owed s c n w.
Proof. unfold epoch_rewards, owed. destruct (r_tallies s !! (c, n)); [done|]. by rewrite lookup_empty. Qed.
Lemma epoch_rewards_total s c n : msum (fun _ v => v) (epoch_rewards s c n) = owed_total s c n.
Proof. unfold epoch_rewards, owed_total. by destruct (r_tallies s !! (c, n)). Qed.

Lemma cumul_step s c r n :
  (match r_tallies s !! (c, n) with
   | Some t => merge_rewards r (rewards_by_worker t) | None => Ok r end) =
  match r_tallies s !! (c, n) with
   | Some t => merge_rewards r (epoch_rewards s c n) | None => Ok r end.
Proof. unfold epoch_rewards. by destruct (r_tallies s !! (c, n)). Qed.

Lemma cumul_ok s c l r m :
  pos r -> cumul_fold s c l (Ok r) = Ok m ->
  pos m /\
  (forall w, default 0 (m !! w) = default 0 (r !! w) + lsum (fun n => owed s c n w) l) /\
  msum (fun _ v => v) m = msum (fun _ v => v) r + lsum (owed_total s c) l.
Proof.
  revert r. induction l as [|n l IH]; intros r Hr H; [|rewrite lsum_cons; cbn [cumul_fold fold_left rbind] in H].
  - cbn in *. injection H as <-. split; [done|]. split; [intros; lia|lia].
  - assert (Hm : exists m', match r_tallies s !! (c, n) with
                | Some t => merge_rewards r (rewards_by_worker t) | None => Ok r end = Ok m' /\
                m' = merged r (epoch_rewards s c n)).
    { unfold epoch_rewards. destruct (r_tallies s !! (c, n)) as [t|] eqn:Ht.
      - destruct (merge_rewards r (rewards_by_worker t)) as [m'| |] eqn:Hm'.
        + exists m'. split; [done|]. by apply merge_ok.
        + by destruct (cumul_fail s c l (Err e) ltac:(done) m).
        + by destruct (cumul_fail s c l Panic ltac:(done) m).
      - exists r. split; [done|]. by rewrite merged_empty. }
    destruct Hm as (m' & Hm1 & ->). rewrite Hm1 in H.
    apply IH in H; [|by apply merged_pos, epoch_rewards_pos].
    destruct H as (H1 & H2 & H3). split; [done|]. split.
    + intros w. rewrite lsum_cons, H2, merged_default, epoch_rewards_owed. lia.
    + rewrite H3, merged_sum, epoch_rewards_total. lia.
Qed.

Lemma msum_default_le (m : gmap addr N) w : default 0 (m !! w) <= msum (fun _ v => v) m.
Proof.
  destruct (m !! w) eqn:Hw; cbn; [|lia]. apply (msum_lookup_le (fun _ v => v) _ _ _ Hw).
Qed.

Lemma cumul_total s c l r :
  msum (fun _ v => v) r + lsum (owed_total s c) l < U128 ->
  exists m, cumul_fold s c l (Ok r) = Ok m.
Proof.
  revert r. induction l as [|n l IH]; intros r H; [by eexists|].
  rewrite lsum_cons in H. cbn [cumul_fold fold_left rbind].
  assert (Hm : match r_tallies s !! (c, n) with
                | Some t => merge_rewards r (rewards_by_worker t) | None => Ok r end =
                Ok (merged r (epoch_rewards s c n))).
  { pose proof (epoch_rewards_total s c n) as Ht. unfold epoch_rewards in *.
    destruct (r_tallies s !! (c, n)) as [t|] eqn:Hl.
    - apply merge_total. intros w.
      pose proof (msum_default_le (merged r (rewards_by_worker t)) w).
      rewrite merged_sum in *. lia.
    - by rewrite merged_empty. }
  rewrite Hm. apply IH. rewrite merged_sum, epoch_rewards_total. lia.
Qed.

Definition sum_fold (l : list N) (acc : res rerror N) :=
  fold_left (fun acc n => let? a := acc in add_u128 a n) l acc.
Lemma sum_fold_spec l a :
  match sum_fold l (Ok a) with
  | Ok t => t = a + lsum (fun x => x) l
  | Err _ => False
  | Panic => U128 <= a + lsum (fun x => x) l
  end.
Proof.
  assert (Hp : forall l, sum_fold l Panic = Panic) by (induction l0; cbn; auto).
  revert a. induction l as [|x l IH]; intros a; [cbn; lia|].
  rewrite lsum_cons. change (sum_fold (x :: l) (Ok a)) with (sum_fold l (add_u128 a x)).
  unfold add_u128, checked. destruct (N.ltb_spec (a + x) U128).
  - specialize (IH (a + x)). destruct (sum_fold l (Ok (a + x))); [lia|done|lia].
  - rewrite Hp. lia.
Qed.

Lemma lsum_btree (m : gmap addr N) : lsum snd (btree_iter m) = msum (fun _ v => v) m.
Proof. rewrite msum_to_list. unfold btree_iter. apply lsum_perm, isort_perm. Qed.

Lemma sum_values (m : gmap addr N) t :
  sum_u128 (btree_iter m).*2 = Ok t -> t = msum (fun _ v => v) m.
Proof.
  intros H. pose proof (sum_fold_spec (btree_iter m).*2 0) as Hs. unfold sum_u128 in H.
  unfold sum_fold in Hs. rewrite H in Hs. rewrite lsum_fmap in Hs.
  rewrite <- lsum_btree. exact Hs.
Qed.
Lemma sum_values_total (m : gmap addr N) :
  msum (fun _ v => v) m < U128 -> sum_u128 (btree_iter m).*2 = Ok (msum (fun _ v => v) m).
Proof.
  intros H. pose proof (sum_fold_spec (btree_iter m).*2 0) as Hs. unfold sum_u128.
  unfold sum_fold in Hs. rewrite lsum_fmap in Hs. rewrite <- lsum_btree in *.
  assert (Heq : lsum (fun a : addr * N => a.2) (btree_iter m) = lsum snd (btree_iter m)) by done.
  rewrite Heq in Hs. clear Heq. destruct (fold_left _ _ _); [f_equal; lia|done|lia].
Qed.

(** C18 and C20: one call. *)
Lemma c18_call s h c limit s' out :
  rinv s -> rewards_step s (Distribute h c limit) = Ok (s', out) ->
  exists e,
    current_epoch s h = Ok e /\
    next_epoch s c < next_epoch s' c /\ next_epoch s' c + 1 <= e_num e /\
    next_epoch s' c = N.min (next_epoch s c + N.max 1 (limit_of limit)) (e_num e - 1) /\
    NoDup out.*1 /\
    (forall w a, (w, a) ∈ out <->
       0 < a /\ a = lsum (fun n => owed s c n w) (between (next_epoch s c) (next_epoch s' c))) /\
    lsum snd out = lsum (owed_total s c) (between (next_epoch s c) (next_epoch s' c)) /\
    pool_balance s' c + lsum snd out = pool_balance s c /\
    (forall c', c' <> c -> r_pools s' !! c' = r_pools s !! c' /\ r_marks s' !! c' = r_marks s !! c') /\
    r_tallies s' = r_tallies s /\ r_events s' = r_events s /\ r_params s' = r_params s /\
    r_updated s' = r_updated s.
Proof.
  intros Hinv Hs. cbn in Hs. apply distribute_inv in Hs; [|apply (ri_m s Hinv)].
  destruct Hs as (cur & to & r & Hcur & Hl & Hto & Hle & H2 & Hcum & total & Hsum & Hbal & -> & Hs').
  assert (Hnext : next_epoch s' c = to + 1).
  { rewrite Hs'. unfold next_epoch. cbn. by rewrite lookup_insert. }
  exists cur. split; [done|]. rewrite Hnext. clear Hnext.
  unfold limit_of, DEFAULT_EPOCHS_TO_PROCESS in *.
  split; [lia|]. split; [lia|]. split; [lia|].
  split; [apply btree_iter_NoDup|].
  apply (cumul_ok s c _ ∅ r pos_empty) in Hcum as (Hpos & Hval & Htot).
  rewrite msum_empty in Htot. fold (between (next_epoch s c) (to + 1)) in *.
  apply sum_values in Hsum.
  split.
  { intros w a. rewrite elem_of_btree_iter. specialize (Hval w). rewrite lookup_empty in Hval. cbn in Hval.
    rewrite N.add_0_l in Hval. unfold epoch_range in Hval. fold (between (next_epoch s c) (to + 1)) in Hval.
    rewrite <- Hval. split.
    - intros Hw. rewrite Hw. split; [by eapply Hpos|done].
    - intros [Ha ->]. destruct (r !! w); cbn in *; [done|lia]. }
  rewrite lsum_btree.
  split; [rewrite Htot; done|].
  split.
  { rewrite Hs'. unfold pool_balance at 1. cbn. rewrite lookup_insert. cbn. lia. }
  rewrite Hs'. cbn. split; [|done].
  intros c' Hc'. by rewrite !lookup_insert_ne by done.
Qed.

Lemma c20_accepts s h c limit :
  rinv s ->
  is_ok (rewards_step s (Distribute h c limit)) = true <->
  exists e, current_epoch s h = Ok e /\
    next_epoch s c + limit_of limit < U64 /\
    (1 <= limit_of limit \/ next_epoch s c = 0) /\ next_epoch s c + 2 <= e_num e /\
    lsum (owed_total s c) (between (next_epoch s c)
        (N.min (next_epoch s c + N.max 1 (limit_of limit)) (e_num e - 1))) <= pool_balance s c.
Proof.
  intros Hinv. split.
  - destruct (rewards_step s (Distribute h c limit)) as [[s' out]| |] eqn:Hs; try discriminate. intros _.
    pose proof (c18_call _ _ _ _ _ _ Hinv Hs) as (e & He & Hlt & Hle & Hmin & _ & _ & Htot & Hbal & _).
    cbn in Hs. apply distribute_inv in Hs; [|apply (ri_m s Hinv)].
    destruct Hs as (? & ? & ? & _ & Hl & Hto & Hft & _).
    exists e. split; [done|]. split; [done|].
    split; [unfold limit_of, DEFAULT_EPOCHS_TO_PROCESS in *; lia|]. split; [lia|].
    rewrite <- Hmin, <- Htot. lia.
  - intros (e & He & Hl & H1 & H2 & Hbal). cbn. unfold distribute_rewards. rewrite He. cbn [rbind].
    assert (Hfrom : match r_marks s !! c with Some last => add_u64 last 1 | None => Ok 0 end =
                    Ok (E := rerror) (next_epoch s c)).
    { unfold next_epoch. destruct (r_marks s !! c) eqn:Hm; [|done].
      apply (ri_m s Hinv) in Hm. unfold add_u64, checked. apply N.ltb_lt in Hm. by rewrite Hm. }
    rewrite Hfrom. cbn [rbind]. unfold limit_of, DEFAULT_EPOCHS_TO_PROCESS in *.
    set (lim := default 10 limit) in *. set (from := next_epoch s c) in *.
    unfold add_u64 at 1, checked at 1. destruct (N.ltb_spec (from + lim) U64); [|lia]. cbn [rbind].
    unfold EPOCH_PAYOUT_DELAY. set (to := N.min (from + lim - 1) (e_num e - 2)).
    destruct (N.ltb_spec to from) as [Hlt|Hge]; [lia|].
    destruct (N.ltb_spec (e_num e) 2); [lia|]. cbn [orb negb ensure rbind].
    replace (N.min (from + N.max 1 lim) (e_num e - 1)) with (to + 1) in Hbal by lia.
    assert (HU : pool_balance s c < U128).
    { unfold pool_balance. destruct (r_pools s !! c) eqn:Hp; cbn; [by apply (ri_b s Hinv) in Hp|done]. }
    destruct (cumul_total s c (epoch_range from to) ∅) as [m Hm].
    { rewrite msum_empty. unfold epoch_range. fold (between from (to + 1)). lia. }
    unfold cumulate_rewards. fold (cumul_fold s c (epoch_range from to) (Ok ∅)). rewrite Hm.
    cbn [rbind]. apply (cumul_ok s c _ ∅ m pos_empty) in Hm as (_ & _ & Htot).
    rewrite msum_empty in Htot. unfold epoch_range in Htot. fold (between from (to + 1)) in Htot.
    rewrite sum_values_total by lia. cbn [rbind].
    destruct (N.leb_spec (msum (fun _ v => v) m) (pool_balance s c)); [done|lia].
Qed.

Lemma c19_insufficient s h c limit e :
  rinv s -> current_epoch s h = Ok e ->
  next_epoch s c + limit_of limit < U64 -> 1 <= limit_of limit -> next_epoch s c + 2 <= e_num e ->
  let due := lsum (owed_total s c) (between (next_epoch s c)
        (N.min (next_epoch s c + N.max 1 (limit_of limit)) (e_num e - 1))) in
  pool_balance s c < due < U128 ->
  rewards_step s (Distribute h c limit) = Err PoolBalanceInsufficient.
Proof.
  intros Hinv He Hl H1 H2 due Hdue. cbn. unfold distribute_rewards. rewrite He. cbn [rbind].
  assert (Hfrom : match r_marks s !! c with Some last => add_u64 last 1 | None => Ok 0 end =
                  Ok (E := rerror) (next_epoch s c)).
  { unfold next_epoch. destruct (r_marks s !! c) eqn:Hm; [|done].
    apply (ri_m s Hinv) in Hm. unfold add_u64, checked. apply N.ltb_lt in Hm. by rewrite Hm. }
  rewrite Hfrom. cbn [rbind]. unfold due in Hdue. clear due.
  unfold limit_of, DEFAULT_EPOCHS_TO_PROCESS in *.
  set (lim := default 10 limit) in *. set (from := next_epoch s c) in *.
  unfold add_u64 at 1, checked at 1. destruct (N.ltb_spec (from + lim) U64); [|lia]. cbn [rbind].
  unfold EPOCH_PAYOUT_DELAY. set (to := N.min (from + lim - 1) (e_num e - 2)).
  destruct (N.ltb_spec to from) as [Hlt|Hge]; [lia|].
  destruct (N.ltb_spec (e_num e) 2); [lia|]. cbn [orb negb ensure rbind].
  replace (N.min (from + N.max 1 lim) (e_num e - 1)) with (to + 1) in Hdue by lia.
  destruct (cumul_total s c (epoch_range from to) ∅) as [m Hm].
  { rewrite msum_empty. unfold epoch_range. fold (between from (to + 1)). lia. }
  unfold cumulate_rewards. fold (cumul_fold s c (epoch_range from to) (Ok ∅)). rewrite Hm.
  cbn [rbind]. apply (cumul_ok s c _ ∅ m pos_empty) in Hm as (_ & _ & Htot).
  rewrite msum_empty in Htot. unfold epoch_range in Htot. fold (between from (to + 1)) in Htot.
  rewrite sum_values_total by lia. cbn [rbind].
  destruct (N.leb_spec (msum (fun _ v => v) m) (pool_balance s c)); [lia|done].
Qed.

(** Other calls do not move the watermark. *)
Lemma marks_frame s op s' out c :
  rinv s -> rewards_step s op = Ok (s', out) ->
  (forall h limit, op <> Distribute h c limit) -> next_epoch s' c = next_epoch s c.
Proof.
  intros Hinv Hs Hne. destruct op as [h c0 ev w|c0 funds|h c0 limit|h g p].
  - cbn in Hs. apply rbind_ok in Hs as (s1 & Hs & H1). injection H1 as <- <-.
    destruct (record_inv _ _ _ _ _ _ Hs Hinv) as (? & ? & ? & ? & ? & ? & ? & ? & ? & ? & ? & -> & _). done.
  - cbn in Hs. apply rbind_ok in Hs as (s1 & Hs & H1). injection H1 as <- <-.
    by apply add_inv in Hs as (? & _ & _ & _ & ->).
  - destruct (decide (c0 = c)) as [->|Hc]; [by destruct (Hne h limit)|].
    pose proof (c18_call _ _ _ _ _ _ Hinv Hs) as (e & _ & _ & _ & _ & _ & _ & _ & _ & Ho & _).
    unfold next_epoch. by rewrite (proj2 (Ho c ltac:(done))).
  - cbn in Hs. apply rbind_ok in Hs as (s1 & Hs & H1). injection H1 as <- <-.
    by apply update_inv in Hs as (? & -> & _ & _ & ->).
Qed.

Lemma elem_of_between a b n : n ∈ between a b <-> a <= n < b.
Proof.
  unfold between. rewrite elem_of_list_fmap. split.
  - intros (i & -> & Hi). apply elem_of_seq in Hi. lia.
  - intros H. exists (N.to_nat (n - a)). split; [lia|]. apply elem_of_seq. lia.
Qed.
Lemma between_length a b : N.of_nat (length (between a b)) = b - a.
Proof. unfold between. rewrite fmap_length, seq_length. lia. Qed.
Lemma between_lookup a b i x : between a b !! i = Some x <-> x = a + N.of_nat i /\ x < b.
Proof.
  unfold between. rewrite list_lookup_fmap. destruct (seq 0 (N.to_nat (b - a)) !! i) as [j|] eqn:Hj; cbn.
  - apply lookup_seq in Hj as [-> Hj]. split; [intros [= <-]; lia|]. intros [-> _]. f_equal.
  - apply lookup_ge_None in Hj. rewrite seq_length in Hj. split; [done|]. lia.
Qed.
Lemma between_app a b d : a <= b -> b <= d -> between a b ++ between b d = between a d.
Proof.
  intros H1 H2. apply list_eq. intros i. apply option_eq. intros x.
  rewrite lookup_app_Some, !between_lookup.
  pose proof (between_length a b). split.
  - intros [[-> ?]|[? [-> ?]]]; lia.
  - intros [-> ?]. destruct (N.ltb_spec (a + N.of_nat i) b); [left|right]; lia.
Qed.
Lemma between_nil a : between a a = [].
Proof. unfold between. by replace (a - a) with 0 by lia. Qed.

Lemma c18_epochs_from s ops c :
  rinv s -> Forall valid_rop ops ->
  next_epoch s c <= next_epoch (run rewards_step s ops) c /\
  paid_epochs s ops c = between (next_epoch s c) (next_epoch (run rewards_step s ops) c).
Proof.
  intros Hinv Hops. revert s Hinv. induction Hops as [|op ops Hop Hops IH]; intros s Hinv;
    cbn [paid_epochs run].
  - split; [lia|]. by rewrite between_nil.
  - unfold exec. destruct (rewards_step s op) as [[s' out]| |] eqn:Hs.
    + destruct (IH s' ltac:(by eapply rinv_step)) as [Hle Heq]. rewrite Heq.
      assert (Hcase : (exists h limit, op = Distribute h c limit) \/ ~ exists h limit, op = Distribute h c limit).
      { destruct op as [| |h c0 limit|]; try (right; naive_solver).
        destruct (decide (c0 = c)) as [->|]; [left; eauto|right; naive_solver]. }
      destruct Hcase as [(h & limit & ->)|Hne].
      * rewrite bool_decide_eq_true_2 by done.
        pose proof (c18_call _ _ _ _ _ _ Hinv Hs) as (e & _ & Hlt & _).
        rewrite Hs. split; [lia|]. apply between_app; lia.
      * assert (Hf : next_epoch s' c = next_epoch s c).
        { eapply marks_frame; eauto. }
        rewrite Hf in *. split; [done|].
        destruct op as [h c0 ev w|c0 funds|h c0 limit|h g p]; try done.
        rewrite Hs, bool_decide_eq_false_2; [done|]. intros ->. apply Hne. eauto.
    + destruct (IH s Hinv) as [Hle Heq]. rewrite Heq. split; [done|]. destruct op; rewrite ?Hs; done.
    + destruct (IH s Hinv) as [Hle Heq]. rewrite Heq. split; [done|]. destruct op; rewrite ?Hs; done.
Qed.

Lemma c18_epochs i ops c :
  valid_rinit i -> Forall valid_rop ops ->
  paid_epochs (rstart i) ops c = between 0 (next_epoch (rrun i ops) c).
Proof.
  intros Hi Hops. apply (c18_epochs_from (rstart i) ops c); [by apply rinv_init|done].
Qed.

Lemma c18_paid_once i ops1 ops2 c n :
  valid_rinit i -> Forall valid_rop (ops1 ++ ops2) ->
  n < next_epoch (rrun i ops1) c -> n ∉ paid_epochs (rrun i ops1) ops2 c.
Proof.
  intros Hi Hops Hn. apply Forall_app in Hops as [H1 H2].
  destruct (c18_epochs_from (rrun i ops1) ops2 c) as [_ ->]; [by apply rinv_run|done|].
  rewrite elem_of_between. lia.
Qed.

(** C19 *)
Lemma c19_conserve i ops c :
  valid_rinit i -> Forall valid_rop ops ->
  deposited c (rlog i ops) = pool_balance (rrun i ops) c + withdrawn c (rlog i ops).
Proof.
  intros Hi Hops.
  enough (rinv (rrun i ops) /\
          deposited c (rlog i ops) = pool_balance (rrun i ops) c + withdrawn c (rlog i ops)) by tauto.
  unfold rrun, rlog.
  apply (run_log_inv_ops _ valid_rop (fun s l => rinv s /\
          deposited c l = pool_balance s c + withdrawn c l)); [done|split; [by apply rinv_init|done]|].
  intros s l op s' out Hop [Hinv IH] Hs. split; [by eapply rinv_step|].
  unfold deposited, withdrawn in *. rewrite !lsum_app, !lsum_one. cbn [fst snd].
  destruct op as [h c0 ev w|c0 funds|h c0 limit|h g p].
  - cbn in Hs. apply rbind_ok in Hs as (s1 & Hs & H1). injection H1 as <- <-.
    destruct (record_inv _ _ _ _ _ _ Hs Hinv) as (? & ? & ? & ? & ? & ? & ? & ? & ? & ? & ? & -> & _).
    unfold pool_balance in *. cbn [r_pools]. lia.
  - cbn in Hs. apply rbind_ok in Hs as (s1 & Hs & H1). injection H1 as <- <-.
    apply add_inv in Hs as (a & -> & _ & _ & ->). rewrite lsum_one. cbn [snd].
    unfold pool_balance in *. cbn [r_pools].
    destruct (decide (c0 = c)) as [->|Hc].
    + rewrite bool_decide_eq_true_2, lookup_insert by done. cbn [default]. unfold default, id in *. lia.
    + rewrite bool_decide_eq_false_2, lookup_insert_ne by done. lia.
  - pose proof (c18_call _ _ _ _ _ _ Hinv Hs) as (e & _ & _ & _ & _ & _ & _ & _ & Hbal & Ho & _).
    destruct (decide (c0 = c)) as [->|Hc].
    + rewrite bool_decide_eq_true_2 by done. lia.
    + rewrite bool_decide_eq_false_2 by done. unfold pool_balance in *.
      rewrite (proj1 (Ho c ltac:(done))). lia.
  - cbn in Hs. apply rbind_ok in Hs as (s1 & Hs & H1). injection H1 as <- <-.
    apply update_inv in Hs as (? & -> & _ & _ & ->). unfold pool_balance in *. cbn [r_pools]. lia.
Qed.

(** C21 *)
Lemma tally_step s op s' out c n t :
  rinv s -> rewards_step s op = Ok (s', out) -> r_tallies s !! (c, n) = Some t ->
  exists t', r_tallies s' !! (c, n) = Some t' /\ tally_fixed t' = tally_fixed t /\
    ty_count t <= ty_count t' /\ forall w, default 0 (ty_part t !! w) <= default 0 (ty_part t' !! w).
Proof.
  intros Hinv Hs Ht. destruct op as [h c0 ev w|c0 funds|h c0 limit|h g p].
  2-4: destruct (step_frame _ _ _ _ Hinv Hs ltac:(done)) as [-> _]; exists t; done.
  cbn in Hs. apply rbind_ok in Hs as (s1 & Hs & H1). injection H1 as <- <-.
  destruct (record_inv _ _ _ _ _ _ Hs Hinv) as
    (cur & num & t0 & x & cnt & Hcur & Hnum & Ht0 & Hsome & Hn & Hcnt & -> & Hc0 & He0 & Hp0). cbn.
  destruct (decide ((c0, num) = (c, n))) as [[= <- <-]|Hne].
  - rewrite Ht in Ht0. subst t0. rewrite lookup_insert. eexists. split; [done|].
    unfold tally_fixed. cbn. split; [by rewrite Hc0|]. split.
    + subst cnt. destruct (r_events s !! (ev, c0)); lia.
    + intros w'. destruct (decide (w = w')) as [<-|Hw].
      * rewrite lookup_insert. cbn. lia.
      * rewrite lookup_insert_ne by done. lia.
  - rewrite lookup_insert_ne by done. exists t. done.
Qed.

Lemma c21_fixed i ops ops' c n t :
  valid_rinit i -> Forall valid_rop (ops ++ ops') ->
  r_tallies (rrun i ops) !! (c, n) = Some t ->
  exists t', r_tallies (rrun i (ops ++ ops')) !! (c, n) = Some t' /\ tally_fixed t' = tally_fixed t /\
    ty_count t <= ty_count t' /\ forall w, default 0 (ty_part t !! w) <= default 0 (ty_part t' !! w).
Proof.
  intros Hi Hops. apply Forall_app in Hops as [H1 H2].
  unfold rrun at 2. rewrite run_app. fold (rrun i ops).
  apply (run_rel_ops rewards_step valid_rop rinv
    (fun s s' => forall t, r_tallies s !! (c, n) = Some t -> 
       exists t', r_tallies s' !! (c, n) = Some t' /\ tally_fixed t' = tally_fixed t /\
    ty_count t <= ty_count t' /\ forall w, default 0 (ty_part t !! w) <= default 0 (ty_part t' !! w)) (rrun i ops) ops').
  - done.
  - by apply rinv_run.
  - intros. eapply rinv_step; eauto.
  - intros s t0 Ht. exists t0. done.
  - intros a b d Hab Hbd t0 Ht. destruct (Hab t0 Ht) as (t1 & Ht1 & Hf1 & Hc1 & Hp1).
    destruct (Hbd t1 Ht1) as (t2 & Ht2 & Hf2 & Hc2 & Hp2). exists t2.
    split; [done|]. split; [congruence|]. split; [lia|]. intros w. specialize (Hp1 w). specialize (Hp2 w). lia.
  - intros. eapply tally_step; eauto.
Qed.

Lemma c21_origin i ops c n t :
  valid_rinit i -> Forall valid_rop ops ->
  r_tallies (rrun i ops) !! (c, n) = Some t ->
  exists ops1 h ev w ops2,
    ops = ops1 ++ Record_ h c ev w :: ops2 /\
    event_count (rrun i ops1) c n = 0 /\
    is_ok (rewards_step (rrun i ops1) (Record_ h c ev w)) = true /\
    current_epoch (rrun i ops1) h = Ok (ty_epoch t) /\ e_num (ty_epoch t) = n /\
    ty_params t = r_params (rrun i ops1).
Proof.
  intros Hi. revert t. induction ops as [|op ops IH] using rev_ind; intros t Hops Ht; [done|].
  apply Forall_app in Hops as [Hops Hop]. apply Forall_inv in Hop.
  assert (Hext : forall t0, r_tallies (rrun i ops) !! (c, n) = Some t0 -> tally_fixed t0 = tally_fixed t ->
    exists ops1 h ev w ops2,
      ops ++ [op] = ops1 ++ Record_ h c ev w :: ops2 /\
      event_count (rrun i ops1) c n = 0 /\
      is_ok (rewards_step (rrun i ops1) (Record_ h c ev w)) = true /\
      current_epoch (rrun i ops1) h = Ok (ty_epoch t) /\ e_num (ty_epoch t) = n /\
      ty_params t = r_params (rrun i ops1)).
  { intros t0 Ht0 Hf. destruct (IH t0 Hops Ht0) as (ops1 & h & ev & w & ops2 & -> & H).
    exists ops1, h, ev, w, (ops2 ++ [op]). split; [by rewrite <- app_assoc|].
    unfold tally_fixed in Hf. injection Hf as Hf1 Hf2 Hf3. by rewrite <- Hf2, <- Hf3. }
  pose proof (rinv_run i ops Hi Hops) as Hinv.
  unfold rrun in Ht. rewrite run_snoc in Ht. fold (rrun i ops) in Ht. unfold exec in Ht.
  destruct (rewards_step (rrun i ops) op) as [[s' out]| |] eqn:Hs; [|by apply (Hext t)..].
  destruct (r_tallies (rrun i ops) !! (c, n)) as [t0|] eqn:Ht0.
  - destruct (tally_step _ _ _ _ _ _ _ Hinv Hs Ht0) as (t' & Ht' & Hf & _).
    rewrite Ht in Ht'. injection Ht' as <-. by apply (Hext t0).
  - destruct op as [h c0 ev w|c0 funds|h c0 limit|h g p].
    2-4: destruct (step_frame _ _ _ _ Hinv Hs ltac:(done)) as [He _]; rewrite He in Ht; congruence.
    pose proof Hs as Hs0.
    cbn in Hs. apply rbind_ok in Hs as (s1 & Hs & H1). injection H1 as -> <-.
    destruct (record_inv _ _ _ _ _ _ Hs Hinv) as
      (cur & num & t1 & x & cnt & Hcur & Hnum & Ht1 & Hsome & Hn & Hcnt & -> & Hc0 & He0 & Hp0). cbn in Ht.
    destruct (decide ((c0, num) = (c, n))) as [[= -> ->]|Hne].
    + rewrite lookup_insert in Ht. rewrite Ht0 in Ht1. injection Ht as <-. cbn.
      exists ops, h, ev, w, []. split; [done|]. split; [unfold event_count; by rewrite Ht0|].
      split; [rewrite Hs; done|]. rewrite Ht1. cbn. rewrite Ht1 in He0. done.
    + rewrite lookup_insert_ne in Ht by done. congruence.
Qed.

Lemma c21_governance i ops h g p s' out :
  rewards_step (rrun i ops) (UpdateParams h g p) = Ok (s', out) -> g = ri_gov i.
Proof.
  intros Hs. cbn in Hs. apply rbind_ok in Hs as (s1 & Hs & _).
  apply update_inv in Hs as (? & -> & _).
  unfold rrun. apply (run_inv rewards_step (fun s => r_governance s = ri_gov i)); [done|].
  clear. intros s op s' out IH Hs. destruct op as [h c0 ev w|c0 funds|h c0 limit|h g p]; cbn in Hs.
  - unfold record_participation in Hs. apply rbind_ok in Hs as (s1 & Hs & H1). injection H1 as <- <-.
    apply rbind_ok in Hs as (cur & _ & Hs). destruct (r_events s !! (ev, c0)); cbn in Hs; res_inv; subst; done.
  - apply rbind_ok in Hs as (s1 & Hs & H1). injection H1 as <- <-.
    by apply add_inv in Hs as (? & _ & _ & _ & ->).
  - unfold distribute_rewards in Hs. res_inv; subst; done.
  - apply rbind_ok in Hs as (s1 & Hs & H1). injection H1 as <- <-.
    by apply update_inv in Hs as (? & -> & _ & _ & ->).
Qed.

(** The statements over histories. *)
Lemma c14_history_reach i ops ops' h h' e :
  valid_rinit i -> Forall valid_rop (ops ++ ops') -> h' < U64 ->
  current_epoch (rrun i ops) h = Ok e -> StronglySorted N.le (h :: heights ops' ++ [h']) ->
  exists e', current_epoch (rrun i (ops ++ ops')) h' = Ok e' /\ e_num e <= e_num e'.
Proof.
  intros Hi Hops Hh He Hs. apply Forall_app in Hops as [H1 H2].
  unfold rrun at 1. rewrite run_app. eapply c14_history; eauto. by apply rinv_run.
Qed.

Lemma c17_attended i ops c n w :
  valid_rinit i -> Forall valid_rop ops -> NoDup (pool_records c (rlog i ops)) ->
  exists all mine,
    NoDup all /\ (forall ev, ev ∈ all <-> first_seen i ops c ev n) /\
    NoDup mine /\
    (forall ev, ev ∈ mine <-> first_seen i ops c ev n /\ (c, ev, w) ∈ records (rlog i ops)) /\
    forall t, r_tallies (rrun i ops) !! (c, n) = Some t ->
      (qualifies t w <->
       0 < N.of_nat (length mine) /\
       t_num (rp_threshold (ty_params t)) * N.of_nat (length all) <=
       N.of_nat (length mine) * t_den (rp_threshold (ty_params t))).
Proof.
  intros Hi Hops Hnd.
  destruct (c15_counts i ops c n Hi Hops) as (all & Hall & Hin & Hcnt & _).
  destruct (c15_no_dup i ops c n w Hi Hops Hnd) as (mine & Hmine & Hmem & Hp & Hle).
  exists all, mine. split; [done|]. split; [done|]. split; [done|]. split; [done|].
  intros t Ht. rewrite <- Hcnt, <- Hp. unfold event_count, participated in *. rewrite Ht in *.
  unfold qualifies. split.
  - intros (x & Hx & Hx1 & Hx2). rewrite Hx. cbn. lia.
  - intros [Hpos Hth]. destruct (ty_part t !! w) as [x|]; cbn in *; [|lia].
    exists x. split; [done|]. lia.
Qed.

Lemma c18_call_reach i ops h c limit s' out :
  valid_rinit i -> Forall valid_rop ops ->
  let s := rrun i ops in
  rewards_step s (Distribute h c limit) = Ok (s', out) ->
  exists e,
    current_epoch s h = Ok e /\
    next_epoch s c < next_epoch s' c /\
    between (next_epoch s c) (next_epoch s' c) = due_epochs s c limit (e_num e) /\
    (forall n, n < next_epoch s' c -> n + 2 <= e_num e) /\
    NoDup out.*1 /\
    (forall w a, (w, a) ∈ out <->
       0 < a /\ a = lsum (fun n => owed s c n w) (between (next_epoch s c) (next_epoch s' c))) /\
    (forall c', c' <> c -> r_pools s' !! c' = r_pools s !! c' /\ r_marks s' !! c' = r_marks s !! c') /\
    r_tallies s' = r_tallies s /\ r_events s' = r_events s /\ r_params s' = r_params s /\
    r_updated s' = r_updated s.
Proof.
  intros Hi Hops s Hs.
  pose proof (c18_call _ _ _ _ _ _ (rinv_run i ops Hi Hops) Hs)
    as (e & He & Hlt & Hle & Hmin & Hnd & Hin & Htot & Hbal & Ho & Hrest).
  exists e. split; [done|]. split; [done|]. split; [unfold due_epochs; f_equal; exact Hmin|].
  split; [intros; lia|]. done.
Qed.

Lemma c19_insufficient_reach i ops h c limit e :
  valid_rinit i -> Forall valid_rop ops ->
  let s := rrun i ops in
  current_epoch s h = Ok e ->
  next_epoch s c + limit_of limit < U64 -> 1 <= limit_of limit -> next_epoch s c + 2 <= e_num e ->
  pool_balance s c < lsum (owed_total s c) (due_epochs s c limit (e_num e)) < U128 ->
  rewards_step s (Distribute h c limit) = Err PoolBalanceInsufficient.
Proof. intros Hi Hops s. apply c19_insufficient. by apply rinv_run. Qed.

Lemma c20_accepts_reach i ops h c limit :
  valid_rinit i -> Forall valid_rop ops ->
  let s := rrun i ops in
  is_ok (rewards_step s (Distribute h c limit)) = true <->
  exists e, current_epoch s h = Ok e /\
    next_epoch s c + limit_of limit < U64 /\
    (1 <= limit_of limit \/ next_epoch s c = 0) /\ next_epoch s c + 2 <= e_num e /\
    lsum (owed_total s c) (due_epochs s c limit (e_num e)) <= pool_balance s c.
Proof. intros Hi Hops s. apply c20_accepts. by apply rinv_run. Qed.

Lemma c20_bound i ops h c limit s' out :
  valid_rinit i -> Forall valid_rop ops -> 1 <= limit_of limit ->
  let s := rrun i ops in
  rewards_step s (Distribute h c limit) = Ok (s', out) ->
  next_epoch s' c - next_epoch s c <= limit_of limit.
Proof.
  intros Hi Hops Hl s Hs.
  pose proof (c18_call _ _ _ _ _ _ (rinv_run i ops Hi Hops) Hs)
    as (e & He & Hlt & Hle & Hmin & _). fold s in Hmin. lia.
Qed.

Lemma c20_no_abort i ops h c limit :
  valid_rinit i -> Forall valid_rop ops -> h < U64 ->
  let s := rrun i ops in
  next_epoch s c + limit_of limit < U64 ->
  (forall e, current_epoch s h = Ok e -> lsum (owed_total s c) (due_epochs s c limit (e_num e)) < U128) ->
  rewards_step s (Distribute h c limit) <> Panic.
Proof.
  intros Hi Hops Hh s Hl Hdue Hpanic.
  pose proof (rinv_run i ops Hi Hops) as Hinv. fold s in Hinv.
  destruct (N.lt_ge_cases h (e_start (r_updated s))) as [Hpast|Hge].
  { cbn in Hpanic. unfold distribute_rewards in Hpanic. by rewrite (current_epoch_past _ _ Hpast) in Hpanic. }
  pose proof (current_epoch_ok s h (ri_p s Hinv) (proj1 (ri_u s Hinv)) Hge Hh) as He. cbn zeta in He.
  match type of He with _ = Ok ?e0 => set (e := e0) in * end.
  specialize (Hdue e He).
  destruct (N.le_gt_cases (lsum (owed_total s c) (due_epochs s c limit (e_num e))) (pool_balance s c)) as [Hbal|Hbal].
  - destruct (decide ((1 <= limit_of limit \/ next_epoch s c = 0) /\ next_epoch s c + 2 <= e_num e)) as [Hc|Hc].
    + assert (is_ok (rewards_step s (Distribute h c limit)) = true) as Hok.
      { apply c20_accepts; [done|]. exists e. split; [done|]. split; [done|]. destruct Hc. done. }
      by rewrite Hpanic in Hok.
    + revert Hpanic. cbn. unfold distribute_rewards. rewrite He. cbn [rbind].
      assert (Hfrom : match r_marks s !! c with Some last => add_u64 last 1 | None => Ok 0 end =
                  Ok (E := rerror) (next_epoch s c)).
      { unfold next_epoch. destruct (r_marks s !! c) eqn:Hm; [|done].
        apply (ri_m s Hinv) in Hm. unfold add_u64, checked. apply N.ltb_lt in Hm. by rewrite Hm. }
      rewrite Hfrom. cbn [rbind]. unfold limit_of, DEFAULT_EPOCHS_TO_PROCESS in *.
      set (lim := default 10 limit) in *. set (from := next_epoch s c) in *.
      unfold add_u64 at 1, checked at 1. destruct (N.ltb_spec (from + lim) U64); [|lia]. cbn [rbind].
      unfold EPOCH_PAYOUT_DELAY.
      destruct (N.ltb_spec (N.min (from + lim - 1) (e_num e - 2)) from) as [Hlt|Hge']; [done|].
      destruct (N.ltb_spec (e_num e) 2); [done|]. exfalso. apply Hc. lia.
  - destruct (decide (1 <= limit_of limit /\ next_epoch s c + 2 <= e_num e)) as [Hc|Hc].
    + destruct Hc. pose proof (c19_insufficient s h c limit e Hinv He Hl) as H1.
      rewrite H1 in Hpanic; [done|done|done|]. split; done.
    + revert Hpanic. cbn. unfold distribute_rewards. rewrite He. cbn [rbind].
      assert (Hfrom : match r_marks s !! c with Some last => add_u64 last 1 | None => Ok 0 end =
                  Ok (E := rerror) (next_epoch s c)).
      { unfold next_epoch. destruct (r_marks s !! c) eqn:Hm; [|done].
        apply (ri_m s Hinv) in Hm. unfold add_u64, checked. apply N.ltb_lt in Hm. by rewrite Hm. }
      rewrite Hfrom. cbn [rbind]. unfold due_epochs, limit_of, DEFAULT_EPOCHS_TO_PROCESS in *.
      set (lim := default 10 limit) in *. set (from := next_epoch s c) in *.
      unfold add_u64 at 1, checked at 1. destruct (N.ltb_spec (from + lim) U64); [|lia]. cbn [rbind].
      unfold EPOCH_PAYOUT_DELAY. set (to := N.min (from + lim - 1) (e_num e - 2)).
      destruct (N.ltb_spec to from) as [Hlt|Hge']; [done|].
      destruct (N.ltb_spec (e_num e) 2); [done|]. cbn [orb negb ensure rbind].
      replace (N.min (from + N.max 1 lim) (e_num e - 1)) with (to + 1) in Hdue by lia.
      destruct (cumul_total s c (epoch_range from to) ∅) as [m Hm].
      { rewrite msum_empty. unfold epoch_range. fold (between from (to + 1)). lia. }
      unfold cumulate_rewards. fold (cumul_fold s c (epoch_range from to) (Ok ∅)). rewrite Hm.
      cbn [rbind]. apply (cumul_ok s c _ ∅ m pos_empty) in Hm as (_ & _ & Htot).
      rewrite msum_empty in Htot. unfold epoch_range in Htot. fold (between from (to + 1)) in Htot.
      rewrite sum_values_total by lia. cbn [rbind]. destruct (_ <=? _); done.
Qed.
