(** C48: the signatures of a proof, and the proof query. *)
From stdpp Require Import sorting.
From Verif Require Import Base BaseLemmas MapLemmas Text StdModel StdSpec StdProofs RegistryTypes RouterTypes
  MultisigTypes OperatorsModel MultisigModel EncodingModel EncodingSpec EncodingProofs4 ProverModel ProverSpec
  ProverProofs ProverProofs2 ProverProofs3.

Lemma signed_cons_some sg sig l : signed ((sg, Some sig) :: l) = (sg, sig) :: signed l.
Proof. done. Qed.
Lemma signed_cons_none sg l : signed ((sg, None) :: l) = signed l.
Proof. done. Qed.
Lemma weight_cons x l : weight_of (x :: l) = sg_weight x.1 + weight_of l.
Proof. done. Qed.

Lemma scan_spec q l : forall acc r, scan_signers q acc l = Ok r ->
  r.*1 = l.*1 /\ exists k, (k <= length (signed l))%nat /\ signed r = take k (signed l) /\
    (forall j, (j < k)%nat -> acc + weight_of (take j (signed l)) < q) /\
    ((k < length (signed l))%nat -> q <= acc + weight_of (take k (signed l))).
Proof.
  induction l as [|[sg [sig|]] l IH]; intros acc r H; cbn [scan_signers] in H.
  - injection H as <-. split; [done|]. exists 0%nat. split; [done|]. split; [done|]. split; [lia|]. cbn; lia.
  - rewrite signed_cons_some. destruct (acc <? q) eqn:Hq.
    + res_inv. subst r. destruct (IH _ _ Hv0) as (E & k & Hk & Hs & Hj & He).
      split; [rewrite !fmap_cons; by f_equal|]. exists (S k). cbn [length take]. split; [lia|].
      rewrite signed_cons_some, Hs. split; [done|]. split.
      * intros [|j] Hlt; cbn [take].
        -- change (weight_of []) with 0. lia.
        -- rewrite weight_cons. cbn. specialize (Hj j ltac:(lia)). lia.
      * intros Hlt. rewrite weight_cons. cbn. specialize (He ltac:(lia)). lia.
    + res_inv. subst r. destruct (IH _ _ Hv) as (E & k & Hk & Hs & Hj & He).
      split; [rewrite !fmap_cons; by f_equal|]. exists 0%nat. split; [lia|].
      rewrite signed_cons_none. assert (k = 0%nat) as ->.
      { destruct k; [done|]. specialize (Hj 0%nat ltac:(lia)). lia. }
      split; [by rewrite Hs|]. split; [lia|]. cbn. intros. change (weight_of []) with 0. lia.
  - res_inv. subst r. destruct (IH _ _ Hv) as (E & k & Hk & Hs & Hj & He).
    split; [rewrite !fmap_cons; by f_equal|]. exists k. by rewrite !signed_cons_none.
Qed.

Lemma scan_total q l : forall acc, acc + weight_of (signed l) < U256 -> exists r, scan_signers q acc l = Ok r.
Proof.
  induction l as [|[sg [sig|]] l IH]; intros acc H; cbn [scan_signers]; [eauto| |].
  - rewrite signed_cons_some, weight_cons in H. cbn in H. destruct (acc <? q).
    + assert (add_u256 (E:=perror) acc (sg_weight sg) = Ok (acc + sg_weight sg)) as ->.
      { apply add_u256_ok. split; [lia|done]. }
      cbn [rbind]. destruct (IH (acc + sg_weight sg)) as [r ->]; [lia|]. cbn. eauto.
    + destruct (IH acc) as [r ->]; [lia|]. cbn. eauto.
  - destruct (IH acc) as [r ->]; [done|]. cbn. eauto.
Qed.

Definition falls (l : list (signer * signature)) : Prop :=
  StronglySorted (fun a b => sg_weight b.1 <= sg_weight a.1) l.

Lemma take_shift x l n : falls (x :: l) -> weight_of (take n l) <= weight_of (take n (x :: l)).
Proof.
  revert x n. induction l as [|y l IH]; intros x n H.
  - rewrite take_nil. change (weight_of []) with 0. lia.
  - destruct n as [|n]; [done|]. cbn [take]. rewrite !weight_cons.
    inversion H as [|? ? Hs Hf]; subst. apply Forall_cons in Hf as [Hxy _].
    specialize (IH y n Hs). lia.
Qed.

Lemma top_weights l : falls l -> forall t, t ⊆+ l -> weight_of t <= weight_of (take (length t) l).
Proof.
  induction l as [|x l IH]; intros H t Ht.
  - apply submseteq_nil_r in Ht as ->. done.
  - inversion H as [|? ? Hs Hf]; subst. apply submseteq_cons_r in Ht as [Ht|(t' & Hp & Ht)].
    + etrans; [by apply IH|]. by apply take_shift.
    + replace (weight_of t) with (weight_of (x :: t')) by (symmetry; by apply lsum_perm).
      rewrite Hp. cbn [length take]. rewrite !weight_cons. specialize (IH Hs _ Ht). lia.
Qed.

Lemma signed_perm l l' : l ≡ₚ l' -> signed l ≡ₚ signed l'.
Proof. intros H. unfold signed. by rewrite H. Qed.
Lemma weight_perm l l' : l ≡ₚ l' -> weight_of l = weight_of l'.
Proof. apply lsum_perm. Qed.

Lemma signed_falls l : falling l.*1 -> falls (signed l).
Proof.
  induction l as [|[sg [sig|]] l IH]; intros H.
  - constructor.
  - rewrite fmap_cons in H. cbn in H. inversion H as [|? ? Hs Hf]; subst. rewrite signed_cons_some.
    constructor; [by apply IH|]. rewrite Forall_forall in Hf. apply Forall_forall. intros [y s] Hy.
    apply elem_of_list_omap in Hy as ([y' [s'|]] & Hin & Heq); [|done]. injection Heq as <- <-.
    apply Hf. apply elem_of_list_fmap. by exists (y', Some s').
  - rewrite fmap_cons in H. inversion H; subst. rewrite signed_cons_none. by apply IH.
Qed.

Lemma falls_app l1 l2 x y : falls (l1 ++ l2) -> x ∈ l1 -> y ∈ l2 -> sg_weight y.1 <= sg_weight x.1.
Proof.
  intros H Hx Hy. induction l1 as [|a l1 IH]; [by apply elem_of_nil in Hx|].
  cbn in H. inversion H as [|? ? Hs Hf]; subst. apply elem_of_cons in Hx as [->|Hx]; [|auto].
  rewrite Forall_forall in Hf. apply Hf. apply elem_of_app. by right.
Qed.

Lemma optimize_selection l q r : optimize_signers l q = Ok r -> selection l q r.
Proof.
  unfold optimize_signers. set (s := isort _ l). intros H.
  assert (s ≡ₚ l) as Hp by apply isort_perm.
  assert (falling s.*1) as Hfall.
  { assert (StronglySorted (fun x y => (sg_weight y.1 <=? sg_weight x.1) = true) s) as Hss.
    { apply Sorted_StronglySorted; [intros x y z; cbn; lia|]. apply isort_sorted. intros x y. cbn. lia. }
    clear -Hss. clearbody s. clear l. induction Hss as [|x l Hs IH Hf]; [constructor|]. rewrite fmap_cons. constructor; [done|].
    rewrite Forall_forall in Hf. apply Forall_forall. intros y Hy. apply elem_of_list_fmap in Hy as (z & -> & Hz).
    apply Hf in Hz. lia. }
  destruct (scan_spec _ _ _ _ H) as (E & k & Hk & Hs & Hj & He). rewrite ?N.add_0_l in He.
  pose proof (signed_perm _ _ Hp) as Hsp. pose proof (signed_falls _ Hfall) as Hfs.
  split.
  - by rewrite E, Hp.
  - by rewrite E.
  - exists (drop k (signed s)). rewrite Hs, take_drop. split; [done|].
    intros x y. apply falls_app. by rewrite take_drop.
  - rewrite (weight_perm _ _ (symmetry Hsp)), Hs. intros Hq.
    destruct (decide (k < length (signed s))%nat) as [Hlt|Hge]; [by apply He|].
    rewrite take_ge by lia. done.
  - intros s' x Heq. assert (length s' < k)%nat as Hlen.
    { apply (f_equal length) in Heq. rewrite Hs, take_length, app_length in Heq. cbn in Heq. lia. }
    specialize (Hj _ Hlen). assert (s' = take (length s') (signed s)) as Hs'.
    { rewrite Hs in Heq. apply (f_equal (take (length s'))) in Heq.
      rewrite take_take, take_app in Heq. by rewrite Nat.min_l in Heq by lia. }
    rewrite <- Hs' in Hj. lia.
  - intros t Ht Hq. rewrite Hs, take_length_le by done.
    rewrite <- Hsp in Ht. pose proof (top_weights _ Hfs _ Ht) as Hw.
    destruct (decide (k <= length t)%nat); [done|]. specialize (Hj (length t) ltac:(lia)). lia.
Qed.

Lemma optimize_total l q : weight_of (signed l) < U256 -> exists r, optimize_signers l q = Ok r.
Proof.
  intros H. unfold optimize_signers. apply scan_total.
  rewrite (weight_perm _ (signed l)); [lia|]. apply signed_perm, isort_perm.
Qed.

Section C48.
  Context (keccak : string -> string) (wshash : worker_set -> string)
          (sec1 : string -> option string) (recover : string -> string -> string -> option N).
  Notation step := (prover_step keccak wshash sec1).
  Notation run_ := (prun keccak wshash sec1).
  Notation log_ := (plog keccak wshash sec1).

  Lemma sessions_log c ops id : pv_sessions (run_ c ops) !! id = session_batch (log_ c ops) id.
  Proof.
    unfold prun, plog. apply (run_log_inv (step c) (fun s l => pv_sessions s !! id = session_batch l id)).
    - done.
    - intros s l op s' out IH Hs. apply step_effect in Hs. unfold session_batch. rewrite last_snoc_omap.
      destruct Hs as [ws Hcall Hcur Hws|ws o Hcall Hnext Ho Hver|ids cur ms b i out Hcall Hcur Hms Hbb Hask
                   |ids cur ms ws b i s' out Hcall Hcur Hms Hbb Hws Hbuild [Hadm ->] Hask
                   |cur ws b i s' out Hcall Hcur Hws Hsu Hbuild [Hadm ->] Hask]; cbn; try exact IH;
      destruct Hask as (dg & _ & _ & ->); cbn; (destruct (N.eqb_spec i id) as [->|Hne];
        [by rewrite lookup_insert|rewrite lookup_insert_ne by done; exact IH]).
  Qed.

  Lemma execute_shows b q sel d :
    (forall x, String.length (keccak x) = 32%nat) -> data_ok (b_data b) ->
    q < U256 -> Forall (fun x => sg_weight x.1 < U256) sel ->
    encode_execute_data keccak sec1 recover b q sel = Ok d -> fits (b_encoder b) d ->
    proof_shows keccak sec1 recover b q sel d.
  Proof.
    intros Hk Hd Hq Hw H Hf. apply execute_view in H as (digest & x & p & Hdg & Hde & Hx & Hfx & Hp & Hfp & _); [|done..].
    apply encode_data_view in Hx; [|done..].
    apply proof_view in Hp as (ops & Hops & Hperm & Hasc); [|split; [done|]|done].
    - exists digest, x, p, ops. done.
    - rewrite Forall_fmap. eapply Forall_impl; [done|]. done.
  Qed.

  Lemma made_data_ok c b : (forall x, String.length (keccak x) = 32%nat) ->
    (forall w, String.length (wshash w) = 32%nat) -> pc_chain_id c < U256 ->
    made keccak wshash sec1 c b -> data_ok (b_data b).
  Proof. intros Hk Hw Hc (new & ms & Hb & _). by eapply build_data_ok. Qed.

  Lemma builds_unique c l op b b' :
    builds keccak wshash sec1 c l op b -> builds keccak wshash sec1 c l op b' -> b = b'.
  Proof.
    intros (cur & next & ws & new & ms & H1 & H2 & H3 & H4 & H5) (cur' & next' & ws' & new' & ms' & H1' & H2' & H3' & H4' & H5').
    destruct (sets_after_functional _ _ _ _ _ _ _ H1 _ _ H1') as [[= <-] _].
    rewrite (active_set_unique _ _ _ _ H2' H2) in *. clear H2 H2'.
    assert (new = new') as <-.
    { destruct H4 as [[-> ?]|[-> ?]], H4' as [[-> ?]|[-> ?]]; try done; lia. }
    assert (ms = ms') as <-; [|congruence].
    destruct (po_call op); [|destruct H5 as [-> _], H5' as [-> _]; done|done].
    destruct H5 as [H5 _], H5' as [H5' _]. congruence.
  Qed.

  Lemma effect_builds c s l op s' out : pinv keccak wshash sec1 c s l -> effect keccak wshash sec1 c s op s' out ->
    (exists b cur id new, builds keccak wshash sec1 c l op b /\ asks_to_sign keccak wshash c out cur b id /\
       stores c s new b id s') \/
    ((forall b, ~ builds keccak wshash sec1 c l op b) /\ pv_batches s' = pv_batches s).
  Proof.
    intros [Hsets [Hkc Hkn] Hb Hm].
    intros [ws Hcall Hcur Hws|ws o Hcall Hnext Ho Hver|ids cur ms b i o Hcall Hcur Hms Hbb Hask
           |ids cur ms ws b i t o Hcall Hcur Hms Hbb Hws Hbuild Hst Hask
           |cur ws b i t o Hcall Hcur Hws Hsu Hbuild Hst Hask].
    - right. split; [|done]. intros b (cur & next & w & new & ms & H1 & _).
      destruct (sets_after_functional _ _ _ _ _ _ _ Hsets _ _ H1) as [? _]. congruence.
    - right. split; [|done]. intros b (cur & next & w & new & ms & _ & _ & _ & _ & H). by rewrite Hcall in H.
    - right. split; [|done]. intros b' (cur' & next & w & new & ms' & _ & _ & _ & _ & H). rewrite Hcall in H.
      destruct H as (_ & _ & _ & []). apply Hb. by eexists.
    - left. exists b, cur, i, (proposed c ws cur). split; [|done]. apply get_messages_ok in Hms as (Hg & Hl & Hf).
      pose proof (make_worker_set_active _ _ _ Hws) as Ha. assert (keyed ws) by (by eapply active_keyed).
      exists cur, (pv_next s), ws, (proposed c ws cur), ms. rewrite Hcall. rewrite Hcur in Hsets.
      split; [done|]. split; [done|]. split; [done|]. split.
      + unfold proposed. destruct (should_update ws cur (pc_diff c)) eqn:Hsu.
        * left. split; [done|]. apply should_update_iff in Hsu; auto.
        * right. split; [done|]. apply should_update_false in Hsu; auto.
      + split_and!; try done. rewrite <- Hb, Hbb. by intros [? ?].
    - left. exists b, cur, i, (Some ws). split; [|done].
      pose proof (make_worker_set_active _ _ _ Hws) as Ha. assert (keyed ws) by (by eapply active_keyed).
      exists cur, (pv_next s), ws, (Some ws), []. rewrite Hcall. rewrite Hcur in Hsets.
      split; [done|]. split; [done|]. split; [done|]. split; [left|by split].
      split; [done|]. apply should_update_iff in Hsu; auto.
  Qed.

  Lemma batches_built c ops bid b :
    pv_batches (run_ c ops) !! bid = Some b -> last_built keccak wshash sec1 c (log_ c ops) bid b.
  Proof.
    enough (pinv keccak wshash sec1 c (run_ c ops) (log_ c ops) /\
      forall bid b, pv_batches (run_ c ops) !! bid = Some b ->
        last_built keccak wshash sec1 c (log_ c ops) bid b) as [_ ?] by auto.
    unfold prun, plog.
    apply (run_log_inv (step c) (fun s l => pinv keccak wshash sec1 c s l /\ forall bid b,
      pv_batches s !! bid = Some b -> last_built keccak wshash sec1 c l bid b)).
    - split; [apply (pinv_run keccak wshash sec1 c [])|done].
    - clear ops bid b. intros s l op s' out [Hi IH] Hs. apply step_effect in Hs.
      split; [by eapply effect_inv|]. intros bid b Hb.
      assert (forall l1 o1 x1 l2 bid b, l = l1 ++ (o1, x1) :: l2 -> builds keccak wshash sec1 c l1 o1 b -> b_id b = bid ->
        (forall la op' out' lb b', l2 = la ++ (op', out') :: lb ->
          builds keccak wshash sec1 c (l1 ++ (o1, x1) :: la) op' b' -> b_id b' <> bid) ->
        (forall b', builds keccak wshash sec1 c l op b' -> b_id b' <> bid) ->
        last_built keccak wshash sec1 c (l ++ [(op, out)]) bid b) as Hkeep.
      { clear. intros l1 o1 x1 l2 bid b -> Hbu Hid Hlast Hop. exists l1, o1, x1, (l2 ++ [(op, out)]).
        rewrite <- app_assoc. split; [done|]. split; [done|]. split; [done|].
        intros la op' out' lb b' Hl Hbu'. destruct lb as [|z lb _] using rev_ind.
        - apply app_inj_tail in Hl as [-> [= -> ->]]. by apply Hop.
        - rewrite app_comm_cons, app_assoc in Hl. apply app_inj_tail in Hl as [-> _].
          by eapply Hlast. }
      destruct (effect_builds _ _ _ _ _ _ Hi Hs) as [(nb & cur & id & new & Hnb & Hask & _ & ->)|[Hno Heq]].
      + cbn in Hb. destruct (decide (b_id nb = bid)) as [<-|Hne].
        * rewrite lookup_insert in Hb. injection Hb as <-. exists l, op, out, [].
          split_and!; try done. intros la ? ? lb ? Hl. by destruct la.
        * rewrite lookup_insert_ne in Hb by done. apply IH in Hb as (l1 & o1 & x1 & l2 & Hl & Hbu & Hid & Hlast).
          eapply Hkeep; try done. intros b' Hb'. by rewrite (builds_unique _ _ _ _ _ Hb' Hnb).
      + rewrite Heq in Hb. apply IH in Hb as (l1 & o1 & x1 & l2 & Hl & Hbu & Hid & Hlast).
        eapply Hkeep; try done. intros b' Hb'. by destruct (Hno b').
  Qed.

  (** The proof query in a reachable state. *)
  Lemma c48_get_proof c ops mu id r :
    (forall x, String.length (keccak x) = 32%nat) -> (forall w, String.length (wshash w) = 32%nat) ->
    pc_chain_id c < U256 ->
    get_proof keccak sec1 recover c (run_ c ops) mu id = Ok r ->
    exists m bid b, mu id = Some m /\ session_batch (log_ c ops) id = Some bid /\
      last_built keccak wshash sec1 c (log_ c ops) bid b /\ b_encoder b = pc_encoder c /\
      pr_session r = id /\ pr_ids r = b_ids b /\ pr_data r = b_data b /\
      match mu_state m with
      | MPending => pr_status r = PfPending
      | MCompleted _ => exists sel d, pr_status r = PfCompleted d /\ selection (mu_signers m) (mu_quorum m) sel /\
          (mu_quorum m < U256 -> Forall (fun x => sg_weight x.1 < U256) (mu_signers m) -> fits (b_encoder b) d ->
           proof_shows keccak sec1 recover b (mu_quorum m) sel d)
      end.
  Proof.
    intros Hk Hw Hc H. unfold get_proof in H. apply rbind_ok in H as (bid & Hb & H). apply of_option_ok in Hb.
    apply rbind_ok in H as (b & Hbb & H). apply of_option_ok in Hbb.
    case_bool_decide as He; [|done]. cbn [negb] in H.
    apply rbind_ok in H as (m & Hm & H). apply of_option_ok in Hm. apply rbind_ok in H as (st & Hst & H).
    injection H as <-. cbn.
    destruct (pi_made _ _ _ _ _ _ (pinv_run keccak wshash sec1 c ops) _ _ Hbb) as [Hid Hmade].
    exists m, bid, b. rewrite <- sessions_log. split_and!; try done; [by apply batches_built|].
    destruct (mu_state m) as [|ct].
    - by injection Hst as <-.
    - apply rbind_ok in Hst as (sel & Hsel & Hst). apply rbind_ok in Hst as (d & Hd & Hst).
      injection Hst as <-. apply map_err_ok in Hd. exists sel, d. split; [done|].
      pose proof (optimize_selection _ _ _ Hsel) as Hs. split; [done|].
      intros Hq Hws Hf. eapply execute_shows; try done; [by eapply made_data_ok|].
      rewrite <- (Forall_fmap fst (fun sg => sg_weight sg < U256)), (sel_signers _ _ _ Hs).
      by rewrite Forall_fmap.
  Qed.
End C48.
