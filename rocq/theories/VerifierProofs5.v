From stdpp Require Import sorting.
From Verif Require Import Base BaseLemmas Text TextLemmas StdModel StdSpec StdProofs
  RouterTypes RegistryTypes OperatorsModel VerifierModel VerifierSpec VerifierProofs VerifierProofs2
  VerifierProofs3 LivenessSpec.

Section Live.
  Context (k : string -> string) (cfg : vconfig).
  Local Notation inv := (inv k cfg).
  Local Notation step := (verifier_step k).

  (** *** A poll after its opening is its start with the later accepted votes *)
  Definition tracked s0 l0 id ex snap x (s : vstate) (l : list (vop * vout)) : Prop :=
    inv s (l0 ++ l) /\ v_poll_id s0 <= v_poll_id s /\
    v_polls s !! id =
      Some (subject_poll x (poll_after snap id ex (subject_size x) (poll_ops id l))).

  Lemma tracked_step s0 l0 id ex snap x s l op s' out :
    tracked s0 l0 id ex snap x s l -> step s op = Ok (s', out) ->
    tracked s0 l0 id ex snap x s' (l ++ [(op, out)]).
  Proof.
    intros (Hinv & Hle & Hvp) Hstep. unfold tracked. rewrite app_assoc.
    split; [by eapply inv_step|]. pose proof Hinv as [Hc Hp Hm Hw].
    destruct (Hp _ _ Hvp) as [Hid _].
    destruct op as [h reg ms|h reg mid o|h a i vs|h i]; cbn in Hstep.
    - rewrite poll_ops_snoc. cbn [poll_op_of fst]. rewrite app_nil_r.
      apply verify_messages_ok in Hstep as (_ & _ & sts & _ & [(_ & -> & _)|(_ & Hopen)]); [done|].
      destruct Hopen as (workers & snap' & tbl & events & _ & _ & _ & _ & _ & _ & -> & _).
      cbn. split; [lia|]. by rewrite lookup_insert_ne by lia.
    - rewrite poll_ops_snoc. cbn [poll_op_of fst]. rewrite app_nil_r.
      apply verify_worker_set_ok in Hstep as (st & workers & snap' & tx & ix & _ & _ & _ & _ & _ & -> & _).
      cbn. split; [lia|]. by rewrite lookup_insert_ne by lia.
    - apply verifier_vote_ok in Hstep as (vp & p' & Hi & Hv & -> & ->). cbn. split; [done|].
      rewrite poll_ops_snoc. cbn [poll_op_of fst]. destruct (decide (i = id)) as [->|Hne].
      + rewrite N.eqb_refl, lookup_insert. rewrite Hvp in Hi. injection Hi as <-.
        rewrite subject_poll_poll in Hv.
        assert (p' = poll_after snap id ex (subject_size x) (poll_ops id l ++ [PVote h a vs])) as ->.
        { apply poll_step_run. cbn. by rewrite Hv. }
        by destruct x.
      + rewrite lookup_insert_ne by done. assert ((i =? id) = false) as -> by lia. by rewrite app_nil_r.
    - apply verifier_end_poll_ok in Hstep as (vp & p' & Hi & Hv & -> & ->). cbn. split; [done|].
      rewrite poll_ops_snoc. cbn [poll_op_of fst]. destruct (decide (i = id)) as [->|Hne].
      + rewrite N.eqb_refl, lookup_insert. rewrite Hvp in Hi. injection Hi as <-.
        rewrite subject_poll_poll in Hv.
        assert (p' = poll_after snap id ex (subject_size x) (poll_ops id l ++ [PFinish h])) as ->.
        { apply poll_step_run. cbn. by rewrite Hv. }
        by destruct x.
      + rewrite lookup_insert_ne by done. assert ((i =? id) = false) as -> by lia. by rewrite app_nil_r.
  Qed.

  Lemma tracked_run s0 l0 id ex snap x ops :
    tracked s0 l0 id ex snap x s0 [] ->
    tracked s0 l0 id ex snap x (run step s0 ops) (log step s0 ops).
  Proof.
    intros H. apply (run_log_inv _ (tracked s0 l0 id ex snap x)); [done|].
    intros. by eapply tracked_step.
  Qed.

  (** An opening call starts the tracking. *)
  Lemma opens_tracked ops1 op s' out id ex workers x :
    step (vrun k cfg ops1) op = Ok (s', out) ->
    opens cfg (op, out) id ex workers x ->
    exists snap y,
      snapshot_new (E:=verror) (vc_threshold cfg) (worker_list workers) = Ok snap /\
      subject_size y = subject_size x /\
      tracked s' (vlog k cfg ops1 ++ [(op, out)]) id ex snap y s' [].
  Proof.
    intros Hstep Ho. pose proof (inv_run k cfg ops1) as Hinv. pose proof Hinv as [Hc _ _ _].
    pose proof (inv_step _ _ _ _ _ _ _ Hinv Hstep) as Hinv'.
    destruct op as [h reg ms|h reg mid o|h a i vs|h i]; cbn in Hstep.
    - apply verify_messages_ok in Hstep as (_ & _ & sts & _ & [(_ & _ & ->)|(_ & Hopen)]); [done|].
      destruct Hopen as (workers' & snap & tbl & events & Hreg & Hsn & _ & _ & _ & Hev & Hs' & ->).
      cbn in Ho. destruct Ho as (<- & -> & _ & _ & _ & _ & _ & Hreg' & todo & -> & _ & Hev').
      rewrite Hc in *. rewrite Hreg' in Hreg. injection Hreg as <-.
      exists snap, (OnMessages (List.filter (wants_poll k (vrun k cfg ops1)) ms)). split; [done|]. split.
      + cbn. apply Forall2_length in Hev, Hev'. congruence.
      + split; [by rewrite app_nil_r|]. split; [done|]. subst s'. cbn. by rewrite lookup_insert.
    - apply verify_worker_set_ok in Hstep as (st & workers' & snap & tx & ix & _ & _ & Hreg & Hsn & _ & Hs' & ->).
      cbn in Ho. destruct Ho as (<- & -> & _ & _ & _ & _ & _ & Hreg' & -> & _ & _).
      rewrite Hc in *. rewrite Hreg' in Hreg. injection Hreg as <-.
      exists snap, (OnOperators o). split; [done|]. split; [done|].
      split; [by rewrite app_nil_r|]. split; [done|]. subst s'. cbn. by rewrite lookup_insert.
    - apply verifier_vote_ok in Hstep as (vp & p' & _ & _ & _ & ->). done.
    - apply verifier_end_poll_ok in Hstep as (vp & p' & _ & _ & _ & ->). done.
  Qed.

  (** No vote on a poll is accepted before the poll is opened. *)
  Lemma votes_after_opening ops1 op s' out id ex workers x h a b o :
    step (vrun k cfg ops1) op = Ok (s', out) ->
    opens cfg (op, out) id ex workers x ->
    (Vote h a id b, o) ∉ vlog k cfg ops1 ++ [(op, out)].
  Proof.
    intros Hstep Ho Hin. apply elem_of_app in Hin as [Hin|Hin].
    - assert (exists vp, v_polls (vrun k cfg ops1) !! id = Some vp /\ stored_ballot (vpoll_poll vp) a = Some b)
        as (vp & Hvp & _) by (apply ballots_run; eauto).
      pose proof (inv_run k cfg ops1) as [_ Hp _ _]. destruct (Hp _ _ Hvp) as [Hle _].
      destruct op as [h' reg ms|h' reg mid o'|h' a' i vs|h' i]; cbn in Hstep.
      + apply verify_messages_ok in Hstep as (_ & _ & sts & _ & [(_ & _ & ->)|(_ & Hopen)]); [done|].
        destruct Hopen as (workers' & snap & tbl & events & _ & _ & _ & _ & _ & _ & _ & ->).
        cbn in Ho. destruct Ho as (<- & _). lia.
      + apply verify_worker_set_ok in Hstep as (st & workers' & snap & tx & ix & _ & _ & _ & _ & _ & _ & ->).
        cbn in Ho. destruct Ho as (<- & _). lia.
      + apply verifier_vote_ok in Hstep as (vp' & p' & _ & _ & _ & ->). done.
      + apply verifier_end_poll_ok in Hstep as (vp' & p' & _ & _ & _ & ->). done.
    - apply elem_of_list_singleton in Hin. injection Hin as <- <-. done.
  Qed.

  Lemma finish_called_ended id ex l :
    (forall h out, (EndPoll h id, out) ∈ l -> ex <= h) ->
    finish_called ex (poll_ops id l) = true <-> id ∈ ended l.
  Proof.
    intros Hh. induction l as [|[op out] l IH]; cbn; [split; [done|set_solver]|].
    assert (finish_called ex (poll_ops id l) = true <-> id ∈ ended l) as IH'.
    { apply IH. intros h' o' H'. eapply Hh. by right. }
    destruct op as [h reg ms|h reg mid o|h a i vs|h i]; cbn; try done.
    - by destruct (i =? id).
    - destruct (i =? id) eqn:Hi; cbn.
      + apply N.eqb_eq in Hi as ->. assert (ex <= h) by (eapply Hh; left). 
        rewrite (proj2 (N.leb_le _ _) H). cbn. split; [left|done].
      + rewrite IH', elem_of_cons. apply N.eqb_neq in Hi. split; [by right|]. intros [->|?]; done.
  Qed.

  (** the endings of a tracked poll come at or after its expiry *)
  Lemma tracked_ends s0 l0 id ex snap x ops h out t ps :
    snapshot_new (E:=verror) t ps = Ok snap ->
    tracked s0 l0 id ex snap x s0 [] ->
    (EndPoll h id, out) ∈ log step s0 ops -> ex <= h.
  Proof.
    intros Hs H0 (l1 & l2 & H)%elem_of_list_split.
    apply log_split in H as (ops1 & ops2 & s' & _ & _ & Hstep & _).
    destruct (tracked_run _ _ _ _ _ _ ops1 H0) as (_ & _ & Hvp).
    cbn in Hstep. apply verifier_end_poll_ok in Hstep as (vp & p' & Hi & Hv & _).
    rewrite Hvp in Hi. injection Hi as <-. rewrite subject_poll_poll in Hv.
    eapply (poll_after_expired_finish _ _ _ id ex (subject_size x) (poll_ops id (log step s0 ops1)) h Hs).
    by rewrite Hv.
  Qed.

  (** *** Which votes and endings are accepted *)
  Lemma cast_ok s h a id b p x :
    v_polls s !! id = Some (subject_poll x p) ->
    is_ok (step s (Vote h a id b)) = is_ok (poll_cast_vote p h a b).
  Proof.
    intros H. cbn. unfold verifier_vote. rewrite H. cbn.
    by destruct x; cbn; destruct (poll_cast_vote p h a b).
  Qed.
  Lemma finish_ok s h id p x :
    v_polls s !! id = Some (subject_poll x p) ->
    is_ok (step s (EndPoll h id)) = is_ok (poll_finish p h).
  Proof.
    intros H. cbn. unfold verifier_end_poll. rewrite H. cbn.
    by destruct x; cbn; destruct (poll_finish p h).
  Qed.

  Lemma run_after ops1 op s' out ops2 :
    step (vrun k cfg ops1) op = Ok (s', out) ->
    vrun k cfg (ops1 ++ op :: ops2) = run step s' ops2 /\
    vlog k cfg (ops1 ++ op :: ops2) = (vlog k cfg ops1 ++ [(op, out)]) ++ log step s' ops2.
  Proof.
    intros H. unfold vrun, vlog in *. rewrite run_app, log_app. cbn [run log]. unfold exec, log1, exec.
    rewrite H. split; [done|]. by rewrite <- app_assoc.
  Qed.

  (** the ballot that counts for a voter is the one in the log *)
  Lemma tracked_ballot ops1 op s' out id ex workers x snap y ops2 a b :
    step (vrun k cfg ops1) op = Ok (s', out) ->
    opens cfg (op, out) id ex workers x ->
    snapshot_new (E:=verror) (vc_threshold cfg) (worker_list workers) = Ok snap ->
    tracked s' (vlog k cfg ops1 ++ [(op, out)]) id ex snap y s' [] ->
    a ∈ w_addr <$> workers ->
    first_ballot ex (subject_size y) (poll_ops id (log step s' ops2)) a = Some b <->
    exists h o, (Vote h a id b, o) ∈ log step s' ops2.
  Proof.
    intros Hstep Ho Hs H0 Ha.
    destruct (tracked_run _ _ _ _ _ _ ops2 H0) as (Hinv & _ & Hvp).
    destruct (run_after _ _ _ _ ops2 Hstep) as [Hr Hl].
    pose proof (ballots_run k cfg (ops1 ++ op :: ops2) id a b) as Hb. rewrite Hr, Hl in Hb.
    destruct (worker_snapshot_weights _ _ _ Hs) as [_ Hw]. specialize (Hw _ Ha).
    split.
    - intros Hf. destruct (proj2 Hb) as (h & o & Hin).
      { eexists. split; [exact Hvp|]. rewrite subject_poll_poll.
        rewrite (poll_after_ballot _ _ _ _ _ _ _ _ Hs), Hw. done. }
      apply elem_of_app in Hin as [Hin|Hin]; [|eauto].
      exfalso. by eapply votes_after_opening in Hin.
    - intros (h & o & Hin). destruct (proj1 Hb) as (vp & Hvp' & Hst).
      { exists h, o. apply elem_of_app. by right. }
      rewrite Hvp in Hvp'. injection Hvp' as <-. rewrite subject_poll_poll in Hst.
      rewrite (poll_after_ballot _ _ _ _ _ _ _ _ Hs), Hw in Hst. done.
  Qed.

  Lemma c88_vote ops l1 e l2 id ex workers x h a b :
    vlog k cfg ops = l1 ++ e :: l2 -> opens cfg e id ex workers x ->
    is_ok (step (vrun k cfg ops) (Vote h a id b)) = true <->
    a ∈ w_addr <$> workers /\ h < ex /\
    length b = match x with OnMessages ms => length ms | OnOperators _ => 1%nat end /\
    forall h' b' o, (Vote h' a id b', o) ∉ l2.
  Proof.
    intros Hl Ho. destruct e as [op out].
    apply log_split in Hl as (ops1 & ops2 & s' & -> & <- & Hstep & <-).
    change (run (verifier_step k) (verifier_init cfg) ops1) with (vrun k cfg ops1) in Hstep.
    destruct (opens_tracked _ _ _ _ _ _ _ _ Hstep Ho) as (snap & y & Hs & Hsz & H0).
    destruct (run_after _ _ _ _ ops2 Hstep) as [-> _].
    pose proof (tracked_run _ _ _ _ _ _ ops2 H0) as (Hinv & _ & Hvp).
    rewrite (cast_ok _ _ _ _ _ _ _ Hvp).
    rewrite poll_after_vote_iff by exact (snapshot_sum_lt _ _ _ Hs).
    change (match x with OnMessages ms => length ms | OnOperators _ => 1%nat end) with (subject_size x).
    rewrite Hsz. destruct (worker_snapshot_weights _ _ _ Hs) as [Hw1 Hw2].
    split.
    - intros ([w Hw] & Hh & Hlen & Hnone). apply Hw1 in Hw as [_ Ha]. split_and!; try done.
      intros h' b' o Hin. rewrite <- Hsz in Hnone. rewrite Hsz in Hnone.
      assert (first_ballot ex (subject_size y) (poll_ops id (log step s' ops2)) a = Some b') as Hf.
      { eapply tracked_ballot; eauto. }
      rewrite Hsz in Hf. congruence.
    - intros (Ha & Hh & Hlen & Hno). split_and!; [eauto|done|done|].
      destruct (first_ballot ex (subject_size x) (poll_ops id (log step s' ops2)) a) as [b'|] eqn:Hf; [|done].
      rewrite <- Hsz in Hf. eapply tracked_ballot in Hf as (h' & o & Hin); eauto. by apply Hno in Hin.
  Qed.

  Lemma c88_end ops l1 e l2 id ex workers x h :
    vlog k cfg ops = l1 ++ e :: l2 -> opens cfg e id ex workers x ->
    is_ok (step (vrun k cfg ops) (EndPoll h id)) = true <-> ex <= h /\ id ∉ ended l2.
  Proof.
    intros Hl Ho. destruct e as [op out].
    apply log_split in Hl as (ops1 & ops2 & s' & -> & <- & Hstep & <-).
    change (run (verifier_step k) (verifier_init cfg) ops1) with (vrun k cfg ops1) in Hstep.
    destruct (opens_tracked _ _ _ _ _ _ _ _ Hstep Ho) as (snap & y & Hs & Hsz & H0).
    destruct (run_after _ _ _ _ ops2 Hstep) as [-> _].
    pose proof (tracked_run _ _ _ _ _ _ ops2 H0) as (Hinv & _ & Hvp).
    rewrite (finish_ok _ _ _ _ _ Hvp).
    rewrite (poll_after_expired_finish _ _ _ _ _ _ _ _ Hs).
    rewrite <- not_true_iff_false, finish_called_ended; [tauto|].
    intros h' o Hin. eapply tracked_ends; eauto.
  Qed.

  (** *** Enough votes verify *)
  Lemma poll_reaches ops1 op s' out id ex workers x snap y ops2 idx :
    valid_vconfig cfg ->
    step (vrun k cfg ops1) op = Ok (s', out) ->
    opens cfg (op, out) id ex workers x ->
    snapshot_new (E:=verror) (vc_threshold cfg) (worker_list workers) = Ok snap ->
    tracked s' (vlog k cfg ops1 ++ [(op, out)]) id ex snap y s' [] ->
    (idx < subject_size y)%nat ->
    vouched (vc_threshold cfg) (log step s' ops2) id ex workers idx ->
    poll_consensus (poll_after snap id ex (subject_size y) (poll_ops id (log step s' ops2))) idx
    = Ok (Some SucceededOnChain).
  Proof.
    intros Hcfg Hstep Ho Hs H0 Hidx (voters & Hnd & Hv & Hq).
    pose proof (valid_majority _ _ _ Hcfg Hs) as Hmaj.
    eapply c04_iff; [done..|].
    destruct (worker_snapshot_weights _ _ _ Hs) as [Hw1 Hw2].
    set (f := fun a => match first_ballot ex (subject_size y) (poll_ops id (log step s' ops2)) a with
                       | Some b => bool_decide (b !! idx = Some SucceededOnChain) | None => false end).
    destruct (msum_ones_voters k (s_participants snap) f) as (vs & Hnd' & Hin & Hlen).
    { intros a w Ha. by eapply Hw1. }
    assert (length voters <= length vs)%nat as Hle.
    { apply submseteq_length, NoDup_submseteq; [done|]. intros a Ha.
      apply Hv in Ha as (Ha & h & b & o & Hb & _ & Hbi). apply Hin. split; [eauto|]. unfold f.
      assert (first_ballot ex (subject_size y) (poll_ops id (log step s' ops2)) a = Some b) as ->
        by (eapply tracked_ballot; eauto).
      by apply bool_decide_eq_true. }
    assert (weight_for (s_participants snap) ex (subject_size y) (poll_ops id (log step s' ops2)) idx SucceededOnChain
            = N.of_nat (length vs)) as ->.
    { rewrite Hlen. unfold weight_for. apply msum_ext. intros a w _. unfold f.
      destruct (first_ballot _ _ _ a); [|done]. by case_bool_decide. }
    apply snapshot_new_ok in Hs as ([_ Hleast] & Hden & _). rewrite total_weight_workers in Hleast.
    etrans; [apply (Hleast (N.of_nat (length voters))); nia|lia].
  Qed.

  (** the stored entry keeps pointing at the poll until the poll is ended *)
  Lemma entry_tracked s0 l0 id ex snap x m idx ops t ps :
    snapshot_new (E:=verror) t ps = Ok snap ->
    tracked s0 l0 id ex snap x s0 [] ->
    v_messages s0 !! message_key k m = Some (Build_poll_content m id idx) ->
    (N.to_nat idx < subject_size x)%nat ->
    id ∉ ended (log step s0 ops) ->
    v_messages (run step s0 ops) !! message_key k m = Some (Build_poll_content m id idx).
  Proof.
    intros Hs H0 Hm0 Hidx. induction ops as [|op ops IH] using rev_ind; [done|].
    rewrite run_snoc, log_snoc. unfold exec, log1, exec.
    destruct (tracked_run _ _ _ _ _ _ ops H0) as (Hinv & _ & Hvp).
    set (s := run step s0 ops) in *. set (l := log step s0 ops) in *.
    destruct (step s op) as [[s' out]| |] eqn:Hstep; [|by rewrite app_nil_r..].
    rewrite ended_snoc. intros Hend.
    assert (id ∉ ended l) as Hend' by (intros ?; apply Hend, elem_of_app; by left).
    specialize (IH Hend').
    destruct op as [h reg ms|h reg mid o|h a i vs|h i]; cbn in Hstep.
    - apply verify_messages_ok in Hstep as (_ & _ & sts & _ & [(_ & -> & _)|(_ & Hopen)]); [done|].
      destruct Hopen as (workers' & snap' & tbl & events & _ & _ & _ & _ & Htbl & _ & -> & _).
      cbn. apply save_messages_ok in Htbl as (_ & _ & T3). rewrite T3; [done|].
      intros m' Hm' Hkey. apply elem_of_list_In, filter_In in Hm' as [_ Hw].
      unfold wants_poll, message_status in Hw. rewrite Hkey, IH in Hw. cbn in Hw.
      case_bool_decide as Heq; [|done]. rewrite Hvp in Hw. rewrite subject_poll_poll in Hw.
      assert (poll_status_ (poll_after snap id ex (subject_size x) (poll_ops id l)) <> Finished) as Hnf.
      { rewrite (poll_after_status _ _ _ _ _ _ _ Hs). rewrite finish_called_ended; [done|].
        intros h' o' Hin. eapply tracked_ends; eauto. }
      destruct (poll_consensus _ _) as [[[]|]|e|] eqn:Hpc in Hw; try done;
        rewrite ?bool_decide_eq_false_2 in Hw by done; try done.
    - apply verify_worker_set_ok in Hstep as (st & workers & snap' & tx & ix & _ & _ & _ & _ & _ & -> & _). done.
    - apply verifier_vote_ok in Hstep as (vp1 & p' & _ & _ & -> & _). done.
    - apply verifier_end_poll_ok in Hstep as (vp1 & p' & _ & _ & -> & _). done.
  Qed.
  Lemma save_messages_last id m : forall ms j tbl idx tbl',
    save_messages k tbl id idx ms = Ok tbl' -> ms !! j = Some m ->
    (forall i m', ms !! i = Some m' -> message_key k m' = message_key k m -> (i <= j)%nat) ->
    tbl' !! message_key k m = Some (Build_poll_content m id (idx + N.of_nat j)).
  Proof.
    induction ms as [|m0 ms IH]; intros j tbl idx tbl' H Hj Hlast; [by rewrite lookup_nil in Hj|].
    cbn [save_messages] in H. apply rbind_ok in H as (i & Hi & H). apply checked_ok in Hi as [_ ->].
    destruct j as [|j]; cbn in Hj.
    - injection Hj as ->. apply save_messages_ok in H as (_ & _ & T3). rewrite T3.
      + rewrite lookup_insert. by rewrite N.add_0_r.
      + intros m' Hm' Hk. apply elem_of_list_lookup in Hm' as [i Hi].
        specialize (Hlast (S i) m' Hi Hk). lia.
    - rewrite (IH j _ _ _ H Hj).
      + do 2 f_equal. lia.
      + intros i m' Hi Hk. specialize (Hlast (S i) m' Hi Hk). lia.
  Qed.

  Lemma set_entry_tracked s0 l0 id ex snap x o ops :
    tracked s0 l0 id ex snap x s0 [] ->
    v_worker_sets s0 !! operators_key k o = Some (Build_poll_content o id 0) ->
    (forall h reg mid o' out, (VerifyWorkerSet h reg mid o', out) ∈ log step s0 ops ->
       operators_key k o' <> operators_key k o) ->
    v_worker_sets (run step s0 ops) !! operators_key k o = Some (Build_poll_content o id 0).
  Proof.
    intros H0 Hm0. induction ops as [|op ops IH] using rev_ind; [done|].
    rewrite run_snoc, log_snoc. unfold exec, log1, exec.
    set (s := run step s0 ops) in *. set (l := log step s0 ops) in *.
    destruct (step s op) as [[s' out]| |] eqn:Hstep; [|by rewrite app_nil_r..].
    intros Hno. assert (v_worker_sets s !! operators_key k o = Some (Build_poll_content o id 0)) as IH'.
    { apply IH. intros. eapply Hno. apply elem_of_app. left. eauto. }
    destruct op as [h reg ms|h reg mid o'|h a i vs|h i]; cbn in Hstep.
    - apply verify_messages_ok in Hstep as (_ & _ & sts & _ & [(_ & -> & _)|(_ & Hopen)]); [done|].
      destruct Hopen as (workers' & snap' & tbl & events & _ & _ & _ & _ & _ & _ & -> & _). done.
    - apply verify_worker_set_ok in Hstep as (st & workers & snap' & tx & ix & _ & _ & _ & _ & _ & -> & _).
      cbn. rewrite lookup_insert_ne; [done|]. eapply Hno. apply elem_of_app. right. by apply elem_of_list_singleton.
    - apply verifier_vote_ok in Hstep as (vp1 & p' & _ & _ & -> & _). done.
    - apply verifier_end_poll_ok in Hstep as (vp1 & p' & _ & _ & -> & _). done.
  Qed.

  Lemma in_order_split ex ops :
    in_order ops -> exists early late, ops = early ++ late /\
      Forall (fun op => at_height op < ex) early /\ Forall (fun op => ex <= at_height op) late.
  Proof.
    unfold in_order. induction ops as [|op ops IH]; cbn; intros H.
    - exists [], []. by repeat constructor.
    - apply StronglySorted_inv in H as [Hs Hall].
      destruct (decide (at_height op < ex)) as [Hlt|Hge].
      + destruct (IH Hs) as (early & late & -> & He & Hl). exists (op :: early), late.
        split_and!; [done|by constructor|done].
      + exists [], (op :: ops). split_and!; [done|constructor|]. constructor; [lia|].
        rewrite Forall_fmap in Hall. eapply Forall_impl; [exact Hall|]. cbn. intros; lia.
  Qed.

  Lemma vouched_early s0 early late id ex workers idx :
    Forall (fun op => ex <= at_height op) late ->
    vouched (vc_threshold cfg) (log step s0 (early ++ late)) id ex workers idx ->
    vouched (vc_threshold cfg) (log step s0 early) id ex workers idx.
  Proof.
    intros Hlate (voters & Hnd & Hv & Hq). exists voters. split_and!; [done| |done].
    intros a Ha. apply Hv in Ha as (Ha & h & b & o & Hin & Hh & Hb). split; [done|].
    exists h, b, o. split_and!; [|done|done]. rewrite log_app in Hin.
    apply elem_of_app in Hin as [Hin|Hin]; [done|]. exfalso.
    apply elem_of_list_split in Hin as (la & lb & Hin).
    apply log_split in Hin as (o1 & o2 & s1 & -> & _).
    rewrite Forall_app, Forall_cons in Hlate. destruct Hlate as (_ & Hl & _). cbn in Hl. lia.
  Qed.

  Lemma c88_verifies ops1 h reg ms s' sts es meta workers ops2 idx m :
    valid_vconfig cfg ->
    step (vrun k cfg ops1) (VerifyMessages h reg ms) = Ok (s', OutVerify sts (Some (es, meta))) ->
    reg (vc_registry cfg) (vc_service cfg) (vc_chain cfg) = Some workers ->
    let asked := List.filter (wants_poll k (vrun k cfg ops1)) ms in
    asked !! idx = Some m ->
    (forall j m', asked !! j = Some m' -> message_key k m' = message_key k m -> (j <= idx)%nat) ->
    in_order ops2 ->
    vouched (vc_threshold cfg) (log step s' ops2) (pm_poll_id meta) (h + vc_expiry cfg) workers idx ->
    message_status k (vrun k cfg (ops1 ++ VerifyMessages h reg ms :: ops2)) m = Ok Verified.
  Proof.
    intros Hcfg Hstep Hreg asked Hidx Hlast Hord Hv.
    set (id := pm_poll_id meta) in *. set (ex := h + vc_expiry cfg) in *.
    pose proof (inv_run k cfg ops1) as Hinv. pose proof Hinv as [Hc _ _ _].
    pose proof (inv_step _ _ _ _ _ _ _ Hinv Hstep) as Hinv'.
    assert (exists snap, opens cfg (VerifyMessages h reg ms, OutVerify sts (Some (es, meta))) id ex workers
                (OnMessages asked) /\
      snapshot_new (E:=verror) (vc_threshold cfg) (worker_list workers) = Ok snap /\
      v_messages s' !! message_key k m = Some (Build_poll_content m id (N.of_nat idx)) /\
      tracked s' (vlog k cfg ops1 ++ [(VerifyMessages h reg ms, OutVerify sts (Some (es, meta)))])
        id ex snap (OnMessages asked) s' []) as (snap & Ho & Hs & Hent & H0).
    { pose proof Hstep as Hst. cbn in Hst.
      apply verify_messages_ok in Hst as (_ & _ & sts' & _ & [(_ & _ & [=])|(_ & Hopen)]).
      destruct Hopen as (workers' & snap & tbl & events & Hreg' & Hsn & _ & _ & Htbl & Hev & Hs' & Hout).
      injection Hout as -> -> Hmeta. rewrite Hc in *. rewrite Hreg in Hreg'. injection Hreg' as <-.
      exists snap. unfold id. rewrite Hmeta. cbn. split_and!; try done.
      - eauto using worker_snapshot_addrs.
      - exists asked. split_and!; [done|apply filter_sublist|done].
      - subst s'. cbn. rewrite (save_messages_last _ _ _ _ _ _ _ Htbl Hidx Hlast). by rewrite N.add_0_l.
      - split; [by rewrite app_nil_r, <- Hmeta|]. split; [done|]. subst s'. cbn. by rewrite lookup_insert. }
    destruct (in_order_split ex _ Hord) as (early & late & -> & Hearly & Hlate).
    apply vouched_early in Hv; [|done].
    replace (ops1 ++ VerifyMessages h reg ms :: early ++ late)
      with ((ops1 ++ VerifyMessages h reg ms :: early) ++ late) by (by rewrite <- app_assoc).
    apply c07; [done|]. destruct (run_after _ _ _ _ early Hstep) as [-> _].
    apply status_verified.
    assert (idx < subject_size (OnMessages asked))%nat as Hlt by (by eapply lookup_lt_Some).
    exists (Build_poll_content m id (N.of_nat idx)), (subject_poll (OnMessages asked)
      (poll_after snap id ex (subject_size (OnMessages asked)) (poll_ops id (log step s' early)))).
    split; [|split; [done|split]].
    - eapply entry_tracked; try done; [by rewrite Nat2N.id|].
      intros Hend. unfold ended in Hend. apply elem_of_list_omap in Hend as ([op o] & Hin & Hop).
      cbn in Hop. destruct op as [| | |h' i]; try done. injection Hop as ->.
      pose proof (tracked_ends _ _ _ _ _ _ _ _ _ _ _ Hs H0 Hin) as Hle.
      apply elem_of_list_split in Hin as (la & lb & Hin).
      apply log_split in Hin as (o1 & o2 & s1 & -> & _).
      rewrite Forall_app, Forall_cons in Hearly. destruct Hearly as (_ & Hl & _). cbn in Hl. lia.
    - by destruct (tracked_run _ _ _ _ _ _ early H0) as (_ & _ & Hvp).
    - cbn [c_index]. rewrite Nat2N.id. eapply poll_reaches; eauto.
  Qed.

  Lemma c88_verifies_set ops1 h reg mid o s' tx n o' meta workers ops2 :
    valid_vconfig cfg ->
    step (vrun k cfg ops1) (VerifyWorkerSet h reg mid o) = Ok (s', OutWorkerSet tx n o' meta) ->
    reg (vc_registry cfg) (vc_service cfg) (vc_chain cfg) = Some workers ->
    (forall h' reg' mid' o' out, (VerifyWorkerSet h' reg' mid' o', out) ∈ log step s' ops2 ->
       operators_key k o' <> operators_key k o) ->
    vouched (vc_threshold cfg) (log step s' ops2) (pm_poll_id meta) (h + vc_expiry cfg) workers 0 ->
    worker_set_status k (vrun k cfg (ops1 ++ VerifyWorkerSet h reg mid o :: ops2)) o = Ok Verified.
  Proof.
    intros Hcfg Hstep Hreg Hno Hv.
    set (id := pm_poll_id meta) in *. set (ex := h + vc_expiry cfg) in *.
    pose proof (inv_run k cfg ops1) as Hinv. pose proof Hinv as [Hc _ _ _].
    pose proof (inv_step _ _ _ _ _ _ _ Hinv Hstep) as Hinv'.
    assert (exists snap, opens cfg (VerifyWorkerSet h reg mid o, OutWorkerSet tx n o' meta) id ex workers
                (OnOperators o) /\
      snapshot_new (E:=verror) (vc_threshold cfg) (worker_list workers) = Ok snap /\
      v_worker_sets s' !! operators_key k o = Some (Build_poll_content o id 0) /\
      tracked s' (vlog k cfg ops1 ++ [(VerifyWorkerSet h reg mid o, OutWorkerSet tx n o' meta)])
        id ex snap (OnOperators o) s' []) as (snap & Ho & Hs & Hent & H0).
    { pose proof Hstep as Hst. cbn in Hst.
      apply verify_worker_set_ok in Hst as (st & workers' & snap & tx' & ix & _ & _ & Hreg' & Hsn & Hpm & Hs' & Hout).
      injection Hout as -> -> -> Hmeta. rewrite Hc in *. rewrite Hreg in Hreg'. injection Hreg' as <-.
      exists snap. unfold id. rewrite Hmeta. cbn. split_and!; try done.
      - eauto using worker_snapshot_addrs.
      - subst s'. cbn. by rewrite lookup_insert.
      - split; [by rewrite app_nil_r, <- Hmeta|]. split; [done|]. subst s'. cbn. by rewrite lookup_insert. }
    destruct (run_after _ _ _ _ ops2 Hstep) as [-> _].
    apply status_verified.
    exists (Build_poll_content o id 0), (subject_poll (OnOperators o)
      (poll_after snap id ex (subject_size (OnOperators o)) (poll_ops id (log step s' ops2)))).
    split; [|split; [done|split]].
    - eapply set_entry_tracked; try done.
    - by destruct (tracked_run _ _ _ _ _ _ ops2 H0) as (_ & _ & Hvp).
    - cbn [c_index]. eapply (poll_reaches _ _ _ _ _ _ _ _ _ (OnOperators o)); eauto.
  Qed.
End Live.
