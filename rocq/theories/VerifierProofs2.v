From Verif Require Import Base BaseLemmas Text TextLemmas StdModel StdSpec StdProofs
  RouterTypes RegistryTypes OperatorsModel VerifierModel VerifierSpec VerifierProofs.

Section Proofs.
  Context (k : string -> string) (cfg : vconfig).
  Local Notation inv := (inv k cfg).

  Lemma run_cfg ops : v_config (vrun k cfg ops) = cfg.
  Proof. apply (i_config _ _ _ _ (inv_run k cfg ops)). Qed.

  (** *** C09 *)
  Lemma filter_nil {A} (f : A -> bool) l : Forall (fun a => f a = false) l -> List.filter f l = [].
  Proof. induction 1 as [|a l Ha _ IH]; [done|]. cbn. by rewrite Ha. Qed.

  Lemma c09_settled s h reg ms :
    ms <> [] -> Forall (fun m => cc_chain (m_cc m) = vc_chain (v_config s)) ms ->
    Forall (fun m => message_status k s m = Ok Verified \/ message_status k s m = Ok StatusInProgress) ms ->
    exists statuses, verify_messages k s h reg ms = Ok (s, OutVerify statuses None).
  Proof.
    intros Hne Hch Hst. unfold verify_messages. rewrite bool_decide_eq_false_2 by done. cbn [negb ensure rbind].
    assert (forallb (fun m => String.eqb (cc_chain (m_cc m)) (vc_chain (v_config s))) ms = true) as ->.
    { apply forallb_forall. intros m Hm%elem_of_list_In. rewrite Forall_forall in Hch.
      apply String.eqb_eq. auto. }
    cbn [ensure rbind].
    assert (exists st, is_verified k s ms = Ok st) as [st Hv].
    { unfold is_verified. clear Hch Hne. induction Hst as [|m ms Hm _ [st IH]]; [by exists []|].
      cbn. rewrite IH. destruct Hm as [-> | ->]; cbn; eauto. }
    rewrite Hv. cbn [rbind]. exists st.
    assert (exists ws, try_map (fun m => let? st := message_status k s m in Ok (st, m)) ms = Ok ws) as [ws Hw].
    { clear Hch Hne Hv. induction Hst as [|m ms Hm _ [ws IH]]; [by exists []|].
      cbn. rewrite IH. destruct Hm as [-> | ->]; cbn; eauto. }
    rewrite Hw. cbn [rbind]. rewrite (with_status_todo _ _ _ _ Hw), filter_nil; [done|].
    eapply Forall_impl; [exact Hst|]. intros m Hm. unfold wants_poll. by destruct Hm as [-> | ->].
  Qed.

  Lemma fresh_consensus snap id expires size idx workers :
    majority_snapshot snap workers -> (idx < size)%nat ->
    poll_consensus (poll_new id snap expires size) idx = Ok None.
  Proof.
    intros Hm Hi. change (poll_new id snap expires size) with (poll_after snap id expires size []).
    pose proof (proj2 (c04_out_of_range _ _ id expires size [] idx Hm) Hi) as Hok.
    destruct (poll_consensus _ _) as [[v|]| |] eqn:Hc; try done.
    apply (c04_iff _ _ _ _ _ _ _ _ Hm Hi) in Hc. rewrite weight_for_nil in Hc.
    apply majority_quorum in Hm as (_ & Hq & _). lia.
  Qed.

  Lemma status_same s s' l (m : message) :
    inv s l -> (forall id vp, v_polls s !! id = Some vp -> v_polls s' !! id = Some vp) ->
    v_messages s' !! message_key k m = v_messages s !! message_key k m ->
    message_status k s' m = message_status k s m.
  Proof.
    intros Hinv Hp Hm. unfold message_status. rewrite Hm. unfold verification_status.
    destruct (v_messages s !! message_key k m) as [c|] eqn:Hc; [|done].
    case_bool_decide; [|done]. apply (i_msgs _ _ _ _ Hinv) in Hc as [_ [vp Hvp]].
    rewrite Hvp. apply Hp in Hvp. by rewrite Hvp.
  Qed.

  Lemma c09_opens ops h reg ms s' out :
    valid_vconfig cfg ->
    let s := vrun k cfg ops in
    verify_messages k s h reg ms = Ok (s', out) ->
    let todo := List.filter (wants_poll k s) ms in
    (todo = [] -> s' = s /\ exists statuses, out = OutVerify statuses None) /\
    (todo <> [] -> exists statuses events meta p,
       out = OutVerify statuses (Some (events, meta)) /\
       Forall2 (fun m ev => tx_event_of m = Ok ev) todo events /\
       v_polls s !! pm_poll_id meta = None /\
       v_polls s' = <[pm_poll_id meta := MessagesPoll p]> (v_polls s) /\
       poll_size p = N.of_nat (length todo) /\
       (forall m, m ∈ todo -> message_status k s' m = Ok StatusInProgress \/
          exists m', m' ∈ todo /\ m' <> m /\ message_key k m' = message_key k m)) /\
    (forall m, (forall m', m' ∈ todo -> message_key k m' <> message_key k m) ->
       message_status k s' m = message_status k s m).
  Proof.
    intros Hcfg s Hv todo. pose proof (inv_run k cfg ops) as Hinv. fold s in Hinv.
    pose proof Hinv as [Hc Hp Hm Hw].
    apply verify_messages_ok in Hv as (Hne & Hch & statuses & Hst & [(Ht & -> & ->)|(Ht & Hopen)]);
      fold todo in Ht.
    { split; [eauto|]. split; [done|done]. }
    destruct Hopen as (workers & snap & tbl & events & Hreg & Hsn & Hid & Hex & Htbl & Hev & -> & ->).
    fold todo in Htbl, Hev. split; [done|].
    assert (v_polls s !! (v_poll_id s + 1) = None) as Hfresh.
    { destruct (v_polls s !! (v_poll_id s + 1)) as [vp|] eqn:Hvp; [|done]. apply Hp in Hvp as [? _]. lia. }
    apply save_messages_ok in Htbl as (T1 & T2 & T3). rewrite Hc in *. split.
    - intros _. do 4 eexists. split; [done|]. cbn. split_and!; try done.
      intros m Hmem. destruct (T2 m Hmem) as (c & Hlk & Hcp).
      destruct (T1 _ _ Hlk) as [[_ Hno]|(_ & Hkey & _ & Hidx)]; [by destruct (Hno m Hmem)|].
      rewrite N.sub_0_r in Hidx. destruct (decide (c_content c = m)) as [Heq|Hneq].
      + left. unfold message_status, verification_status. cbn. rewrite Hlk.
        rewrite bool_decide_eq_true_2 by done. rewrite Hcp, lookup_insert. cbn.
        rewrite (fresh_consensus _ _ _ _ _ (worker_list workers)).
        * done.
        * by eapply valid_majority.
        * by eapply lookup_lt_Some.
      + right. exists (c_content c). split_and!; [by eapply elem_of_list_lookup_2|done|done].
    - intros m Hno. eapply status_same; [done| |].
      + cbn. intros id vp Hvp. rewrite lookup_insert_ne; [done|]. congruence.
      + cbn. by apply T3.
  Qed.

  Lemma poll_id_bound ops : v_poll_id (vrun k cfg ops) <= N.of_nat (length ops).
  Proof.
    unfold vrun. assert (forall s, v_poll_id (run (verifier_step k) s ops) <= v_poll_id s + N.of_nat (length ops)) as H.
    { induction ops as [|op ops IH]; intros s; [cbn; lia|]. cbn [run length].
      etrans; [apply IH|]. unfold exec.
      assert (forall s' out, verifier_step k s op = Ok (s', out) -> v_poll_id s' <= v_poll_id s + 1) as Hs.
      { intros s' out Hs. destruct op as [h reg ms|h reg mid o|h a i vs|h i]; cbn in Hs.
        - apply verify_messages_ok in Hs as (Hne & Hch & statuses & Hst & [(Ht & -> & ->)|(Ht & Hopen)]); [lia|].
          destruct Hopen as (? & ? & ? & ? & ? & ? & ? & ? & ? & ? & -> & _). cbn. lia.
        - apply verify_worker_set_ok in Hs as (? & ? & ? & ? & ? & _ & _ & _ & _ & _ & -> & _). cbn. lia.
        - apply verifier_vote_ok in Hs as (? & ? & _ & _ & -> & _). cbn. lia.
        - apply verifier_end_poll_ok in Hs as (? & ? & _ & _ & -> & _). cbn. lia. }
      destruct (verifier_step k s op) as [[s' out]| |] eqn:Hs'; [specialize (Hs _ _ eq_refl)|..]; lia. }
    etrans; [apply H|]. cbn. lia.
  Qed.

  Lemma save_messages_total id ms : forall tbl idx,
    idx + N.of_nat (length ms) <= U32 -> exists tbl', save_messages k tbl id idx ms = Ok tbl'.
  Proof.
    induction ms as [|m ms IH]; intros tbl idx Hle; cbn in *; [eauto|].
    rewrite (proj2 (checked_ok U32 idx idx)) by lia. cbn. apply IH. lia.
  Qed.

  (** Nothing but the listed conditions can make a request fail. *)
  Lemma c09_enabled ops h reg ms workers :
    valid_vconfig cfg ->
    let s := vrun k cfg ops in
    ms <> [] -> N.of_nat (length ms) <= U32 ->
    Forall (fun m => cc_chain (m_cc m) = vc_chain cfg) ms ->
    Forall (fun m => message_status k s m <> Panic) ms ->
    Forall (fun m => is_ok (tx_event_of m) = true) ms ->
    reg (vc_registry cfg) (vc_service cfg) (vc_chain cfg) = Some workers ->
    workers <> [] -> Forall (fun w => exists n, w_bond w = Bonded n) workers ->
    N.of_nat (length workers) < U256 ->
    N.of_nat (length ops) + 1 < U64 -> h + vc_expiry cfg < U64 ->
    is_ok (verify_messages k s h reg ms) = true.
  Proof.
    intros Hcfg s Hne Hlen Hch Hst Hev Hreg Hwne Hbond Hwlen Hops Hex.
    pose proof (run_cfg ops) as Hc. fold s in Hc.
    unfold verify_messages. rewrite bool_decide_eq_false_2 by done. cbn [negb ensure rbind].
    rewrite Hc.
    assert (forallb (fun m => String.eqb (cc_chain (m_cc m)) (vc_chain cfg)) ms = true) as ->.
    { apply forallb_forall. intros m Hm%elem_of_list_In. rewrite Forall_forall in Hch.
      apply String.eqb_eq. auto. }
    cbn [ensure rbind].
    assert (Forall (fun m => exists st, message_status k s m = Ok st) ms) as Hst'.
    { eapply Forall_impl; [exact Hst|]. cbn. intros m Hm.
      destruct (message_status k s m) as [st|e|] eqn:He; [eauto| |done].
      exfalso. unfold message_status, verification_status in He.
      destruct (v_messages s !! _) as [c|]; [|done]. case_bool_decide; [|done].
      destruct (v_polls s !! _); [|done]. destruct (poll_consensus _ _) as [[[]|]| |]; try done;
        case_bool_decide; done. }
    assert (exists st, is_verified k s ms = Ok st) as [st Hv].
    { unfold is_verified. clear -Hst'. induction Hst' as [|m ms [st Hm] _ [sts IH]]; [by exists []|].
      cbn. rewrite IH, Hm. cbn. eauto. }
    rewrite Hv. cbn [rbind].
    assert (exists ws, try_map (fun m => let? st := message_status k s m in Ok (st, m)) ms = Ok ws) as [ws Hws].
    { clear -Hst'. induction Hst' as [|m ms [st Hm] _ [sts IH]]; [by exists []|].
      cbn. rewrite IH, Hm. cbn. eauto. }
    rewrite Hws. cbn [rbind]. rewrite (with_status_todo _ _ _ _ Hws).
    pose proof (filter_sublist (wants_poll k s) ms) as Hsub.
    destruct (List.filter (wants_poll k s) ms) as [|m0 todo]; [done|].
    assert (cc_chain (m_cc m0) = vc_chain cfg) as ->.
    { rewrite Forall_forall in Hch. apply Hch. apply (sublist_submseteq _ _) in Hsub.
      eapply elem_of_submseteq; [|exact Hsub]. left. }
    unfold take_snapshot. rewrite Hreg. cbn [of_option rbind].
    assert (try_map (worker_participant InvalidBondingState) workers = Ok (worker_list workers)) as ->.
    { clear -Hbond. induction Hbond as [|w ws [n Hw] _ IH]; [done|].
      cbn [try_map]. unfold worker_participant at 1. rewrite Hw. cbn [rbind]. rewrite IH. done. }
    cbn [rbind]. rewrite bool_decide_eq_false_2 by (destruct workers; done). cbn [negb ensure rbind].
    destruct (snapshot_new_total (E:=verror) (vc_threshold cfg) (worker_list workers)) as [snap Hsnap].
    { by destruct workers. }
    { unfold worker_list. apply Forall_fmap. apply Forall_forall. intros; cbn; lia. }
    { by rewrite total_weight_workers. }
    { destruct Hcfg as (num & den & t & Ht & Hm). apply threshold_try_from_ok in Ht as [? ->].
      apply majority_try_from_ok in Hm as [? ->]. cbn. lia. }
    rewrite Hsnap. cbn [rbind]. unfold create_poll.
    pose proof (poll_id_bound ops) as Hb. fold s in Hb.
    assert (add_u64 (E:=verror) (v_poll_id s) 1 = Ok (v_poll_id s + 1)) as -> by (apply add_u64_ok; lia).
    cbn [rbind]. rewrite Hc.
    assert (add_u64 (E:=verror) h (vc_expiry cfg) = Ok (h + vc_expiry cfg)) as -> by (by apply add_u64_ok).
    cbn [rbind v_messages v_config v_poll_id v_polls v_worker_sets].
    destruct (save_messages_total (v_poll_id s + 1) (m0 :: todo) (v_messages s) 0) as [tbl ->].
    { apply sublist_length in Hsub. lia. }
    cbn [rbind].
    assert (exists evs, try_map tx_event_of (m0 :: todo) = Ok evs) as [evs ->]; [|done].
    assert (Forall (fun m => is_ok (tx_event_of m) = true) (m0 :: todo)) as Hev'.
    { rewrite Forall_forall in Hev. apply Forall_forall. intros m Hm. apply Hev.
      apply (sublist_submseteq _ _) in Hsub. eapply elem_of_submseteq; done. }
    clear -Hev'. induction Hev' as [|m ms Hm _ [evs IH]]; [by exists []|].
    cbn. destruct (tx_event_of m) as [ev| |]; try done. cbn. rewrite IH. cbn. eauto.
  Qed.

  (** *** C10 *)
  Lemma fixed_parts_after t l0 snap id expires ops x :
    snapshot_new (E:=verror) t l0 = Ok snap ->
    fixed_parts (subject_poll x (poll_after snap id expires (subject_size x) ops)) =
    (match x with OnMessages _ => true | OnOperators _ => false end,
     id, s_quorum snap, expires, N.of_nat (subject_size x), s_participants snap).
  Proof.
    intros Hs. unfold fixed_parts. rewrite subject_poll_poll.
    rewrite poll_after_spec by exact (snapshot_sum_lt _ _ _ Hs).
    destruct x; cbn; f_equal; apply map_eq; intros a;
      rewrite lookup_fmap, map_lookup_imap; by destruct (s_participants snap !! a).
  Qed.

  (** a call changes at most the poll it addresses, and of that only the votes *)
  Lemma c10_step ops op s' out id vp :
    let s := vrun k cfg ops in
    verifier_step k s op = Ok (s', out) -> v_polls s !! id = Some vp ->
    exists vp', v_polls s' !! id = Some vp' /\ fixed_parts vp' = fixed_parts vp /\
      (vp' = vp \/ addresses op id).
  Proof.
    intros s Hstep Hvp. pose proof (inv_run k cfg ops) as Hinv. fold s in Hinv.
    pose proof Hinv as [Hc Hp Hm Hw].
    assert (forall pop p', poll_step (vpoll_poll vp) pop = Ok (p', ()) ->
      fixed_parts (match vp with MessagesPoll _ => MessagesPoll p' | WorkerSetPoll _ => WorkerSetPoll p' end)
      = fixed_parts vp) as Hkeep.
    { intros pop p' Hps. destruct (Hp _ _ Hvp) as [_ (l1 & e & l2 & ex & ws & x & snap & [Hl Ho Hs Hpo _ _])].
      subst vp. rewrite subject_poll_poll in *. apply poll_step_run in Hps as ->.
      rewrite (fixed_parts_after _ _ _ _ _ _ _ Hs).
      rewrite <- (fixed_parts_after _ _ _ _ _ (poll_ops id l2 ++ [pop]) _ Hs). by destruct x. }
    assert (id <= v_poll_id s) as Hle by (by destruct (Hp _ _ Hvp)).
    destruct op as [h reg ms|h reg mid o|h a i vs|h i]; cbn in Hstep.
    - apply verify_messages_ok in Hstep as (Hne & Hch & statuses & Hst & [(Ht & -> & ->)|(Ht & Hopen)]);
        [by eauto 10|].
      destruct Hopen as (workers & snap & tbl & events & Hreg & Hsn & Hid & Hex & Htbl & Hev & -> & ->).
      cbn. exists vp. split; [|eauto]. rewrite lookup_insert_ne; [done|]. lia.
    - apply verify_worker_set_ok in Hstep as (st & workers & snap & tx & ix & Hst & Hnv & Hreg & Hsn & Hpm & -> & ->).
      cbn. exists vp. split; [|eauto]. rewrite lookup_insert_ne; [done|]. lia.
    - apply verifier_vote_ok in Hstep as (vp1 & p' & Hid & Hv & -> & ->). cbn.
      destruct (decide (i = id)) as [->|].
      + rewrite Hvp in Hid. injection Hid as <-.
        rewrite lookup_insert. eexists. split; [done|]. split; [|by right].
        apply (Hkeep (PVote h a vs)). cbn. by rewrite Hv.
      + rewrite lookup_insert_ne by done. eauto 10.
    - apply verifier_end_poll_ok in Hstep as (vp1 & p' & Hid & Hv & -> & ->). cbn.
      destruct (decide (i = id)) as [->|].
      + rewrite Hvp in Hid. injection Hid as <-.
        rewrite lookup_insert. eexists. split; [done|]. split; [|by right].
        apply (Hkeep (PFinish h)). cbn. by rewrite Hv.
      + rewrite lookup_insert_ne by done. eauto 10.
  Qed.

  Lemma c10_fixed ops ops' id vp :
    v_polls (vrun k cfg ops) !! id = Some vp ->
    exists vp', v_polls (vrun k cfg (ops ++ ops')) !! id = Some vp' /\ fixed_parts vp' = fixed_parts vp.
  Proof.
    revert ops vp. induction ops' as [|op ops' IH]; intros ops vp Hvp.
    { rewrite app_nil_r. eauto. }
    replace (ops ++ op :: ops') with ((ops ++ [op]) ++ ops') by (by rewrite <- app_assoc).
    unfold vrun in *.
    destruct (verifier_step k (run (verifier_step k) (verifier_init cfg) ops) op) as [[s' out]| |] eqn:Hs.
    - destruct (c10_step _ _ _ _ _ _ Hs Hvp) as (vp1 & Hvp1 & Hf & _).
      destruct (IH (ops ++ [op]) vp1) as (vp' & ? & ?);
        [rewrite run_snoc; unfold exec; by rewrite Hs|]. exists vp'. by split; [|etrans].
    - apply IH. rewrite run_snoc. unfold exec. by rewrite Hs.
    - apply IH. rewrite run_snoc. unfold exec. by rewrite Hs.
  Qed.

  Lemma c10_untouched ops op s' out :
    let s := vrun k cfg ops in
    verifier_step k s op = Ok (s', out) ->
    match op with
    | Vote _ _ id _ | EndPoll _ id =>
        v_messages s' = v_messages s /\ v_worker_sets s' = v_worker_sets s /\
        v_poll_id s' = v_poll_id s /\ v_config s' = v_config s /\
        forall id', id' <> id -> v_polls s' !! id' = v_polls s !! id'
    | _ => v_config s' = v_config s
    end.
  Proof.
    intros s Hstep. destruct op as [h reg ms|h reg mid o|h a i vs|h i]; cbn in Hstep.
    - apply verify_messages_ok in Hstep as (Hne & Hch & statuses & Hst & [(Ht & -> & ->)|(Ht & Hopen)]); [done|].
      by destruct Hopen as (? & ? & ? & ? & ? & ? & ? & ? & ? & ? & -> & _).
    - by apply verify_worker_set_ok in Hstep as (? & ? & ? & ? & ? & _ & _ & _ & _ & _ & -> & _).
    - apply verifier_vote_ok in Hstep as (? & ? & _ & _ & -> & _). cbn.
      split_and!; try done. intros. by rewrite lookup_insert_ne.
    - apply verifier_end_poll_ok in Hstep as (? & ? & _ & _ & -> & _). cbn.
      split_and!; try done. intros. by rewrite lookup_insert_ne.
  Qed.

  Lemma StronglySorted_snoc {A} (R : A -> A -> Prop) l a :
    StronglySorted R l -> Forall (fun x => R x a) l -> StronglySorted R (l ++ [a]).
  Proof.
    induction 1 as [|b l Hl IH Hb]; intros H; [by repeat constructor|].
    inversion H; subst. cbn. constructor; [auto|]. apply Forall_app. by split; [|constructor].
  Qed.

  Lemma c10_ids ops :
    StronglySorted N.lt (opened (vlog k cfg ops)) /\
    Forall (fun i => 0 < i <= v_poll_id (vrun k cfg ops)) (opened (vlog k cfg ops)).
  Proof.
    unfold vrun, vlog. apply (run_log_inv _ (fun s l => StronglySorted N.lt (opened l) /\
      Forall (fun i => 0 < i <= v_poll_id s) (opened l))).
    { split; constructor. }
    intros s l op s' out [Hs Hf] Hstep.
    assert ((v_poll_id s' = v_poll_id s /\ opened_id out = None) \/
            (v_poll_id s' = v_poll_id s + 1 /\ opened_id out = Some (v_poll_id s + 1))) as Hcase.
    { destruct op as [h reg ms|h reg mid o|h a i vs|h i]; cbn in Hstep.
      - apply verify_messages_ok in Hstep as (Hne & Hch & statuses & Hst & [(Ht & -> & ->)|(Ht & Hopen)]); [by left|].
        destruct Hopen as (? & ? & ? & ? & ? & ? & ? & ? & ? & ? & -> & ->). by right.
      - apply verify_worker_set_ok in Hstep as (? & ? & ? & ? & ? & _ & _ & _ & _ & _ & -> & ->). by right.
      - apply verifier_vote_ok in Hstep as (? & ? & _ & _ & -> & ->). by left.
      - apply verifier_end_poll_ok in Hstep as (? & ? & _ & _ & -> & ->). by left. }
    unfold opened. rewrite omap_app. cbn. destruct Hcase as [[Hid ->]|[Hid ->]]; rewrite Hid.
    - rewrite app_nil_r. done.
    - split.
      + apply StronglySorted_snoc; [done|]. eapply Forall_impl; [exact Hf|]. cbn. lia.
      + apply Forall_app. split; [|repeat constructor; lia]. eapply Forall_impl; [exact Hf|]. cbn. lia.
  Qed.

End Proofs.
