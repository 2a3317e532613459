(** What the rewards contract is told: exactly what the verifiers and multisigs
    report. *)
From Verif Require Import Base BaseLemmas Text TextLemmas StdModel RouterTypes RegistryTypes OperatorsModel MultisigTypes
  RouterModel GatewayModel NexusModel RewardsModel RewardsSpec RewardsProofs RewardsProofs2 RewardsProofs3 RegistryModel VerifierModel VerifierSpec VerifierProofs VerifierProofs2 VerifierProofs3
  MultisigModel MultisigSpec MultisigProofs MultisigProofs2 MultisigProofs3 EncodingModel ProverModel
  SystemModel SystemSpec SystemProofs SystemProofs2 SystemProofs3 SystemProofs4.

Section Reports.
  Context (keccak : string -> string) (wshash : worker_set -> string)
          (sec1 : string -> option string)
          (crypto : key_type -> string -> string -> string -> option bool).
  Notation received := (received keccak wshash sec1 crypto).
  Notation steps := (steps keccak wshash sec1 crypto).
  Notation exec_call := (exec_call keccak wshash sec1 crypto).
  Notation system_step := (system_step keccak wshash sec1 crypto).
  Notation sysrun := (sysrun keccak wshash sec1 crypto).
  Notation history := (history keccak wshash sec1 crypto).

  Definition recs (a rw : addr) (l : list call) : list (string * addr) :=
    omap (fun k => if bool_decide (k_to k = rw) && bool_decide (k_sender k = a)
                   then match sb_body (k_sub k) with BRecord ev w => Some (ev, w) | _ => None end else None) l.
  Definition reps (a : addr) (rep : call -> list (string * addr)) (l : list call) : list (string * addr) :=
    l ≫= fun k => if bool_decide (k_to k = a) then rep k else [].
  Lemma recs_app a rw l1 l2 : recs a rw (l1 ++ l2) = recs a rw l1 ++ recs a rw l2.
  Proof. apply omap_app. Qed.
  Lemma reps_app a rep l1 l2 : reps a rep (l1 ++ l2) = reps a rep l1 ++ reps a rep l2.
  Proof. apply bind_app. Qed.

  Section One.
  Context (dep : gmap addr deployed) (A RW : addr) (rep : call -> list (string * addr)).
  Context (g0 d0 : string) (p0 : rparams) (h0 : N).
  Context (HRW : dep !! RW = Some (DRewards g0 d0 p0 h0)) (HA : is_Some (dep !! A)) (Hne : A <> RW).
  Definition reach (st : chain) : Prop := exists l, steps (system_init dep) l st.
  Context (Hrep : forall k c subs d, reach (k_chain k) -> k_to k = A -> received k = Ok (c, subs, d) ->
    subs = (fun x => plain RW (BRecord x.1 x.2)) <$> rep k).

  Lemma reach_steps st l st' : reach st -> steps st l st' -> reach st'.
  Proof. intros [l0 H0] H1. exists (l0 ++ l). by eapply steps_app. Qed.
  Lemma reach_rewards st : reach st -> exists s, st !! RW = Some (CRewards s).
  Proof. intros [l Hl]. pose proof (shape_steps keccak wshash sec1 crypto dep l st RW Hl) as Hs. rewrite HRW in Hs. cbn [shape] in Hs. eauto. Qed.
  Lemma reach_present st : reach st -> st !! A <> None.
  Proof.
    intros [l Hl] E. pose proof (shape_steps keccak wshash sec1 crypto dep l st A Hl) as Hs. destruct HA as [d Hd].
    rewrite Hd, E in Hs. destruct d; cbn [shape] in Hs; try discriminate Hs. by destruct Hs.
  Qed.
  Lemma exec_reach gas e sender st tr m st' tr' d : reach st -> exec_call gas e sender st tr m = Ok (st', tr', d) -> reach st'.
  Proof.
    intros Hst H. apply exec_call_spec in H as (k & rest & _ & _ & Hs & _). by eapply reach_steps.
  Qed.

  (** The reporter's own messages. *)
  Lemma report_subs g e xs : forall st tr st' tr', reach st ->
    run_subs (exec_call g e A) A st tr ((fun x => plain RW (BRecord x.1 x.2)) <$> xs) = Ok (st', tr') ->
    exists new, tr' = tr ++ new /\ recs A RW new = xs /\ reps A rep new = [].
  Proof.
    induction xs as [|[ev w] xs IH]; intros st tr st' tr' Hst; cbn [fmap list_fmap run_subs].
    - intros [= <- <-]. exists []. by rewrite app_nil_r.
    - intros ([[st1 tr1] d] & H1 & (st2 & H2 & H3)%rbind_ok)%rbind_ok. cbn [fst snd] in *. unfold plain in H2. cbn [sb_reply] in H2. injection H2 as <-.
      pose proof (exec_reach _ _ _ _ _ _ _ _ _ Hst H1) as Hst1.
      destruct (IH _ _ _ _ Hst1 H3) as (new & -> & E1 & E2).
      destruct g as [|g]; [discriminate H1|]. cbn [SystemModel.exec_call] in H1.
      apply rbind_ok in H1 as ([[c subs] d'] & Hr & ([st3 tr3] & Hrun & [= <- -> <-])%rbind_ok). cbn [fst snd] in Hrun.
      unfold receive in Hr. cbn [plain sb_to sb_body] in Hr. destruct (reach_rewards _ Hst) as [rs Hrs]. rewrite Hrs in Hr.
      apply rbind_ok in Hr as (o & _ & ([s' out] & _ & [= <- <- <-])%rbind_ok). cbn [run_subs] in Hrun. injection Hrun as <- <-.
      eexists ([_] ++ new). rewrite <- app_assoc. split; [reflexivity|]. rewrite recs_app, reps_app, E1, E2. unfold recs, reps. cbn [omap list_omap mbind list_bind]. unfold k_to.
      cbn [k_sub k_sender sb_to sb_body plain]. rewrite !bool_decide_true by done. cbn [andb]. by rewrite bool_decide_false by done.
  Qed.
  Lemma other_subs (f : chain -> list call -> sub -> res syserror (chain * list call * option N)) me :
    (forall st tr m st' tr' d, reach st -> f st tr m = Ok (st', tr', d) -> reach st' /\ exists new, tr' = tr ++ new /\ recs A RW new = reps A rep new) ->
    forall subs st tr st' tr', reach st -> run_subs f me st tr subs = Ok (st', tr') ->
    exists new, tr' = tr ++ new /\ recs A RW new = reps A rep new.
  Proof.
    intros Hf. induction subs as [|m subs IH]; intros st tr st' tr' Hst; cbn [run_subs].
    - intros [= <- <-]. exists []. by rewrite app_nil_r.
    - intros ([[st1 tr1] d] & H1 & (st2 & H2 & H3)%rbind_ok)%rbind_ok. cbn [fst snd] in *.
      destruct (Hf _ _ _ _ _ _ Hst H1) as (Hst1 & n1 & -> & E1).
      assert (Hst2 : reach st2).
      { destruct (sb_reply m); [|by injection H2 as <-]. eapply reach_steps; [exact Hst1|]. eapply (steps_reply _ _ _ _ _ _ _ _ []); [exact H2|constructor]. }
      destruct (IH _ _ _ _ Hst2 H3) as (n2 & -> & E2). exists (n1 ++ n2). split; [by rewrite app_assoc|].
      by rewrite recs_app, reps_app, E1, E2.
  Qed.
  Lemma exec_matches gas e : forall sender st tr m st' tr' d, sender <> A -> reach st ->
    exec_call gas e sender st tr m = Ok (st', tr', d) -> exists new, tr' = tr ++ new /\ recs A RW new = reps A rep new.
  Proof.
    induction gas as [|g IH]; intros sender st tr m st' tr' d Hs Hst; cbn [SystemModel.exec_call]; [done|].
    set (k := {| k_chain := st; k_env := e; k_index := length tr; k_sender := sender; k_sub := m |}).
    intros ([[c subs] d'] & Hr & ([st3 tr3] & Hrun & [= <- -> <-])%rbind_ok)%rbind_ok. cbn [fst snd] in Hrun.
    assert (Hst2 : reach (settle st (sb_to m) c)).
    { eapply reach_steps; [exact Hst|]. eapply (steps_call _ _ _ _ k c subs d' []); [exact Hr|constructor]. }
    assert (Ek : recs A RW [k] = []).
    { unfold recs. cbn [omap list_omap k]. rewrite (bool_decide_false (k_sender k = A)) by done. by rewrite andb_false_r. }
    destruct (decide (sb_to m = A)) as [HtA|HtA].
    - assert (Hsubs : subs = (fun x => plain RW (BRecord x.1 x.2)) <$> rep k) by (eapply (Hrep k); [exact Hst|done|exact Hr]).
      rewrite Hsubs, HtA in Hrun. rewrite HtA in Hst2. apply report_subs in Hrun as (new & -> & E1 & E2); [|done]. exists (k :: new). rewrite <- app_assoc. split; [done|].
      change (k :: new) with ([k] ++ new). rewrite recs_app, reps_app, Ek, E1, E2. cbn [app]. rewrite app_nil_r.
      unfold reps. cbn [mbind list_bind]. rewrite bool_decide_true by done. by rewrite app_nil_r.
    - apply other_subs in Hrun as (new & -> & E); [|intros; split; [by eapply exec_reach|by eapply IH]|done].
      exists (k :: new). rewrite <- app_assoc. split; [done|].
      change (k :: new) with ([k] ++ new). rewrite recs_app, reps_app, Ek, E. cbn [app].
      unfold reps at 2. cbn [mbind list_bind]. by rewrite bool_decide_false by done.
  Qed.
  Lemma step_matches st t st' l : reach st -> system_step st t = Ok (st', l) -> reach st' /\ recs A RW l = reps A rep l.
  Proof.
    intros Hst. unfold SystemModel.system_step. intros (u & H1%ensure_ok & ([[st1 tr1] d] & H2 & H3)%rbind_ok)%rbind_ok.
    injection H3 as -> ->. apply bool_decide_eq_true in H1. split; [by eapply exec_reach|].
    eapply exec_matches in H2 as (new & -> & E); [done| |done]. intros E. rewrite E in H1. by apply (reach_present st).
  Qed.
  Lemma run_matches txs : recs A RW (history dep txs) = reps A rep (history dep txs).
  Proof.
    unfold SystemSpec.history, SystemSpec.syslog.
    assert (Hst : reach (system_init dep)) by (exists []; constructor). revert Hst. generalize (system_init dep).
    induction txs as [|t txs IH]; intros st Hst; [done|]. cbn [log]. rewrite bind_app, recs_app, reps_app.
    unfold log1, exec. destruct (system_step st t) as [[st' l]| |] eqn:E; cbn [mbind list_bind app]; [|by apply IH..].
    destruct (step_matches _ _ _ _ Hst E) as [Hst' E']. cbn [snd]. rewrite app_nil_r, E'. f_equal. by apply IH.
  Qed.
  End One.

  (** The calls the rewards contract saw, as its own records. *)
  Lemma records_recs dep txs RW g0 d0 p0 h0 A : dep !! RW = Some (DRewards g0 d0 p0 h0) ->
    let i := {| ri_gov := g0; ri_denom := d0; ri_params := p0; ri_height := h0 |} in
    pool_records A (rlog i (rewards_ops RW (history dep txs))) = (fun x => (A, x.1, x.2)) <$> recs A RW (history dep txs).
  Proof.
    intros HRW i.
    assert (Hl : (rlog i (rewards_ops RW (history dep txs))).*1 = rewards_ops RW (history dep txs)).
    { eapply (each_rewards keccak wshash sec1 crypto (system_init dep)); [apply history_steps|]. etrans; [apply lookup_fmap|]. by rewrite HRW. }
    assert (Hr : records (rlog i (rewards_ops RW (history dep txs))) =
      omap (fun o => match o with Record_ _ c ev w => Some (c, ev, w) | _ => None end) (rewards_ops RW (history dep txs))).
    { rewrite <- Hl at 2. unfold records. generalize (rlog i (rewards_ops RW (history dep txs))). intros l. induction l as [|[o out] l IH]; [done|].
      cbn [omap list_omap fmap list_fmap fst]. by rewrite IH. }
    unfold pool_records. rewrite Hr. clear Hl Hr. generalize (history dep txs). intros l. unfold rewards_ops, calls_to, recs.
    induction l as [|k l IH]; [done|]. cbn [omap list_omap]. destruct (decide (k_to k = RW)) as [Ht|Ht].
    - rewrite (bool_decide_true (k_to k = RW)) by done. cbn [andb].
      destruct (sb_body (k_sub k)) eqn:Eb; cbn [rewards_op omap list_omap]; try (destruct (bool_decide (k_sender k = A)); exact IH).
      rewrite filter_cons. cbn [fst]. destruct (decide (k_sender k = A)) as [->|Hn].
      + rewrite bool_decide_true by done. cbn [fmap list_fmap fst snd]. f_equal. exact IH.
      + rewrite bool_decide_false by done. exact IH.
    - rewrite (bool_decide_false (k_to k = RW)) by done. exact IH.
  Qed.

  (** ** The verifier *)
  Definition vrep (V : addr) (k : call) : list (string * addr) :=
    match k_chain k !! V with
    | Some (CVerifier s) =>
        match verifier_op (en_height (k_env k)) (q_active (k_env k) (k_index k) (k_chain k)) (k_sender k) (sb_body (k_sub k)) with
        | Some op => match verifier_step keccak s op with Ok (_, o) => (fun x => (x.1.2, x.2)) <$> reported o | _ => [] end
        | None => []
        end
    | _ => []
    end.
  Lemma vrep_subs dep V vc k c subs d : dep !! V = Some (DVerifier vc) -> reach dep (k_chain k) -> k_to k = V -> received k = Ok (c, subs, d) ->
    subs = (fun x => plain (vc_rewards vc) (BRecord x.1 x.2)) <$> vrep V k.
  Proof.
    intros HV [l Hl] Ht Hr. pose proof (shape_steps keccak wshash sec1 crypto dep l _ V Hl) as Hs. rewrite HV in Hs. cbn [shape] in Hs.
    unfold SystemProofs.received, receive in Hr. fold (k_to k) in Hr. rewrite Ht, Hs in Hr. unfold vrep. rewrite Hs.
    apply rbind_ok in Hr as (o & Ho%of_option_ok & ([s' out] & H1%map_err_ok & [= <- <- <-])%rbind_ok). rewrite Ho, H1.
    pose proof (VerifierProofs.inv_run keccak vc (verifier_ops V l)) as [Hc _ _ _].
    destruct o as [h reg ms|h reg mid op|h a id vs|h id]; cbn [verifier_step] in H1.
    - apply verify_messages_ok in H1 as (_ & _ & statuses & _ & [(_ & _ & ->)|(_ & workers & snap & tbl & events & H1)]); [done|].
      destruct H1 as (_ & _ & _ & _ & _ & _ & _ & ->). done.
    - apply verify_worker_set_ok in H1 as (? & ? & ? & ? & ? & _ & _ & _ & _ & _ & _ & ->). done.
    - apply verifier_vote_ok in H1 as (? & ? & _ & _ & _ & ->). done.
    - apply verifier_end_poll_ok in H1 as (vp & p' & _ & _ & _ & ->). cbn [verifier_subs reported]. rewrite Hc.
      rewrite <- !list_fmap_compose. done.
  Qed.
  Lemma vrep_log dep txs V vc : dep !! V = Some (DVerifier vc) -> forall pre rest, history dep txs = pre ++ rest ->
    reps V (vrep V) pre = (fun x => (x.1.2, x.2)) <$> all_reported (vlog keccak vc (verifier_ops V pre)).
  Proof.
    intros HV pre. induction pre as [|k pre IH] using rev_ind; intros rest Hh; [done|].
    rewrite <- app_assoc in Hh. cbn [app] in Hh. rewrite reps_app, (IH _ Hh).
    pose proof (shape_at keccak wshash sec1 crypto _ _ _ _ _ V Hh) as Hs. rewrite HV in Hs. cbn [shape] in Hs.
    destruct (history_at keccak wshash sec1 crypto _ _ _ _ _ Hh) as (_ & c & subs & d & Hr & _).
    assert (Eo : verifier_ops V (pre ++ [k]) = verifier_ops V pre ++ verifier_ops V [k]) by apply omap_app.
    unfold vlog in *. rewrite Eo, log_app. unfold all_reported. rewrite bind_app, fmap_app. f_equal.
    unfold reps, verifier_ops, calls_to. cbn [mbind list_bind omap list_omap]. case_bool_decide as Ht; [|done].
    unfold SystemProofs.received, receive in Hr. fold (k_to k) in Hr. rewrite Ht, Hs in Hr.
    apply rbind_ok in Hr as (o & Ho%of_option_ok & ([s' out] & H1%map_err_ok & _)%rbind_ok).
    unfold vrep. rewrite Hs, Ho, H1. fold (vrun keccak vc (verifier_ops V pre)). cbn [log]. unfold log1.
    change (omap (fun k => if bool_decide (k_to k = V) then _ else None) pre) with (verifier_ops V pre). fold (vrun keccak vc (verifier_ops V pre)). rewrite H1.
    cbn [app mbind list_bind snd]. by rewrite !app_nil_r.
  Qed.

  Lemma c82_verifier dep txs V vc g0 d0 p0 h0 : dep !! V = Some (DVerifier vc) -> dep !! vc_rewards vc = Some (DRewards g0 d0 p0 h0) ->
    let i := {| ri_gov := g0; ri_denom := d0; ri_params := p0; ri_height := h0 |} in
    pool_records V (rlog i (rewards_ops (vc_rewards vc) (history dep txs))) =
    (fun x => (V, x.1.2, x.2)) <$> all_reported (vlog keccak vc (verifier_ops V (history dep txs))).
  Proof.
    intros HV HRW i. unfold i. rewrite (records_recs dep txs _ _ _ _ _ V HRW).
    rewrite (run_matches dep V (vc_rewards vc) (vrep V) _ _ _ _ HRW); [|by rewrite HV|intros E; rewrite E, HRW in HV; discriminate HV|].
    - rewrite (vrep_log dep txs V vc HV _ []) by (by rewrite app_nil_r). by rewrite <- list_fmap_compose.
    - intros k c subs d H1 H2 H3. by eapply vrep_subs.
  Qed.

  (** ** The multisig *)
  Definition mreports (l : list (mop * mout)) : list (string * addr) :=
    omap (fun e => match e.2 with OutSigned x _ _ _ _ => Some (x.1.2, x.2) | _ => None end) l.
  Definition mrep (M : addr) (k : call) : list (string * addr) :=
    match k_chain k !! M with
    | Some (CMultisig s) =>
        match multisig_op (en_height (k_env k)) (k_sender k) (sb_body (k_sub k)) with
        | Some op => match multisig_step (worker_set_id wshash) crypto s op with Ok (_, OutSigned x _ _ _ _) => [(x.1.2, x.2)] | _ => [] end
        | None => []
        end
    | _ => []
    end.
  Lemma mrep_subs dep M g r n k c subs d : dep !! M = Some (DMultisig g r n) -> reach dep (k_chain k) -> k_to k = M -> received k = Ok (c, subs, d) ->
    subs = (fun x => plain r (BRecord x.1 x.2)) <$> mrep M k.
  Proof.
    intros HM [l Hl] Ht Hr. pose proof (shape_steps keccak wshash sec1 crypto dep l _ M Hl) as Hs. rewrite HM in Hs. cbn [shape] in Hs.
    unfold SystemProofs.received, receive in Hr. fold (k_to k) in Hr. rewrite Ht, Hs in Hr. unfold mrep. rewrite Hs.
    apply rbind_ok in Hr as (o & Ho%of_option_ok & ([s' out] & H1%map_err_ok & [= <- <- <-])%rbind_ok). rewrite Ho, H1.
    destruct (inv1_run (worker_set_id wshash) crypto g r n (multisig_ops M l)) as (_ & Hrw & _). unfold mrun in Hrw.
    destruct o as [a w msg chain|h a id b|a ws|a t b|a auth c0]; cbn [multisig_step] in H1.
    - apply start_ok in H1 as (? & _ & _ & _ & _ & _ & ->). done.
    - apply submit_ok in H1 as (? & ? & ? & ? & _ & _ & _ & _ & _ & _ & _ & _ & _ & _ & ->). cbn [multisig_subs fmap list_fmap fst snd]. by rewrite Hrw.
    - injection H1 as _ <-. done.
    - apply register_key_ok in H1 as (_ & _ & ->). done.
    - apply set_caller_ok in H1 as (_ & _ & ->). done.
  Qed.
  Lemma mrep_log dep txs M g r n : dep !! M = Some (DMultisig g r n) -> forall pre rest, history dep txs = pre ++ rest ->
    reps M (mrep M) pre = mreports (mlog (worker_set_id wshash) crypto g r n (multisig_ops M pre)).
  Proof.
    intros HM pre. induction pre as [|k pre IH] using rev_ind; intros rest Hh; [done|].
    rewrite <- app_assoc in Hh. cbn [app] in Hh. rewrite reps_app, (IH _ Hh).
    pose proof (shape_at keccak wshash sec1 crypto _ _ _ _ _ M Hh) as Hs. rewrite HM in Hs. cbn [shape] in Hs.
    destruct (history_at keccak wshash sec1 crypto _ _ _ _ _ Hh) as (_ & c & subs & d & Hr & _).
    assert (Eo : multisig_ops M (pre ++ [k]) = multisig_ops M pre ++ multisig_ops M [k]) by apply omap_app.
    unfold mlog in *. rewrite Eo, log_app. unfold mreports. rewrite omap_app. f_equal. clear Eo IH. set (s0 := run _ _ (multisig_ops M pre)) in *.
    unfold reps, multisig_ops, calls_to. cbn [mbind list_bind omap list_omap]. case_bool_decide as Ht; [|done].
    unfold SystemProofs.received, receive in Hr. fold (k_to k) in Hr. rewrite Ht, Hs in Hr.
    apply rbind_ok in Hr as (o & Ho%of_option_ok & ([s' out] & H1%map_err_ok & _)%rbind_ok).
    unfold mrep. rewrite Hs, Ho, H1. cbn [log]. unfold log1. rewrite H1. rewrite !app_nil_r. cbn [omap list_omap snd].
    by destruct out.
  Qed.
  Lemma c82_multisig dep txs M g r n g0 d0 p0 h0 : dep !! M = Some (DMultisig g r n) -> dep !! r = Some (DRewards g0 d0 p0 h0) ->
    let i := {| ri_gov := g0; ri_denom := d0; ri_params := p0; ri_height := h0 |} in
    pool_records M (rlog i (rewards_ops r (history dep txs))) =
    (fun x => (M, x.1, x.2)) <$> mreports (mlog (worker_set_id wshash) crypto g r n (multisig_ops M (history dep txs))).
  Proof.
    intros HM HRW i. unfold i. rewrite (records_recs dep txs _ _ _ _ _ M HRW).
    rewrite (run_matches dep M r (mrep M) _ _ _ _ HRW); [|by rewrite HM|intros E; rewrite E, HRW in HM; discriminate HM|].
    - by rewrite (mrep_log dep txs M g r n HM _ []) by (by rewrite app_nil_r).
    - intros k c subs d H1 H2 H3. by eapply mrep_subs.
  Qed.
  (** Nobody is reported twice for a session. *)
  Lemma mreports_run g r n ops :
    NoDup (mreports (mlog (worker_set_id wshash) crypto g r n ops)) /\
    forall ev w, (ev, w) ∈ mreports (mlog (worker_set_id wshash) crypto g r n ops) ->
      exists id, ev = dec id /\ is_Some (session_sigs (mrun (worker_set_id wshash) crypto g r n ops) id !! w).
  Proof.
    unfold mlog, mrun. apply (run_log_inv _ (fun s l => NoDup (mreports l) /\ forall ev w, (ev, w) ∈ mreports l ->
      exists id, ev = dec id /\ is_Some (session_sigs s id !! w))).
    { split; [constructor|]. intros ev w Hin. by apply elem_of_nil in Hin. }
    intros s l op s' out [Hn Hin] H1. unfold mreports. rewrite omap_app. fold (mreports l). cbn [omap list_omap snd].
    assert (Hother : (forall x a b c d, out <> OutSigned x a b c d) -> m_sigs s' = m_sigs s ->
      NoDup (mreports l ++ match out with OutSigned x _ _ _ _ => [(x.1.2, x.2)] | _ => [] end) /\
      forall ev w, (ev, w) ∈ mreports l ++ match out with OutSigned x _ _ _ _ => [(x.1.2, x.2)] | _ => [] end ->
        exists id, ev = dec id /\ is_Some (session_sigs s' id !! w)).
    { intros Ho Hs. unfold session_sigs. rewrite Hs. destruct out; rewrite ?app_nil_r; [done| |done..]. by destruct (Ho _ _ _ _ _ eq_refl). }
    destruct op as [a w msg chain|h a id b|a ws|a t b|a auth c0]; cbn [multisig_step] in H1.
    - apply start_ok in H1 as (? & _ & _ & _ & _ & -> & ->). by apply Hother.
    - apply submit_ok in H1 as (ss & ws & sg & sig & _ & _ & _ & _ & _ & _ & Hnone & _ & _ & -> & ->). cbn [fst snd]. clear Hother. split.
      + apply NoDup_app. split; [done|]. split; [|apply NoDup_singleton].
        intros x Hx ->%elem_of_list_singleton. destruct (Hin _ _ Hx) as (id' & ->%dec_inj & Hs). rewrite Hnone in Hs. by destruct Hs.
      + intros ev w [H|H%elem_of_list_singleton]%elem_of_app.
        * destruct (Hin _ _ H) as (id' & -> & Hs). exists id'. split; [done|]. unfold session_sigs at 1. cbn [m_sigs].
          destruct (decide (id = id')) as [<-|Hne].
          -- rewrite lookup_insert. cbn. destruct (decide (a = w)) as [->|]; [by rewrite lookup_insert|by rewrite lookup_insert_ne].
          -- by rewrite lookup_insert_ne.
        * injection H as -> ->. exists id. split; [done|]. unfold session_sigs at 1. cbn [m_sigs]. rewrite lookup_insert. cbn. by rewrite lookup_insert.
    - injection H1 as <- <-. by apply Hother.
    - apply register_key_ok in H1 as (_ & -> & ->). by apply Hother.
    - apply set_caller_ok in H1 as (_ & -> & ->). by apply Hother.
  Qed.

  (** ** Attendance *)
  Lemma reported_shape k vc ops r ev w : (r, ev, w) ∈ all_reported (vlog k vc ops) -> r = vc_rewards vc /\
    exists l1 h id rs res l2, vlog k vc ops = l1 ++ (EndPoll h id, OutEnded rs res) :: l2 /\ ev = dec id /\
      exists h' ballot out, (Vote h' w id ballot, out) ∈ l1 /\ forall i v, ps_results res !! i = Some (Some v) -> ballot !! i = Some v.
  Proof.
    unfold all_reported.
    intros ([op out] & H1 & H2)%elem_of_list_bind. cbn [snd] in H1. destruct out as [| | |rs res]; try by apply elem_of_nil in H1. cbn [reported] in H1.
    apply elem_of_list_split in H2 as (l1 & l2 & H2).
    assert (exists h id, op = EndPoll h id) as (h & id & ->).
    { pose proof H2 as Hl. apply log_split in Hl as (o1 & o2 & s' & _ & _ & Hst & _). destruct op as [h reg ms|h reg mid o|h a id vs|h id]; cbn [verifier_step] in Hst; [exfalso..|eauto].
      - apply verify_messages_ok in Hst as (_ & _ & statuses & _ & [(_ & _ & [=])|(_ & workers & snap & tbl & events & Hst)]).
        by destruct Hst as (_ & _ & _ & _ & _ & _ & _ & [=]).
      - by apply verify_worker_set_ok in Hst as (? & ? & ? & ? & ? & _ & _ & _ & _ & _ & _ & [=]).
      - by apply verifier_vote_ok in Hst as (? & ? & _ & _ & _ & [=]). }
    destruct (c11_reports _ _ _ _ _ _ _ _ _ H2) as (parts & -> & _ & _ & Hp).
    apply elem_of_list_fmap in H1 as (a & [= -> -> ->] & Ha). apply Hp in Ha. split; [done|].
    exists l1, h, id, ((fun a => (vc_rewards vc, dec id, a)) <$> parts), res, l2. done.
  Qed.
  Lemma all_reported_elem k vc ops ev w : (exists r, (r, ev, w) ∈ all_reported (vlog k vc ops)) <->
    exists l1 h id rs res l2, vlog k vc ops = l1 ++ (EndPoll h id, OutEnded rs res) :: l2 /\ ev = dec id /\
      exists h' ballot out, (Vote h' w id ballot, out) ∈ l1 /\ forall i v, ps_results res !! i = Some (Some v) -> ballot !! i = Some v.
  Proof.
    split; [by intros [r [_ H]%reported_shape]|].
    intros (l1 & h & id & rs & res & l2 & H2 & -> & Hv).
      destruct (c11_reports _ _ _ _ _ _ _ _ _ H2) as (parts & E & _ & _ & Hp). exists (vc_rewards vc). unfold all_reported.
      apply elem_of_list_bind. exists (EndPoll h id, OutEnded rs res). split; [|rewrite H2; apply elem_of_app; right; left].
      cbn [snd reported]. rewrite E. apply elem_of_list_fmap. exists w. split; [done|]. by apply Hp.
  Qed.
  Lemma vlog_full dep txs V vc l rest : dep !! V = Some (DVerifier vc) -> history dep txs = l ++ rest ->
    (vlog keccak vc (verifier_ops V l)).*1 = verifier_ops V l.
  Proof.
    intros HV Hh. assert (Hs : steps (system_init dep) (history dep txs) (sysrun dep txs)) by apply history_steps.
    destruct rest as [|k rest].
    - rewrite app_nil_r in Hh. rewrite Hh in Hs. eapply each_verifier in Hs as [_ Hl]; [exact Hl|]. etrans; [apply lookup_fmap|]. by rewrite HV.
    - apply history_at in Hh as [Hs' _]. eapply each_verifier in Hs' as [_ Hl]; [exact Hl|]. etrans; [apply lookup_fmap|]. by rewrite HV.
  Qed.
  Lemma ops_split {Op} (f : call -> option Op) a l o1 o o2 : calls_to f a l = o1 ++ o :: o2 ->
    exists l1 k l2, l = l1 ++ k :: l2 /\ k_to k = a /\ f k = Some o /\ o1 = calls_to f a l1.
  Proof.
    intros (l1 & k & l2 & -> & E1 & Hk & _)%omap_split. exists l1, k, l2. case_bool_decide; [done|discriminate Hk].
  Qed.
  Lemma attended_reported dep txs V vc id w : dep !! V = Some (DVerifier vc) ->
    (exists r, (r, dec id, w) ∈ all_reported (vlog keccak vc (verifier_ops V (history dep txs)))) <-> poll_attended V (history dep txs) id w.
  Proof.
    intros HV. set (H := history dep txs). rewrite all_reported_elem. split.
    - intros (l1 & h & id' & rs & res & l2 & Hl & ->%dec_inj & h' & ballot & out & Hin & Hb).
      pose proof Hl as Hst. apply log_split in Hst as (o1 & o2 & s' & Ho & El1 & Hst & _).
      apply ops_split in Ho as (p1 & k & p2 & Hh & Ht & Hop & Ho1).
      destruct (sb_body (k_sub k)) eqn:Eb; try discriminate Hop. cbn in Hop. injection Hop as Hhe ->.
      pose proof (shape_at keccak wshash sec1 crypto _ _ _ _ _ V Hh) as Hs. rewrite HV in Hs. cbn [shape] in Hs.
      assert (Hin' : Vote h' w id' ballot ∈ verifier_ops V p1).
      { rewrite <- (vlog_full dep txs V vc p1 _ HV Hh). apply elem_of_list_fmap. eexists. split; [|]. 2: { unfold vlog. rewrite Ho1 in El1. rewrite <- El1 in Hin. exact Hin. } done. }
      apply ops_elem in Hin' as (k' & Hk' & Ht' & Hop').
      destruct (sb_body (k_sub k')) eqn:Eb'; try discriminate Hop'. cbn in Hop'. injection Hop' as _ <- -> ->.
      exists p1, k, p2, (vrun keccak vc (verifier_ops V p1)), s', rs, res, k', ballot. split_and!; try done.
      cbn [verifier_step] in Hst. rewrite Hhe. rewrite Ho1 in Hst. exact Hst.
    - intros (pre & k & post & vs & vs' & rs & res & k' & ballot & Hh & Ht & Eb & Hs & Hst & Hk' & Ht' & Hw & Eb' & Hb).
      pose proof (shape_at keccak wshash sec1 crypto _ _ _ _ _ V Hh) as Hs'. rewrite HV, Hs in Hs'. cbn [shape] in Hs'. injection Hs' as ->.
      assert (Eo : verifier_ops V H = verifier_ops V pre ++ EndPoll (en_height (k_env k)) id :: verifier_ops V post).
      { rewrite Hh. unfold verifier_ops, calls_to. rewrite omap_app. cbn [omap list_omap]. rewrite bool_decide_true by done. by rewrite Eb. }
      exists (vlog keccak vc (verifier_ops V pre)), (en_height (k_env k)), id, rs, res, (log (verifier_step keccak) vs' (verifier_ops V post)).
      split; [|split; [done|]].
      { unfold vlog. rewrite Eo, log_app. f_equal. cbn [log]. unfold log1, exec. fold (vrun keccak vc (verifier_ops V pre)). cbn [verifier_step]. by rewrite Hst. }
      assert (Hin : Vote (en_height (k_env k')) w id ballot ∈ verifier_ops V pre).
      { apply elem_of_list_omap. exists k'. split; [done|]. rewrite bool_decide_true by done. rewrite Eb'. cbn. by rewrite Hw. }
      rewrite <- (vlog_full dep txs V vc pre _ HV Hh) in Hin. apply elem_of_list_fmap in Hin as ([o out] & E & Hin). cbn [fst] in E. subst o. eauto.
  Qed.

  Lemma mreports_elem g r n ops ev w : (ev, w) ∈ mreports (mlog (worker_set_id wshash) crypto g r n ops) <->
    exists h id b out, (SubmitSignature h w id b, out) ∈ mlog (worker_set_id wshash) crypto g r n ops /\ ev = dec id.
  Proof.
    assert (Hsh : forall op out, (op, out) ∈ mlog (worker_set_id wshash) crypto g r n ops ->
      match op with SubmitSignature _ a id _ => match out with OutSigned x _ _ _ _ => x.1.2 = dec id /\ x.2 = a | _ => False end
      | _ => match out with OutSigned _ _ _ _ _ => False | _ => True end end).
    { intros op out (o1 & o2 & s' & _ & H1)%log_elem. destruct op as [a w0 msg chain|h a id b|a ws|a t b|a auth c0]; cbn [multisig_step] in H1.
      - by apply start_ok in H1 as (? & _ & _ & _ & _ & -> & ->).
      - by apply submit_ok in H1 as (ss & ws & sg & sig & _ & _ & _ & _ & _ & _ & Hnone & _ & _ & -> & ->).
      - by injection H1 as <- <-.
      - by apply register_key_ok in H1 as (_ & -> & ->).
      - by apply set_caller_ok in H1 as (_ & -> & ->). }
    unfold mreports. rewrite elem_of_list_omap. split.
    - intros ([op out] & Hin & E). cbn [snd] in E. pose proof (Hsh _ _ Hin) as Hx. destruct out; try discriminate E. injection E as <- <-.
      destruct op; try done. destruct Hx as [-> ->]. eauto 10.
    - intros (h & id & b & out & Hin & ->). exists (SubmitSignature h w id b, out). split; [done|]. pose proof (Hsh _ _ Hin) as Hx.
      cbn [snd]. destruct out; try done. by destruct Hx as [-> ->].
  Qed.
  Lemma signed_reported dep txs M g r n id w : dep !! M = Some (DMultisig g r n) ->
    (dec id, w) ∈ mreports (mlog (worker_set_id wshash) crypto g r n (multisig_ops M (history dep txs))) <-> session_attended M (history dep txs) id w.
  Proof.
    intros HM. rewrite mreports_elem.
    assert (Hl : (mlog (worker_set_id wshash) crypto g r n (multisig_ops M (history dep txs))).*1 = multisig_ops M (history dep txs)).
    { eapply (each_multisig keccak wshash sec1 crypto (system_init dep)); [apply history_steps|]. etrans; [apply lookup_fmap|]. by rewrite HM. }
    split.
    - intros (h & id' & b & out & Hin & <-%dec_inj). apply (elem_of_list_fmap_1 fst) in Hin. rewrite Hl in Hin.
      apply ops_elem in Hin as (k & Hk & Ht & Hop). destruct (sb_body (k_sub k)) eqn:Eb; try discriminate Hop. cbn in Hop. injection Hop as _ <- -> ->.
      by exists k, b.
    - intros (k & b & Hk & Ht & Hw & Eb).
      assert (Hin : SubmitSignature (en_height (k_env k)) w id b ∈ multisig_ops M (history dep txs)).
      { apply elem_of_list_omap. exists k. split; [done|]. rewrite bool_decide_true by done. rewrite Eb. cbn. by rewrite Hw. }
      rewrite <- Hl in Hin. apply elem_of_list_fmap in Hin as ([o out] & E & Hin). cbn [fst] in E. subst o. eauto 10.
  Qed.

  (** ** Both *)
  Lemma in_pool c ev w l : (c, ev, w) ∈ pool_records c l <-> (c, ev, w) ∈ records l.
  Proof. unfold pool_records. rewrite elem_of_list_filter. naive_solver. Qed.
  Lemma counted i ops A n w (att : N -> addr -> Prop) : valid_rinit i -> Forall valid_rop ops ->
    NoDup (pool_records A (rlog i ops)) ->
    (forall ev w, (A, ev, w) ∈ pool_records A (rlog i ops) -> exists id, ev = dec id) ->
    (forall id w, (A, dec id, w) ∈ pool_records A (rlog i ops) <-> att id w) ->
    exists ids, NoDup ids /\ (forall id, id ∈ ids <-> att id w /\ first_seen i ops A (dec id) n) /\
      participated (rrun i ops) A n w = N.of_nat (length ids) /\ participated (rrun i ops) A n w <= event_count (rrun i ops) A n.
  Proof.
    intros Hi Hops Hnd Hdec Hatt. destruct (c15_no_dup i ops A n w Hi Hops Hnd) as (evs & Hevs & Hin & Hp & Hle).
    assert (exists ids, evs = dec <$> ids) as [ids ->].
    { assert (Hall : forall ev, ev ∈ evs -> exists id, ev = dec id).
      { intros ev [_ H]%Hin. eapply Hdec. by apply in_pool. }
      clear -Hall. induction evs as [|ev evs IH]; [by exists []|]. destruct IH as [ids ->]; [intros; apply Hall; by right|].
      destruct (Hall ev) as [id ->]; [by left|]. by exists (id :: ids). }
    exists ids. split; [by eapply NoDup_fmap_1|]. split.
    { intros id. rewrite <- Hatt, in_pool. rewrite (Logic.and_comm (_ ∈ _)), <- Hin, elem_of_list_fmap. split; [by eauto|]. by intros (y & ->%dec_inj & Hy). }
    rewrite fmap_length in Hp. done.
  Qed.

  Lemma c82_polls dep txs V vc g0 d0 p0 h0 : dep !! V = Some (DVerifier vc) -> dep !! vc_rewards vc = Some (DRewards g0 d0 p0 h0) ->
    let i := {| ri_gov := g0; ri_denom := d0; ri_params := p0; ri_height := h0 |} in
    let ops := rewards_ops (vc_rewards vc) (history dep txs) in
    (forall ev w, (V, ev, w) ∈ records (rlog i ops) <-> exists id, ev = dec id /\ poll_attended V (history dep txs) id w) /\
    NoDup (pool_records V (rlog i ops)) /\
    (valid_rinit i -> Forall valid_rop ops -> forall n w,
     exists rs ids, sysrun dep txs !! vc_rewards vc = Some (CRewards rs) /\
       NoDup ids /\ (forall id, id ∈ ids <-> poll_attended V (history dep txs) id w /\ first_seen i ops V (dec id) n) /\
       participated rs V n w = N.of_nat (length ids) /\ participated rs V n w <= event_count rs V n).
  Proof.
    intros HV HRW i ops. pose proof (c82_verifier dep txs V vc g0 d0 p0 h0 HV HRW) as Heq. cbn zeta in Heq. fold i in Heq. fold ops in Heq.
    assert (Hatt : forall ev w, (V, ev, w) ∈ pool_records V (rlog i ops) <-> exists id, ev = dec id /\ poll_attended V (history dep txs) id w).
    { intros ev w. rewrite Heq, elem_of_list_fmap. split.
      - intros ([[r ev'] w'] & [= -> ->] & H).
        pose proof (reported_shape keccak vc _ _ _ _ H) as (_ & l1 & h & id & rs & res & l2 & _ & -> & _).
        exists id. split; [done|]. apply (attended_reported dep txs V vc id w' HV). eauto.
      - intros (id & -> & [r H]%(attended_reported dep txs V vc id w HV)). by exists (r, dec id, w). }
    assert (Hnd : NoDup (pool_records V (rlog i ops))).
    { rewrite Heq. apply NoDup_fmap_2_strong; [|apply finished_run].
      intros [[r1 e1] w1] [[r2 e2] w2] H1 H2 [= -> ->].
      assert (Hr : forall r e w, (r, e, w) ∈ all_reported (vlog keccak vc (verifier_ops V (history dep txs))) -> r = vc_rewards vc).
      { intros r e w H. by apply reported_shape in H as [-> _]. }
      by rewrite (Hr _ _ _ H1), (Hr _ _ _ H2). }
    split; [intros ev w; rewrite <- in_pool; apply Hatt|]. split; [done|]. intros Hi Hops n w.
    pose proof (shape_end keccak wshash sec1 crypto dep txs (vc_rewards vc)) as Hs. rewrite HRW in Hs. cbn [shape] in Hs.
    exists (rrun i ops). edestruct (counted i ops V n w (poll_attended V (history dep txs))) as (ids & H1); try done.
    - intros ev w' (id & -> & _)%Hatt. eauto.
    - intros id w'. rewrite Hatt. split; [by intros (id' & ->%dec_inj & ?)|eauto].
    - exists ids. done.
  Qed.
  Lemma c82_sessions dep txs M g r n g0 d0 p0 h0 : dep !! M = Some (DMultisig g r n) -> dep !! r = Some (DRewards g0 d0 p0 h0) ->
    let i := {| ri_gov := g0; ri_denom := d0; ri_params := p0; ri_height := h0 |} in
    let ops := rewards_ops r (history dep txs) in
    (forall ev w, (M, ev, w) ∈ records (rlog i ops) <-> exists id, ev = dec id /\ session_attended M (history dep txs) id w) /\
    NoDup (pool_records M (rlog i ops)) /\
    (valid_rinit i -> Forall valid_rop ops -> forall n w,
     exists rs ids, sysrun dep txs !! r = Some (CRewards rs) /\
       NoDup ids /\ (forall id, id ∈ ids <-> session_attended M (history dep txs) id w /\ first_seen i ops M (dec id) n) /\
       participated rs M n w = N.of_nat (length ids) /\ participated rs M n w <= event_count rs M n).
  Proof.
    intros HM HRW i ops. pose proof (c82_multisig dep txs M g r n g0 d0 p0 h0 HM HRW) as Heq. cbn zeta in Heq. fold i in Heq. fold ops in Heq.
    destruct (mreports_run g r n (multisig_ops M (history dep txs))) as [Hn Hdec].
    assert (Hatt : forall ev w, (M, ev, w) ∈ pool_records M (rlog i ops) <-> exists id, ev = dec id /\ session_attended M (history dep txs) id w).
    { intros ev w. rewrite Heq, elem_of_list_fmap. split.
      - intros ([ev' w'] & [= -> ->] & H). destruct (Hdec _ _ H) as (id & -> & _). exists id. split; [done|].
        by apply (signed_reported dep txs M g r n id w' HM).
      - intros (id & -> & H%(signed_reported dep txs M g r n id w HM)). by exists (dec id, w). }
    assert (Hnd : NoDup (pool_records M (rlog i ops))).
    { rewrite Heq. apply NoDup_fmap_2; [|done]. intros [e1 w1] [e2 w2] [= -> ->]. done. }
    split; [intros ev w; rewrite <- in_pool; apply Hatt|]. split; [done|]. intros Hi Hops m w.
    pose proof (shape_end keccak wshash sec1 crypto dep txs r) as Hs. rewrite HRW in Hs. cbn [shape] in Hs.
    exists (rrun i ops). edestruct (counted i ops M m w (session_attended M (history dep txs))) as (ids & H1); try done.
    - intros ev w' (id & -> & _)%Hatt. eauto.
    - intros id w'. rewrite Hatt. split; [by intros (id' & ->%dec_inj & ?)|eauto].
    - exists ids. done.
  Qed.
End Reports.
