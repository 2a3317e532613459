(** End to end: what proofs contain, and whose worker set signs them. *)
From stdpp Require Import sorting.
From Verif Require Import Base BaseLemmas Text StdModel StdSpec RouterTypes RegistryTypes RegistryProofs OperatorsModel MultisigTypes
  RouterModel GatewayModel GatewaySpec GatewayProofs NexusModel RewardsModel RegistryModel VerifierModel VerifierSpec
  MultisigModel MultisigSpec MultisigProofs MultisigProofs2 MultisigProofs3 EncodingModel EncodingSpec ProverModel ProverSpec ProverProofs ProverProofs2 ProverProofs3 ProverProofs4
  SigningModel SigningSpec SigningProofs SigningProofs2
  SystemModel SystemSpec SystemProofs SystemProofs2 SystemProofs3 SystemProofs4 SystemProofs5.

Section Proofs.
  Context (keccak : string -> string) (wshash : worker_set -> string)
          (sec1 : string -> option string) (recover : string -> string -> string -> option N)
          (crypto : key_type -> string -> string -> string -> option bool).
  Notation sysrun := (sysrun keccak wshash sec1 crypto).
  Notation history := (history keccak wshash sec1 crypto).
  Notation received := (received keccak wshash sec1 crypto).
  Context (dep : gmap addr deployed) (txs : list tx) (P : addr) (c : pconfig) (g r : addr) (n : N).
  Context (HP : dep !! P = Some (DProver c)) (HM : dep !! pc_multisig c = Some (DMultisig g r n)).
  Notation sops := (signing_ops keccak P c).
  Notation srun := (srun keccak wshash sec1 crypto c P g r n).
  Notation slog := (slog keccak wshash sec1 crypto c P g r n).
  Notation H := (history dep txs).

  Lemma pair_tracks : tracks keccak wshash sec1 crypto P c (signing_init g r n) H (sysrun dep txs).
  Proof.
    apply run_tracks. split; (etrans; [apply lookup_fmap|]).
    - by rewrite HP.
    - by rewrite HM.
  Qed.
  Lemma pair_run : pair_state (sysrun dep txs) P c (srun (sops H)) /\ (slog (sops H)).*1 = sops H.
  Proof. destruct pair_tracks as (H1 & H2 & _). done. Qed.
  Lemma pair_multisig : (multisig_trace (slog (sops H))).*1 = multisig_ops (pc_multisig c) H.
  Proof.
    destruct pair_tracks as (_ & _ & H3 & _). rewrite <- H3. unfold multisig_trace. rewrite <- list_fmap_compose. done.
  Qed.
  Lemma pair_at pre k post : H = pre ++ k :: post -> k_sender k <> P -> pair_state (k_chain k) P c (srun (sops pre)).
  Proof. destruct pair_tracks as (_ & _ & _ & H3). apply H3. Qed.

  Lemma multisig_other : pc_multisig c <> P.
  Proof. intros E. rewrite E, HP in HM. discriminate HM. Qed.

  Lemma execute_to env s pc s' msg : prover_execute keccak wshash sec1 c env s pc = Ok (s', msg) ->
    match msg with MsgStart to _ _ _ | MsgRegister to _ => to = pc_multisig c end.
  Proof.
    intros Hex. destruct pc as [ids| |]; cbn [prover_execute] in Hex.
    - unfold construct_proof in Hex. repeat (apply rbind_ok in Hex as (? & _ & Hex)).
      repeat match goal with x : _ * _ |- _ => destruct x end; cbn in Hex.
      repeat (apply rbind_ok in Hex as (? & _ & Hex)). by injection Hex as _ <-.
    - unfold update_worker_set in Hex. destruct (pv_current _); repeat (apply rbind_ok in Hex as (? & _ & Hex)); by injection Hex as _ <-.
    - unfold confirm_worker_set in Hex. repeat (apply rbind_ok in Hex as (? & _ & Hex)). by injection Hex as _ <-.
  Qed.
  (** The prover does not call itself. *)
  Lemma not_self pre k post : H = pre ++ k :: post -> k_to k = P -> k_sender k <> P.
  Proof.
    intros Hk Ht Hs. destruct (called_by keccak wshash sec1 crypto dep txs _ _ _ Hk) as (p & Hp & Hc & Hpt); [by rewrite Hs, HP|].
    assert (Hp0 : p ∈ H) by (rewrite Hk; apply elem_of_app; by left).
    destruct (shape_in keccak wshash sec1 crypto dep txs p (k_to p) Hp0) as [l Hsh]. rewrite Hpt, Hs, HP in Hsh. cbn [shape] in Hsh.
    destruct Hsh as [s Hsh]. destruct Hc as (c' & subs & dd & pre' & post' & Hr & Hsubs & _).
    unfold SystemProofs.received, receive in Hr. fold (k_to p) in Hr. rewrite Hpt, Hs, Hsh in Hr.
    apply rbind_ok in Hr as (pc & _ & ([s' msg] & Hex%map_err_ok & [= <- <- <-])%rbind_ok).
    apply execute_to in Hex. assert (Hx : k_sub k ∈ prover_subs msg) by (rewrite Hsubs; apply elem_of_app; right; left).
    destruct msg; cbn [prover_subs] in Hx; apply elem_of_list_singleton in Hx; unfold k_to in Ht; rewrite Hx in Ht; cbn in Ht;
      rewrite Hex in Ht; by apply multisig_other.
  Qed.

  Lemma log_prefix {S Op Out E} (step : S -> Op -> res E (S * Out)) s o1 o2 :
    (log step s (o1 ++ o2)).*1 = o1 ++ o2 -> (log step s o1).*1 = o1.
  Proof.
    intros Hall. rewrite log_app, fmap_app in Hall. apply app_inj_1 in Hall as [Hall _]; [done|].
    pose proof (f_equal length Hall) as HL. rewrite !app_length in HL.
    pose proof (sublist_length _ _ (log_sublist step s o1)). pose proof (sublist_length _ _ (log_sublist step (run step s o1) o2)). lia.
  Qed.
  Definition sop_call (o : sop) : option pcall := match o with SProve pc _ => Some pc | SMultisig _ => None end.
  Lemma trace_calls ops : (slog ops).*1 = ops -> (fun e => po_call e.1) <$> prover_trace (slog ops) = omap sop_call ops.
  Proof.
    intros Hops. rewrite <- Hops at 2. unfold SigningSpec.slog. generalize (signing_init g r n). clear Hops.
    induction ops as [|o ops IH]; intros s; [done|]. cbn [log]. unfold prover_trace. rewrite omap_app, !fmap_app, omap_app. f_equal; [|apply IH].
    unfold log1. destruct (signing_step _ _ _ _ _ _ _ _) as [[s' so]| |] eqn:E; [|done..].
    destruct o as [pc env|mo]; cbn [signing_step] in E.
    - apply rbind_ok in E as ([p3 m] & _ & ([ms o] & _ & E)%rbind_ok).
      destruct m; [apply rbind_ok in E as ([p4 ev] & _ & [= _ <-])|injection E as _ <-]; done.
    - apply rbind_ok in E as ([ms o] & _ & [= _ <-]). done.
  Qed.
  Lemma calls_of_ops l : omap sop_call (sops l) = prover_calls P l.
  Proof.
    induction l as [|k l IH]; [done|]. unfold prover_calls, calls_to, signing_ops in *. cbn [omap list_omap].
    case_bool_decide; [destruct (sb_body (k_sub k)); cbn; by rewrite IH|].
    destruct (_ && _); [|done]. destruct (multisig_op _ _ _); done.
  Qed.

  (** An entry of the prover's trace is a call of the history. *)
  Lemma full_prefix l rest : H = l ++ rest -> (slog (sops l)).*1 = sops l.
  Proof.
    intros Hh. assert (E : sops H = sops l ++ sops rest) by (rewrite Hh; apply omap_app).
    apply (log_prefix (signing_step keccak wshash sec1 crypto c P) (signing_init g r n) (sops l) (sops rest)).
    rewrite <- E. apply pair_run.
  Qed.
  Lemma prover_call l rest l1 op out l2 : H = l ++ rest -> prover_trace (slog (sops l)) = l1 ++ (op, out) :: l2 ->
    exists p1 k p2 ms, l = p1 ++ k :: p2 /\ H = p1 ++ k :: p2 ++ rest /\ k_to k = P /\ sb_body (k_sub k) = BProver (po_call op) /\
      k_chain k !! pc_multisig c = Some (CMultisig ms) /\
      po_env op = with_keys (prover_env keccak (k_env k) (k_index k) (k_chain k)) ms /\
      l1 = prover_trace (slog (sops p1)) /\ (fun e => po_call e.1) <$> l2 = prover_calls P p2.
  Proof.
    intros Hrest (s1 & [sop so] & s2 & Hl & Hs1 & Ho & Hs2)%omap_split. cbn [snd] in Ho.
    pose proof Hl as Hl'. apply log_split in Hl' as (o1 & o2 & s' & Hops & Hl1 & Hst & _).
    pose proof Hops as Hops'. apply omap_split in Hops' as (p1 & k & p2 & Hh & Hp1 & Hf & Hp2).
    destruct sop as [pc env|mo]; cycle 1.
    { cbn [signing_step] in Hst. apply rbind_ok in Hst as ([ms o] & _ & [= _ <-]). discriminate Ho. }
    case_bool_decide as Hto; cycle 1.
    { destruct (_ && _); [|discriminate Hf]. by destruct (multisig_op _ _ _). }
    destruct (sb_body (k_sub k)) eqn:Eb; try discriminate Hf. injection Hf as -> <-.
    assert (HH : H = p1 ++ k :: p2 ++ rest) by (by rewrite Hrest, Hh, <- app_assoc).
    pose proof (pair_at _ _ _ HH (not_self _ _ _ HH Hto)) as [_ Hms]. fold (sops p1) in Hp1.
    exists p1, k, p2, (sy_multisig (srun (sops p1))).
    assert (Hop : op = {| po_call := pc; po_env := po_env op; po_multisig := po_multisig op |} /\
       po_env op = with_keys (prover_env keccak (k_env k) (k_index k) (k_chain k)) (sy_multisig (srun (sops p1)))).
    { rewrite Hp1. cbn [signing_step] in Hst. apply rbind_ok in Hst as ([p3 m] & _ & ([ms o] & _ & Hst)%rbind_ok).
      destruct m; [apply rbind_ok in Hst as ([p4 ev] & _ & [= _ <-])|injection Hst as _ <-]; cbn [so_prover] in Ho; injection Ho as <- _; done. }
    destruct Hop as [Hop1 Hop2]. split; [done|]. split; [done|]. split; [done|]. split; [by rewrite Hop1|]. split; [done|]. split; [done|]. split.
    - rewrite Hp1. unfold SigningSpec.slog. by rewrite Hl1.
    - pose proof (trace_calls _ (full_prefix _ _ Hrest)) as HA. rewrite (calls_of_ops l) in HA.
      pose proof (trace_calls _ (full_prefix _ _ HH)) as HB. rewrite (calls_of_ops p1) in HB.
      rewrite Hh in HA at 2. unfold prover_calls, calls_to in HA, HB. rewrite omap_app in HA. cbn [omap list_omap] in HA.
      rewrite bool_decide_true in HA by done. rewrite Eb in HA. rewrite <- HB in HA.
      unfold prover_trace in HA at 1. rewrite Hl, omap_app in HA. cbn [omap list_omap snd] in HA. rewrite Ho, Hs2 in HA.
      rewrite fmap_app, fmap_cons in HA. apply app_inj_1 in HA as [_ HA]; [by injection HA|].
      rewrite Hp1. unfold SigningSpec.slog, prover_trace. by rewrite Hl1.
  Qed.

  Lemma active_env e nn st ms ws : st !! pc_multisig c = Some (CMultisig ms) ->
    is_active_set c (with_keys (prover_env keccak e nn st) ms) ws -> is_active_set c (prover_env keccak e nn st) ws.
  Proof.
    intros Hm (workers & H1 & H2 & H3 & H4 & H5 & H6 & H7). exists workers. split_and!; try done.
    intros a sg Ha. destruct (H5 a sg Ha) as (E1 & E2 & E3). split_and!; try done. cbn. unfold q_key. rewrite Hm. unfold ask.
    cbn in E3. exact E3.
  Qed.

  (** ** C83 *)
  Lemma build_parts ws ms b : build_batch keccak wshash sec1 (pc_chain_id c) (pc_encoder c) ws ms = Ok b ->
    b_ids b = m_cc <$> ms /\ d_chain (b_data b) = pc_chain_id c /\
    exists ts cs, d_commands (b_data b) = ts ++ cs /\ Forall2 (fun m x => make_command keccak (pc_encoder c) m = Ok x) ms cs /\
      match ws with None => ts = [] | Some w => exists t, ts = [t] /\ make_transfer keccak wshash sec1 (pc_encoder c) w = Ok t end.
  Proof.
    unfold build_batch. intros (ts & Hts & (cs & Hcs%try_map_ok & [= <-])%rbind_ok)%rbind_ok. cbn.
    split; [done|]. split; [done|]. exists ts, cs. split; [done|]. split; [done|].
    destruct ws as [w|]; [|by injection Hts as <-]. apply rbind_ok in Hts as (t & Ht & [= <-]). eauto.
  Qed.

  Lemma c83 s id resp gc rc :
    dep !! pc_gateway c = Some (DGateway gc) -> dep !! gc_router gc = Some (DRouter rc) ->
    pair_state (sysrun dep txs) P c s -> system_proof keccak sec1 recover c s id = Ok resp ->
    exists pre k post msgs ts cs, H = pre ++ k :: post /\ k_to k = P /\
      (sb_body (k_sub k) = BProver (ConstructProof (m_cc <$> msgs)) \/
       sb_body (k_sub k) = BProver UpdateWorkerSet /\ msgs = []) /\
      pr_ids resp = m_cc <$> msgs /\ d_chain (pr_data resp) = pc_chain_id c /\ d_commands (pr_data resp) = ts ++ cs /\
      (ts = [] \/ exists t ws, ts = [t] /\ make_transfer keccak wshash sec1 (pc_encoder c) ws = Ok t /\
         is_active_set c (prover_env keccak (k_env k) (k_index k) (k_chain k)) ws) /\
      Forall2 (fun m x => make_command keccak (pc_encoder c) m = Ok x) msgs cs /\
      Forall (fun m => m_dchain m = pc_chain c /\ arrived keccak dep (gc_router gc) rc (pc_gateway c) pre m) msgs.
  Proof.
    intros Hgc Hrc [Hs1 Hs2] Hpf. destruct pair_run as [[E1 E2] _].
    assert (Es : s = srun (sops H)).
    { rewrite Hs1 in E1. rewrite Hs2 in E2. destruct s as [sp sm]. destruct (srun (sops H)). cbn in *. injection E1 as ->. by injection E2 as ->. }
    subst s. clear Hs1 Hs2 E1 E2.
    destruct (sinv_run keccak wshash sec1 crypto c P g r n (sops H)) as [_ _ Hrun Hlog _ _].
    unfold system_proof, get_proof in Hpf. apply rbind_ok in Hpf as (bid & Hb & Hpf). apply of_option_ok in Hb.
    apply rbind_ok in Hpf as (b & Hbb & Hpf). apply of_option_ok in Hbb.
    case_bool_decide as He; [|done]. cbn [negb] in Hpf.
    apply rbind_ok in Hpf as (m & _ & (st & _ & [= <-])%rbind_ok). cbn [pr_ids pr_data].
    rewrite Hrun in Hbb. apply batches_built in Hbb as (l1 & op & out & l2 & Hl & Hbu & _ & _).
    rewrite Hlog in Hl.
    destruct (prover_call H [] _ _ _ _ (eq_sym (app_nil_r _)) Hl) as (p1 & k & p2 & ms & Hh & _ & Hto & Hbody & Hms & Henv & _ & _).
    destruct Hbu as (cur & next & ws & new & msgs & _ & Hact & Hbuild & Hnew & Hcall).
    apply build_parts in Hbuild as (-> & -> & ts & cs & -> & Hcs & Hts).
    rewrite Henv in Hact. apply active_env in Hact; [|done].
    assert (Hts' : ts = [] \/ exists t ws, ts = [t] /\ make_transfer keccak wshash sec1 (pc_encoder c) ws = Ok t /\
         is_active_set c (prover_env keccak (k_env k) (k_index k) (k_chain k)) ws).
    { destruct Hnew as [[-> _]|[-> _]]; [right|by left]. destruct Hts as (t & -> & Ht). eauto. }
    exists p1, k, p2, msgs, ts, cs. split; [done|]. split; [done|].
    destruct (po_call op) as [ids| |]; [|by destruct Hcall as [-> _]; eauto 10|done].
    destruct Hcall as (Hmsgs & Hlen & Hdst & _). rewrite Henv in Hmsgs. cbn in Hmsgs. unfold q_messages in Hmsgs.
    pose proof (shape_at keccak wshash sec1 crypto dep txs _ _ _ (pc_gateway c) Hh) as Hgs. rewrite Hgc in Hgs. cbn [shape] in Hgs.
    rewrite Hgs in Hmsgs. unfold ask in Hmsgs. destruct (GatewayModel.get_messages _ _) as [x| |] eqn:Eg; try discriminate Hmsgs. injection Hmsgs as ->.
    unfold GatewayModel.get_messages in Eg. apply try_map_ok in Eg.
    assert (Hall : Forall2 (fun i m => i = m_cc m /\ arrived keccak dep (gc_router gc) rc (pc_gateway c) p1 m) ids msgs).
    { eapply Forall2_impl; [exact Eg|]. intros i m0 Hi. cbn beta in Hi. apply of_option_ok in Hi.
      pose proof (prefix_at keccak wshash sec1 crypto dep txs _ _ _ Hh) as Hpre.
      edestruct (c61 keccak wshash sec1 crypto dep txs p1 (k_chain k) (pc_gateway c)) as [Hid Har]; [exact Hpre|exact Hgs|exact Hi|rewrite gw_config_run; exact Hrc|].
      rewrite gw_config_run in Har. done. }
    assert (Hids : ids = m_cc <$> msgs).
    { clear -Hall. induction Hall as [|i m0 ids msgs [-> _] _ IH]; [done|]. cbn. by rewrite IH. }
    split; [left; by rewrite Hbody, Hids|]. split_and!; try done.
    apply Forall_and. split; [done|]. clear -Hall. induction Hall as [|? ? ? ? [_ ?]]; by constructor.
  Qed.

  (** ** C84 *)
  Lemma sets_none_nil l next : sets_after keccak wshash sec1 c l None next -> l = [] /\ next = None.
  Proof. intros Ha. inversion Ha. done. Qed.
  Lemma sets_origin l cur next : sets_after keccak wshash sec1 c l cur next -> forall ws, cur = Some ws ->
    exists l1 op out l2, l = l1 ++ (op, out) :: l2 /\ Forall (fun e => po_call e.1 <> ConfirmWorkerSet) l2 /\
      ((l1 = [] /\ po_call op = UpdateWorkerSet /\ is_active_set c (po_env op) ws) \/
       (exists o, po_call op = ConfirmWorkerSet /\ px_msg out = MsgRegister (pc_multisig c) ws /\
          make_operators keccak sec1 (pc_encoder c) ws = Ok o /\ pe_verified (po_env op) (pc_verifier c) o = Some true)).
  Proof.
    induction 1 as [|l op out next ws H IH Hc Ha Hm|l op out cur next ws H IH Hc Ha Hd Had
      |l op out cur next ids H IH Hc Hk|l op out cur ws o H IH Hc Ho Hv Hm]; intros w Hw; [done|..].
    - injection Hw as <-. apply sets_none_nil in H as [-> _]. exists [], op, out, []. split; [done|]. split; [done|]. by left.
    - destruct (IH _ Hw) as (l1 & o1 & x1 & l2 & -> & Hf & Hx). exists l1, o1, x1, (l2 ++ [(op, out)]).
      split; [by rewrite <- app_assoc|]. split; [|done]. apply Forall_app. split; [done|]. constructor; [|done]. cbn. by intros E; rewrite E in Hc.
    - destruct (IH _ Hw) as (l1 & o1 & x1 & l2 & -> & Hf & Hx). exists l1, o1, x1, (l2 ++ [(op, out)]).
      split; [by rewrite <- app_assoc|]. split; [|done]. apply Forall_app. split; [done|]. constructor; [|done]. cbn. by rewrite Hc.
    - injection Hw as <-. exists l, op, out, []. split; [done|]. split; [done|]. right. eauto 10.
  Qed.

  Lemma c84 s ws :
    pair_state (sysrun dep txs) P c s -> query_worker_set (sy_prover s) = Ok ws ->
    exists pre k post, H = pre ++ k :: post /\ k_to k = P /\ ConfirmWorkerSet ∉ prover_calls P post /\
      ((sb_body (k_sub k) = BProver UpdateWorkerSet /\ prover_calls P pre = [] /\
        is_active_set c (prover_env keccak (k_env k) (k_index k) (k_chain k)) ws) \/
       (sb_body (k_sub k) = BProver ConfirmWorkerSet /\
        (exists la k0 lb, pre = la ++ k0 :: lb /\ k_to k0 = P /\ ConfirmWorkerSet ∉ prover_calls P lb /\
           is_active_set c (prover_env keccak (k_env k0) (k_index k0) (k_chain k0)) ws) /\
        exists o, make_operators keccak sec1 (pc_encoder c) ws = Ok o /\
          forall vc, dep !! pc_verifier c = Some (DVerifier vc) -> valid_vconfig vc ->
            operators_quorum keccak (pc_verifier c) vc pre o)).
  Proof.
    intros [Hs1 Hs2] Hq. destruct pair_run as [[E1 E2] _].
    rewrite E1 in Hs1. injection Hs1 as Hs1. rewrite <- Hs1 in Hq. clear Hs1 Hs2 E1 E2 s.
    destruct (sinv_run keccak wshash sec1 crypto c P g r n (sops H)) as [_ _ Hrun Hlog _ _].
    rewrite Hrun in Hq. unfold query_worker_set in Hq. apply of_option_ok in Hq.
    pose proof (c46_history keccak wshash sec1 c (prover_trace (slog (sops H))).*1) as Ha. rewrite Hlog in Ha.
    destruct (sets_origin _ _ _ Ha _ Hq) as (l1 & op & out & l2 & Hl & Hf & Hx).
    destruct (prover_call H [] _ _ _ _ (eq_sym (app_nil_r _)) Hl) as (p1 & k & p2 & ms & Hh & _ & Hto & Hbody & Hms & Henv & Hl1 & Hl2).
    exists p1, k, p2. split; [done|]. split; [done|]. split.
    { rewrite <- Hl2. intros (e & He1 & He2)%elem_of_list_fmap. rewrite Forall_forall in Hf. by destruct (Hf _ He2). }
    destruct Hx as [(-> & Hc & Hact)|(o & Hc & Hmsg & Ho & Hv)].
    - left. split; [by rewrite Hbody, Hc|]. split; [|rewrite Henv in Hact; by apply active_env in Hact].
      pose proof (full_prefix _ _ Hh) as Hpre.
      rewrite <- calls_of_ops, <- trace_calls by done. by rewrite <- Hl1.
    - right. split; [by rewrite Hbody, Hc|]. split.
      + rewrite <- Hlog in Hl. destruct (c46_proposed _ _ _ _ _ _ _ _ _ Hl Hc) as (ws' & la & e & lb & Hmsg' & Hla & Hp & Hfl).
        rewrite Hmsg in Hmsg'. injection Hmsg' as <-. rewrite Hlog in Hl.
        destruct e as [op0 out0]. rewrite Hl1 in Hla.
        destruct (prover_call _ _ _ _ _ _ Hh Hla) as (q1 & k0 & q2 & ms0 & Hh0 & _ & Hto0 & Hbody0 & Hms0 & Henv0 & Hl10 & Hl20).
        destruct Hp as (cur & next & b & idd & t & rest & _ & Hact & _). cbn [fst] in Hact. rewrite Henv0 in Hact. apply active_env in Hact; [|done].
        exists q1, k0, q2. split; [done|]. split; [done|]. split; [|done].
        rewrite <- Hl20. intros (e & He1 & He2)%elem_of_list_fmap. rewrite Forall_forall in Hfl. by destruct (Hfl _ He2).
      + exists o. split; [done|]. intros vc Hvc Hval. rewrite Henv in Hv. cbn in Hv. unfold q_set_verified in Hv.
        pose proof (shape_at keccak wshash sec1 crypto dep txs _ _ _ (pc_verifier c) Hh) as Hsh. rewrite Hvc in Hsh. cbn [shape] in Hsh.
        rewrite Hsh in Hv. unfold ask in Hv.
        destruct (is_worker_set_verified _ _ _) as [x| |] eqn:Ei; try discriminate Hv. injection Hv as ->.
        unfold is_worker_set_verified in Ei. apply rbind_ok in Ei as (st & Hst & Ei). injection Ei as Ei%bool_decide_eq_true. subst st.
        eapply operators_quorum_at; [by eapply prefix_at|exact Hvc|done|exact Hsh|exact Hst].
  Qed.

  (** ** C85 *)
  Notation hashes_apart := (hashes_apart wshash (pc_multisig c) H).
  Lemma apart_distinct : hashes_apart -> distinct_sets wshash (slog (sops H)).
  Proof.
    intros Ha a ws a' ws' H1 H2 E. rewrite pair_multisig in H1, H2.
    apply ops_elem in H1 as (k & Hk & Ht & Ho). apply ops_elem in H2 as (k' & Hk' & Ht' & Ho').
    destruct (sb_body (k_sub k)) eqn:Eb; try discriminate Ho. cbn in Ho. injection Ho as _ ->.
    destruct (sb_body (k_sub k')) eqn:Eb'; try discriminate Ho'. cbn in Ho'. injection Ho' as _ ->.
    by eapply (Ha k k').
  Qed.

  Lemma submission_call id cur digest x : hashes_apart ->
    member_signed crypto (multisig_trace (slog (sops H))) id cur digest x ->
    exists k, k ∈ H /\ k_to k = pc_multisig c /\ k_sender k = sg_addr x.1 /\ sb_body (k_sub k) = BSubmitSignature id (sig_bytes x.2).
  Proof.
    intros Ha (_ & Hs & _).
    destruct (sinv_run keccak wshash sec1 crypto c P g r n (sops H)) as [_ Hmlog _ _ _ _].
    pose proof Hs as Hs'. unfold submitted in Hs. apply elem_of_list_to_map_2 in Hs.
    unfold submissions in Hs. apply elem_of_list_omap in Hs as ([op out] & Hin & Ho).
    destruct op as [|h a i bytes| | |]; try discriminate Ho. destruct out as [|? ? ? sg ?| | |]; try discriminate Ho.
    destruct (N.eqb_spec i id) as [->|]; [|discriminate Ho]. injection Ho as -> ->.
    assert (Hop : SubmitSignature h (sg_addr x.1) id bytes ∈ multisig_ops (pc_multisig c) H).
    { rewrite <- pair_multisig. by apply (elem_of_list_fmap_1 fst) in Hin. }
    apply ops_elem in Hop as (k & Hk & Ht & Ho). destruct (sb_body (k_sub k)) eqn:Eb; try discriminate Ho. cbn in Ho. injection Ho as _ Ha1 -> ->.
    exists k. split; [done|]. split; [done|]. split; [done|]. rewrite Eb. f_equal.
    rewrite <- Hmlog in Hin, Hs'. apply apart_distinct, sets_distinct in Ha. 
    destruct (c24_valid _ _ _ _ _ _ _ _ _ _ _ Ha Hin) as (? & ? & ? & sig & ? & _ & _ & Hb & _ & Hsub & _).
    rewrite Hs' in Hsub. by injection Hsub as <-.
  Qed.

  Lemma c85 s id resp d :
    (forall x, String.length (keccak x) = 32%nat) -> (forall w, String.length (wshash w) = 32%nat) ->
    pc_chain_id c < U256 -> hashes_apart ->
    pair_state (sysrun dep txs) P c s -> system_proof keccak sec1 recover c s id = Ok resp -> pr_status resp = PfCompleted d ->
    exists pre k post s0 cur b0 digest l1 e l2 sel,
      H = pre ++ k :: post /\ k_to k = P /\ k_chain k !! P = Some (CProver c s0) /\ query_worker_set s0 = Ok cur /\
      prover_trace (slog (sops H)) = l1 ++ e :: l2 /\ l1 = prover_trace (slog (sops pre)) /\
      sb_body (k_sub k) = BProver (po_call e.1) /\ asks_to_sign keccak wshash c e.2 cur b0 id /\
      msg_digest keccak b0 = Ok digest /\
      (not_rebuilt keccak wshash sec1 c (l1 ++ [e]) l2 (b_id b0) -> pr_data resp = b_data b0 /\ pr_ids resp = b_ids b0 /\
         (set_ok cur -> fits (pc_encoder c) d -> proof_shows keccak sec1 recover b0 (ws_threshold cur) sel d)) /\
      Forall (fun x => ws_signers cur !! sg_addr x.1 = Some x.1 /\ good_signature crypto x.2 digest (sg_key x.1) /\
        exists k', k' ∈ H /\ k_to k' = pc_multisig c /\ k_sender k' = sg_addr x.1 /\
          sb_body (k_sub k') = BSubmitSignature id (sig_bytes x.2)) (signed sel) /\
      NoDup (sg_addr ∘ fst <$> signed sel) /\ ws_threshold cur <= weight_of (signed sel).
  Proof.
    intros Hk Hw Hc Ha [Hs1 Hs2] Hpf Hst. destruct pair_run as [[E1 E2] _].
    assert (Es : s = srun (sops H)).
    { rewrite Hs1 in E1. rewrite Hs2 in E2. destruct s as [sp sm]. destruct (srun (sops H)). cbn in *. injection E1 as ->. by injection E2 as ->. }
    subst s. clear Hs1 Hs2 E1 E2.
    destruct (c62_backed _ _ _ _ _ _ _ _ _ _ _ _ _ _ Hk Hw Hc (apart_distinct Ha) Hpf Hst)
      as (k1 & [op out] & k2 & cur & b0 & digest & b & sel & H1 & H2 & H3 & H4 & H5 & H6 & H7 & H8 & H9 & H10 & H11 & H12 & _ & H13 & H14).
    destruct (prover_call H [] _ _ _ _ (eq_sym (app_nil_r _)) H1) as (p1 & k & p2 & ms & Hh & _ & Hto & Hbody & Hms & Henv & Hl1 & _).
    destruct (pair_at _ _ _ Hh (not_self _ _ _ Hh Hto)) as [Hp1 _].
    destruct H2 as ((next & Hsets) & Hask & _).
    exists p1, k, p2, (sy_prover (srun (sops p1))), cur, b0, digest, k1, (op, out), k2, sel.
    split; [done|]. split; [done|]. split; [done|]. split.
    { destruct (sinv_run keccak wshash sec1 crypto c P g r n (sops p1)) as [_ _ Hrun Hlog _ _].
      pose proof (c46_history keccak wshash sec1 c (prover_trace (slog (sops p1))).*1) as Hc46. rewrite Hlog, <- Hrun, <- Hl1 in Hc46.
      destruct (sets_after_functional _ _ _ _ _ _ _ Hsets _ _ Hc46) as [E _]. unfold query_worker_set. by rewrite E. }
    split; [done|]. split; [done|]. split; [done|]. split; [done|]. split; [done|]. split.
    { intros Hn. rewrite <- (H6 Hn). split; [done|]. split; [done|]. rewrite <- H7. done. }
    split; [|split; [|done]].
    - rewrite Forall_forall in H10 |- *. intros x Hx. specialize (H10 x Hx). destruct H10 as (M1 & M2 & M3).
      split; [done|]. split; [done|]. by eapply submission_call.
    - apply NoDup_fmap_2_strong; [|done]. rewrite Forall_forall in H10. intros [x1 x2] [y1 y2] Hx Hy E. cbn in E.
      destruct (H10 _ Hx) as (X1 & X2 & _), (H10 _ Hy) as (Y1 & Y2 & _). cbn in *. rewrite E in X1, X2. congruence.
  Qed.
End Proofs.
