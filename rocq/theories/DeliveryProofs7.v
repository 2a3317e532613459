(** C94: the sessions a prover starts, from the calls made. *)
From stdpp Require Import sorting.
From Verif Require Import Base BaseLemmas MapLemmas Text TextLemmas StdModel StdSpec StdProofs RouterTypes RegistryTypes RegistryProofs OperatorsModel MultisigTypes
  RouterModel GatewayModel GatewaySpec GatewayProofs NexusModel RewardsModel RewardsSpec RewardsProofs RewardsProofs4 RegistryModel VerifierModel VerifierSpec VerifierProofs VerifierProofs5
  MultisigModel MultisigSpec MultisigProofs MultisigProofs2 MultisigProofs3 EncodingModel EncodingSpec ProverModel ProverSpec ProverProofs ProverProofs2 ProverProofs3 ProverProofs4 ProverProofs6
  SigningModel SigningSpec SigningProofs SigningProofs2
  SystemModel SystemSpec SystemProofs SystemProofs2 SystemProofs3 SystemProofs4 SystemProofs5 SystemProofs6 SystemProofs9
  DaemonProofs4 DeliverySpec DeliveryProofs DeliveryProofs3 DeliveryProofs4 DeliveryProofs5.

Section Begun.
  Context (keccak : string -> string) (wshash : worker_set -> string)
          (sec1 : string -> option string) (recover : string -> string -> string -> option N)
          (crypto : key_type -> string -> string -> string -> option bool).
  Notation sstep := (system_step keccak wshash sec1 crypto).
  Notation sysrun := (sysrun keccak wshash sec1 crypto).
  Notation history := (history keccak wshash sec1 crypto).
  Context (dep : gmap addr deployed) (txs : list tx) (P : addr) (c : pconfig) (g r : addr) (n : N).
  Context (HP : dep !! P = Some (DProver c)) (HM : dep !! pc_multisig c = Some (DMultisig g r n)).
  Notation sops := (signing_ops keccak P c).
  Notation srun := (srun keccak wshash sec1 crypto c P g r n).
  Notation slog := (slog keccak wshash sec1 crypto c P g r n).
  Notation H := (history dep txs).
  Notation st := (sysrun dep txs).
  Notation wsid := (worker_set_id wshash).
  Notation mrun := (mrun wsid crypto g r n).
  Notation mlog := (mlog wsid crypto g r n).
  Notation M := (pc_multisig c).
  Notation begun := (session_begun keccak wshash sec1 P c).

  (** The multisig's counter is the number of sessions started. *)
  Lemma started_count l : (mlog (multisig_ops M l)).*1 = multisig_ops M l ->
    length (started_ids (mlog (multisig_ops M l))) = length (sessions_started M l).
  Proof.
    intros Hall.
    assert (E : forall lg, Forall (fun x : mop * mout => match x.1 with StartSession _ _ _ _ => exists a b c d e, x.2 = OutStarted a b c d e
                                              | _ => forall a b c d e, x.2 <> OutStarted a b c d e end) lg ->
      length (started_ids lg) = length (omap (fun op => match op with StartSession a _ _ _ => Some a | _ => None end) lg.*1)).
    { induction 1 as [|[op out] lg Hx _ IH]; [done|]. unfold started_ids in *. cbn [fst snd] in Hx.
      cbn [omap list_omap fmap list_fmap fst snd]. destruct op; cbn iota in Hx.
      2-5: destruct out; try exact IH; exfalso; by eapply Hx.
      destruct Hx as (? & ? & ? & ? & ? & ->). cbn [length]. by rewrite IH. }
    rewrite E.
    - rewrite Hall. unfold multisig_ops, calls_to, sessions_started. clear. induction l as [|k l IH]; [done|].
      cbn [omap list_omap]. destruct (bool_decide (k_to k = M)); [|exact IH].
      destruct (sb_body (k_sub k)); cbn [multisig_op]; try exact IH; cbn [omap list_omap]; try exact IH. cbn [length]. by rewrite IH.
    - apply Forall_forall. intros [op out] Hin. cbn [fst snd].
      unfold MultisigSpec.mlog in Hin. apply log_elem in Hin as (o1 & o2 & s' & _ & Hs). destruct op as [|h a j b|a ws|a t b|a auth ca]; cbn [multisig_step] in Hs.
      + apply start_ok in Hs as (ws & _ & _ & _ & _ & _ & ->). eauto 6.
      + apply submit_ok in Hs as (ss & ws & sg & sig & _ & _ & _ & _ & _ & _ & _ & _ & _ & _ & ->). done.
      + by injection Hs as _ <-.
      + apply register_key_ok in Hs as (_ & _ & ->). done.
      + unfold set_caller in Hs. res_inv. subst. done.
  Qed.
  Lemma counter_of l : (mlog (multisig_ops M l)).*1 = multisig_ops M l ->
    m_counter (mrun (multisig_ops M l)) = N.of_nat (length (sessions_started M l)).
  Proof.
    intros Hall. rewrite <- started_count by done.
    destruct (inv1_run wsid crypto g r n (multisig_ops M l)) as (_ & _ & _ & E & _). exact E.
  Qed.

  Lemma begun_start id cur dg : begun H id cur dg ->
    exists k1 e k2 b, prover_trace (slog (sops H)) = k1 ++ e :: k2 /\ session_start keccak wshash sec1 c k1 e id cur b /\
      msg_digest keccak b = Ok dg.
  Proof.
    intros (l1 & k & l2 & ps & ps' & pc & to & w & ch & Hl & Hto & Hb & Hps & Hq & Hex & ->).
    pose proof (not_self keccak wshash sec1 crypto dep txs P c g r n HP HM _ _ _ Hl Hto) as Hns.
    pose proof (pair_at keccak wshash sec1 crypto dep txs P c g r n HP HM _ _ _ Hl Hns) as [Hp1 Hp2].
    rewrite Hps in Hp1. injection Hp1 as ->.
    assert (Hc : sy_multisig (srun (sops l1)) = mrun (multisig_ops M l1) /\ (mlog (multisig_ops M l1)).*1 = multisig_ops M l1).
    { pose proof (c80_during keccak wshash sec1 crypto dep txs l1 k l2 M Hl) as H1. rewrite HM in H1. cbn [as_alone] in H1.
      destruct H1 as [H1 L1]. rewrite Hp2 in H1. injection H1 as ->. done. }
    destruct Hc as [Hc Hall].
    assert (Eo : sops H = sops l1 ++ SProve pc (prover_env keccak (k_env k) (k_index k) (k_chain k)) :: sops l2).
    { rewrite Hl. unfold signing_ops. rewrite omap_app. f_equal. cbn [omap list_omap]. rewrite bool_decide_true by done. by rewrite Hb. }
    pose proof (proj2 (pair_run keccak wshash sec1 crypto dep txs P c g r n HP HM)) as Hfull.
    pose proof (full_prefix keccak wshash sec1 recover crypto dep txs P c g r n HP HM l1 (k :: l2) Hl) as Hpre.
    assert (Es : slog (sops H) = slog (sops l1) ++ log (signing_step keccak wshash sec1 crypto c P) (srun (sops l1))
       (SProve pc (prover_env keccak (k_env k) (k_index k) (k_chain k)) :: sops l2)).
    { rewrite Eo. unfold SigningSpec.slog. by rewrite log_app. }
    rewrite Es, fmap_app, Hpre, Eo in Hfull. apply app_inv_head in Hfull.
    set (op := SProve pc (prover_env keccak (k_env k) (k_index k) (k_chain k))) in *.
    assert (Hstep : exists s' out, signing_step keccak wshash sec1 crypto c P (srun (sops l1)) op = Ok (s', out)).
    { destruct (signing_step keccak wshash sec1 crypto c P (srun (sops l1)) op) as [[s' out]| |] eqn:E; [eauto| |].
      all: exfalso; cbn [log] in Hfull; unfold log1, exec in Hfull; rewrite E in Hfull; cbn [app] in Hfull;
        pose proof (f_equal length Hfull) as HL; rewrite fmap_length in HL; cbn [length] in HL;
        match type of HL with length (log ?f ?s ?o) = _ => pose proof (sublist_length _ _ (log_sublist f s o)) as HL2 end; rewrite fmap_length in HL2; lia. }
    destruct Hstep as (s' & out & Hstep).
    assert (Eout : exists po mm, so_prover out = Some (po, mm) /\ px_msg mm = MsgStart to w dg ch /\
       exists bid, px_event mm = Some (bid, N.of_nat (length (sessions_started M l1)) + 1)).
    { pose proof Hstep as Hs. unfold op in Hs. cbn [signing_step] in Hs.
      assert (Hex' : prover_execute keccak wshash sec1 c (with_keys (prover_env keccak (k_env k) (k_index k) (k_chain k)) (sy_multisig (srun (sops l1))))
        (sy_prover (srun (sops l1))) pc = Ok (ps', MsgStart to w dg ch)).
      { rewrite <- Hex. symmetry. apply execute_env; try done. intros w' t. cbn. unfold q_key. rewrite Hp2. done. }
      rewrite Hex' in Hs. cbn [map_err rbind message_op] in Hs. apply rbind_ok in Hs as ([ms o] & Hm%map_err_ok & Hs).
      cbn [multisig_step] in Hm. apply start_ok in Hm as (ws & _ & _ & _ & _ & _ & ->).
      apply rbind_ok in Hs as ([p2 ev] & Hr%map_err_ok & [= _ <-]). cbn [so_prover].
      eexists _, _. split; [done|]. split; [done|]. cbn [px_event]. cbn [response_data] in Hr. unfold prover_reply in Hr.
      destruct (pv_reply ps') as [bid|]; [|discriminate Hr]. cbn in Hr. injection Hr as _ <-. exists bid.
      rewrite Hc, (counter_of _ Hall). done. }
    destruct Eout as (po & mm & Eo1 & Em & bid & Eev).
    assert (Etr : exists k2, prover_trace (slog (sops H)) = prover_trace (slog (sops l1)) ++ (po, mm) :: k2).
    { eexists. rewrite Es. unfold prover_trace. rewrite omap_app. f_equal. cbn [log]. unfold log1, exec. rewrite Hstep. cbn [app omap list_omap snd].
      rewrite Eo1. reflexivity. }
    destruct Etr as [k2 Etr].
    destruct (sinv_run keccak wshash sec1 crypto c P g r n (sops H)) as [_ _ _ _ _ H6].
    destruct (H6 _ _ _ _ _ Etr Eev) as (cur' & b & _ & Hss & digest & Hdg & _).
    exists (prover_trace (slog (sops l1))), (po, mm), k2, b. split; [done|].
    destruct (sinv_run keccak wshash sec1 crypto c P g r n (sops l1)) as [_ _ Q3 Q4 _ _].
    pose proof (pinv_run keccak wshash sec1 c (prover_trace (slog (sops l1))).*1) as Hi. rewrite Q4, <- Q3 in Hi.
    pose proof Hss as ((next & Hsets) & (dg' & Hd1 & Hd2 & Hd3) & _). cbn [snd] in Hd2. rewrite Em in Hd2.
    destruct (sets_after_functional _ _ _ _ _ _ _ (pi_sets _ _ _ _ _ _ Hi) _ _ Hsets) as [Hcur _].
    unfold query_worker_set in Hq. rewrite <- Hcur in Hq. cbn in Hq. injection Hq as ->. split; [done|]. congruence.
  Qed.

  Lemma begun_pending id cur dg s : hashes_apart wshash M H -> begun H id cur dg -> pair_state st P c s ->
    ~ reached cur (submitters M H id) ->
    exists resp, system_proof keccak sec1 recover c s id = Ok resp /\ pr_status resp = PfPending.
  Proof.
    intros Ha (k1 & e & k2 & b & H1 & H2 & _)%begun_start Hp Hn. eapply (c94_pending keccak wshash sec1 recover crypto dep txs P c g r n HP HM); eauto.
  Qed.
  Lemma begun_abi id cur dg s :
    (forall x, String.length (keccak x) = 32%nat) -> pc_encoder c = Abi ->
    hashes_apart wshash M H -> begun H id cur dg -> lsum sg_weight (members cur) < U256 -> pair_state st P c s ->
    (exists resp d, system_proof keccak sec1 recover c s id = Ok resp /\ pr_status resp = PfCompleted d) <->
    reached cur (submitters M H id) /\ Forall (fun sg => is_Some (sec1 (pk_bytes (sg_key sg)))) (members cur).
  Proof.
    intros Hk He Ha (k1 & e & k2 & b & H1 & H2 & _)%begun_start Hw Hp. eapply (c94_abi keccak wshash sec1 recover crypto dep txs P c g r n HP HM); eauto.
  Qed.
  Lemma begun_bcs id cur dg s :
    pc_encoder c = Bcs ->
    hashes_apart wshash M H -> begun H id cur dg -> lsum sg_weight (members cur) < U256 -> ws_threshold cur < U128 ->
    Forall (fun sg => sg_weight sg < U128 /\ slen (pk_bytes (sg_key sg)) <= 65) (members cur) ->
    N.of_nat (length (members cur)) <= 2 ^ 20 -> pair_state st P c s ->
    (forall bt enc, pv_batches (sy_prover s) !! b_id bt = Some bt -> bcs_encode (b_data bt) = Ok enc -> slen enc <= BCS_MAX) ->
    reached cur (submitters M H id) ->
    exists resp d, system_proof keccak sec1 recover c s id = Ok resp /\ pr_status resp = PfCompleted d.
  Proof.
    intros He Ha (k1 & e & k2 & b & H1 & H2 & _)%begun_start. intros. eapply (c94_bcs keccak wshash sec1 recover crypto dep txs P c g r n HP HM); eauto.
  Qed.

  (** Which signatures a session takes. *)
  Lemma begun_signature g0 d0 p0 h0 gas e w id cur dg bytes : dep !! r = Some (DRewards g0 d0 p0 h0) -> dep !! w = None ->
    let t := {| tx_gas := S (S gas); tx_env := e; tx_sender := w; tx_sub := plain M (BSubmitSignature id bytes) |} in
    valid_rinit {| ri_gov := g0; ri_denom := d0; ri_params := p0; ri_height := h0 |} -> Forall valid_rop (rewards_ops r H) ->
    in_blocks_from h0 (txs ++ [t]) -> N.of_nat (length (rewards_ops r H)) + 1 < U64 ->
    hashes_apart wshash M H -> begun H id cur dg -> lsum sg_weight (members cur) < U256 ->
    exists ms mu, st !! M = Some (CMultisig ms) /\ get_multisig ms id = Ok mu /\
    (is_ok (sstep st t) = true <->
     (exists sg sig, ws_signers cur !! w = Some sg /\ signature_try_from (pk_type (sg_key sg)) bytes = Some sig /\
        good_signature crypto sig dg (sg_key sg)) /\
     w ∉ submitters M H id /\
     (forall c, mu_state mu = MCompleted c -> c + n < U64 /\ en_height e <= c + n)).
  Proof.
    intros HR Hw t Hi Hv Hb Hlen Ha (k1 & ev & k2 & b & H1 & H2 & Hd)%begun_start Htot.
    destruct (sinv_run keccak wshash sec1 crypto c P g r n (sops H)) as [_ Q2 _ _ _ H6].
    rewrite (pair_multisig keccak wshash sec1 crypto dep txs P c g r n HP HM) in Q2.
    pose proof H2 as ((next & Hsets) & (dg1 & Hd1 & Hd2 & Hd3) & _).
    destruct (H6 _ _ _ _ _ H1 Hd3) as (cur' & b' & _ & ((next' & Hsets') & (dg2 & Hd1' & Hd2' & _) & _) & digest & Hdg & Hsw).
    destruct (sets_after_functional _ _ _ _ _ _ _ Hsets _ _ Hsets') as [[= Ecur] _]. subst cur'.
    assert (digest = dg) as -> by congruence. rewrite <- Q2 in Hsw.
    destruct (c94_signature keccak wshash sec1 crypto dep txs r g0 d0 p0 h0 HR M g n HM gas e w id bytes dg cur Hw Hi Hv Hb Hlen Ha Hsw Htot)
      as (mu & Hmu & Hiff).
    eexists _, mu. split; [apply (a_multisig keccak wshash sec1 crypto dep txs r M g n HM)|]. split; [done|]. exact Hiff.
  Qed.

  Lemma history_snoc t st' l : sstep st t = Ok (st', l) -> history dep (txs ++ [t]) = H ++ l /\ sysrun dep (txs ++ [t]) = st'.
  Proof.
    intros Hs. unfold SystemSpec.history, syslog, SystemSpec.sysrun. rewrite log_app, bind_app, run_app. cbn [log run].
    unfold SystemSpec.sysrun in Hs. unfold log1, exec. rewrite Hs. cbn [app]. split; [|done]. f_equal. cbn [mbind list_bind snd]. by rewrite app_nil_r.
  Qed.
  Lemma next_number : next_session (mlog (multisig_ops M H)) = N.of_nat (length (sessions_started M H)) + 1.
  Proof. unfold next_session. rewrite started_count; [done|]. apply (all_accepted keccak wshash sec1 crypto dep txs r M g n HM). Qed.

  (** The session that a call starts. *)
  Lemma begun_session gas e a pc s s' to w dg ch : (forall x, String.length (keccak x) = 32%nat) -> dep !! a = None ->
    pair_state st P c s ->
    prover_execute keccak wshash sec1 c (prover_env keccak e 0 st) (sy_prover s) pc = Ok (s', MsgStart to w dg ch) ->
    may_start (mlog (multisig_ops M H)) P ->
    let t := {| tx_gas := S (S gas); tx_env := e; tx_sender := a; tx_sub := plain P (BProver pc) |} in
    let id := N.of_nat (length (sessions_started M H)) + 1 in
    exists st' l s'' cur b resp, sstep st t = Ok (st', l) /\ pair_state st' P c s'' /\
      msg_digest keccak b = Ok dg /\ query_worker_set (sy_prover s) = Ok cur /\ query_worker_set (sy_prover s'') = Ok cur /\
      begun (history dep (txs ++ [t])) id cur dg /\
      system_proof keccak sec1 recover c s'' id = Ok resp /\ pr_status resp = PfPending /\
      pr_data resp = b_data b /\ pr_ids resp = b_ids b /\
      (forall d, d <> P -> d <> M -> st' !! d = st !! d).
  Proof.
    intros Hk Ha Hp Hex Hms t id.
    destruct (pair_run keccak wshash sec1 crypto dep txs P c g r n HP HM) as [[E1 E2] _].
    assert (Es : s = srun (sops H)).
    { destruct Hp as [Hs1 Hs2]. rewrite Hs1 in E1. rewrite Hs2 in E2. destruct s as [sp sm]. destruct (srun (sops H)). cbn in *. injection E1 as ->. by injection E2 as ->. }
    subst s.
    destruct (c94_session keccak wshash sec1 recover crypto dep txs P c g r n HP HM gas e a pc s' to w dg ch Hk Ha Hex Hms)
      as (st' & l & s'' & b & resp & F1 & F2 & F3 & F4 & F5 & F6 & F7 & F8 & F9).
    destruct (start_facts keccak wshash sec1 c _ _ _ _ _ _ _ _ _ 0 (the_pinv keccak wshash sec1 crypto dep txs P c g r n) Hk Hex) as (b' & cur & _ & Hcur & _).
    assert (Hq : query_worker_set (sy_prover (srun (sops H))) = Ok cur) by (unfold query_worker_set; by rewrite Hcur).
    exists st', l, s'', cur, b, resp. rewrite next_number in F4.
    split; [exact F1|]. split; [done|]. split; [done|]. split; [done|]. split; [by apply F8|]. split; [|done].
    destruct (history_snoc _ _ _ F1) as [Hh _]. fold t in Hh. rewrite Hh.
    assert (Hl : exists l', l = {| k_chain := st; k_env := e; k_index := 0; k_sender := a; k_sub := plain P (BProver pc) |} :: l').
    { rewrite (prover_tx keccak wshash sec1 crypto dep txs P c g r n HP HM) in F1 by done. cbn zeta in F1. rewrite Hex in F1. cbn [map_err rbind] in F1.
      apply rbind_ok in F1 as ([ms o] & _ & F1). apply rbind_ok in F1 as ([ps x] & _ & [= _ <-]). eauto. }
    destruct Hl as [l' ->].
    eexists H, _, l', (sy_prover (srun (sops H))), s', pc, to, w, ch. split; [done|]. split; [done|]. split; [done|].
    split; [exact E1|]. split; [done|]. split; [exact Hex|done].
  Qed.
End Begun.

Section Pairs.
  Context (keccak : string -> string) (wshash : worker_set -> string)
          (sec1 : string -> option string) (recover : string -> string -> string -> option N)
          (crypto : key_type -> string -> string -> string -> option bool).
  Notation sstep := (system_step keccak wshash sec1 crypto).
  Notation sysrun := (sysrun keccak wshash sec1 crypto).
  Notation history := (history keccak wshash sec1 crypto).
  Context (dep : gmap addr deployed) (txs : list tx) (P : addr) (c : pconfig) (g r : addr) (n : N).
  Context (HP : dep !! P = Some (DProver c)) (HM : dep !! pc_multisig c = Some (DMultisig g r n)).
  Notation st := (sysrun dep txs).
  Notation H := (history dep txs).
  Notation wsid := (worker_set_id wshash).
  Notation call gas e a pc := {| tx_gas := S (S gas); tx_env := e; tx_sender := a; tx_sub := plain P (BProver pc) |}.

  Lemma pair_unique s : pair_state st P c s -> s = srun keccak wshash sec1 crypto c P g r n (signing_ops keccak P c H).
  Proof.
    intros [Hs1 Hs2]. destruct (pair_run keccak wshash sec1 crypto dep txs P c g r n HP HM) as [[E1 E2] _].
    rewrite Hs1 in E1. rewrite Hs2 in E2. destruct s as [sp sm]. destruct (srun _ _ _ _ _ _ _ _ _ _). cbn in *. injection E1 as ->. by injection E2 as ->.
  Qed.
  Lemma pair_call s gas e a pc : (forall x, String.length (keccak x) = 32%nat) -> dep !! a = None -> pair_state st P c s ->
    is_ok (sstep st (call gas e a pc)) = true <->
    exists s' m, prover_execute keccak wshash sec1 c (prover_env keccak e 0 st) (sy_prover s) pc = Ok (s', m) /\
      match m with MsgStart _ _ _ _ => may_start (mlog wsid crypto g r n (multisig_ops (pc_multisig c) H)) P | MsgRegister _ _ => True end.
  Proof. intros Hk Ha ->%pair_unique. by apply c94_call. Qed.
  Lemma pair_confirm s gas e a vc cur ws o : dep !! a = None ->
    dep !! pc_verifier c = Some (DVerifier vc) -> valid_vconfig vc -> pair_state st P c s ->
    sets_after keccak wshash sec1 c (prover_trace (slog keccak wshash sec1 crypto c P g r n (signing_ops keccak P c H))) cur (Some ws) ->
    make_operators keccak sec1 (pc_encoder c) ws = Ok o ->
    operators_vouched keccak (pc_verifier c) vc H o ->
    exists st' l s'', sstep st (call gas e a ConfirmWorkerSet) = Ok (st', l) /\ pair_state st' P c s'' /\
      query_worker_set (sy_prover s'') = Ok ws /\ get_worker_set (sy_multisig s'') (wsid ws) = Ok ws /\
      (forall w, w <> wsid ws -> get_worker_set (sy_multisig s'') w = get_worker_set (sy_multisig s) w) /\
      ((forall w, get_worker_set (sy_multisig s) (wsid ws) = Ok w -> w = ws) ->
       forall id resp, system_proof keccak sec1 recover c s id = Ok resp -> system_proof keccak sec1 recover c s'' id = Ok resp) /\
      (forall d, d <> P -> d <> pc_multisig c -> st' !! d = st !! d).
  Proof. intros Ha HV Hvc ->%pair_unique. by apply c93_confirm. Qed.
End Pairs.
