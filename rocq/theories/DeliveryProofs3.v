(** C93, C94: a prover's calls in the whole system succeed if the prover
    accepts them and the multisig lets it start sessions. *)
From stdpp Require Import sorting.
From Verif Require Import Base BaseLemmas Text StdModel StdSpec RouterTypes RegistryTypes RegistryProofs OperatorsModel MultisigTypes
  RouterModel GatewayModel GatewaySpec GatewayProofs NexusModel RewardsModel RegistryModel VerifierModel VerifierSpec
  MultisigModel MultisigSpec MultisigProofs MultisigProofs2 MultisigProofs3 EncodingModel EncodingSpec ProverModel ProverSpec ProverProofs ProverProofs2 ProverProofs3 ProverProofs4
  SigningModel SigningSpec SigningProofs SigningProofs2
  SystemModel SystemSpec SystemProofs SystemProofs2 SystemProofs3 SystemProofs4 SystemProofs5 SystemProofs6
  DaemonProofs4 DeliverySpec DeliveryProofs.

Section Sets.
  Context (wsid : worker_set -> string) (crypto : key_type -> string -> string -> string -> option bool) (g r : addr) (p : N).

  Lemma inv1_run ops : inv1 g r p (mrun wsid crypto g r p ops) (mlog wsid crypto g r p ops).
  Proof.
    unfold mrun, mlog. apply run_log_inv.
    - apply inv1_init.
    - intros. by eapply inv1_step.
  Qed.
  (** A set registered once stays, unless one with the same hash takes its place. *)
  Lemma registered_stays ops b ws : (RegisterWorkerSet b ws, OutNone) ∈ mlog wsid crypto g r p ops ->
    is_Some (m_sets (mrun wsid crypto g r p ops) !! wsid ws).
  Proof.
    revert b ws. unfold mrun, mlog.
    apply (run_log_inv (multisig_step wsid crypto) (fun s l => forall b ws, (RegisterWorkerSet b ws, OutNone) ∈ l -> is_Some (m_sets s !! wsid ws))).
    - intros b ws H. by apply elem_of_nil in H.
    - intros s l op s' out IH Hs b ws H.
      assert (Hkeep : forall w, is_Some (m_sets s !! w) -> is_Some (m_sets s' !! w)).
      { intros w Hw. destruct op as [a w' msg chain|h a id b'|a ws'|a t b'|a auth c]; cbn [multisig_step] in Hs.
        - apply start_ok in Hs as (ws0 & Ha & Hl & Hw' & Hlt & -> & ->). done.
        - apply submit_ok in Hs as (ss & ws0 & sg & sig & _ & _ & _ & _ & _ & _ & _ & _ & _ & -> & ->). done.
        - injection Hs as <- <-. cbn. destruct (decide (wsid ws' = w)) as [<-|Hne].
          + rewrite lookup_insert. eauto.
          + by rewrite lookup_insert_ne by done.
        - apply register_key_ok in Hs as (Hl & -> & ->). done.
        - unfold set_caller in Hs. res_inv. subst. done. }
      apply elem_of_app in H as [H|H]; [eauto|]. apply elem_of_list_singleton in H. injection H as <- <-.
      cbn in Hs. injection Hs as <-. cbn. rewrite lookup_insert. eauto.
  Qed.
End Sets.

Section Proofs.
  Context (keccak : string -> string) (wshash : worker_set -> string)
          (sec1 : string -> option string) (recover : string -> string -> string -> option N)
          (crypto : key_type -> string -> string -> string -> option bool).
  Notation sstep := (system_step keccak wshash sec1 crypto).
  Notation sysrun := (sysrun keccak wshash sec1 crypto).
  Notation history := (history keccak wshash sec1 crypto).
  Context (dep : gmap addr deployed) (txs : list tx) (P : addr) (c : pconfig) (g r : addr) (n : N).
  Context (HP : dep !! P = Some (DProver c)) (HM : dep !! pc_multisig c = Some (DMultisig g r n)).
  Notation sops := (signing_ops keccak P c).
  Notation srun := (srun keccak wshash sec1 crypto c P g r n).
  Notation slog := (slog keccak wshash sec1 crypto c P g r n).
  Notation H := (history dep txs).
  Notation st := (sysrun dep txs).
  Notation wsid := (worker_set_id wshash).

  Lemma msg_digest_length b d : (forall x, String.length (keccak x) = 32%nat) -> msg_digest keccak b = Ok d -> String.length d = 32%nat.
  Proof. intros Hk. unfold msg_digest. destruct (b_encoder b); intros Hd; res_inv; subst; apply Hk. Qed.

  Lemma execute_reply env s pc s' to w dg ch : prover_execute keccak wshash sec1 c env s pc = Ok (s', MsgStart to w dg ch) ->
    is_Some (pv_reply s').
  Proof.
    intros Hex. destruct pc as [ids| |]; cbn [prover_execute] in Hex.
    - unfold construct_proof in Hex. apply rbind_ok in Hex as (ms & _ & Hex). apply rbind_ok in Hex as ([s1 b] & _ & Hex).
      apply rbind_ok in Hex as (cur & _ & Hex). apply rbind_ok in Hex as (d & _ & [= <- _]). cbn. eauto.
    - unfold update_worker_set in Hex. destruct (pv_current _).
      + repeat (apply rbind_ok in Hex as (? & _ & Hex)). injection Hex as <- _. cbn. eauto.
      + apply rbind_ok in Hex as (? & _ & Hex). discriminate Hex.
    - unfold confirm_worker_set in Hex. repeat (apply rbind_ok in Hex as (? & _ & Hex)). discriminate Hex.
  Qed.

  (** The state of the pair, and what it says about the multisig. *)
  Notation S0 := (srun (sops H)).
  Notation mrun := (mrun wsid crypto g r n).
  Notation mlog := (mlog wsid crypto g r n).
  Notation mops := (multisig_ops (pc_multisig c) H).
  Lemma the_multisig : sy_multisig S0 = mrun mops.
  Proof.
    destruct (sinv_run keccak wshash sec1 crypto c P g r n (sops H)) as [H1 _ _ _ _ _].
    by rewrite H1, (pair_multisig keccak wshash sec1 crypto dep txs P c g r n HP HM).
  Qed.
  Lemma the_current ws : pv_current (sy_prover S0) = Some ws -> is_Some (m_sets (mrun mops) !! wsid ws).
  Proof.
    destruct (sinv_run keccak wshash sec1 crypto c P g r n (sops H)) as [_ H2 _ _ H5 _].
    rewrite <- (pair_multisig keccak wshash sec1 crypto dep txs P c g r n HP HM).
    intros Hws%H5. rewrite <- H2 in Hws. by eapply registered_stays.
  Qed.
  Lemma the_pinv : pinv keccak wshash sec1 c (sy_prover S0) (prover_trace (slog (sops H))).
  Proof.
    destruct (sinv_run keccak wshash sec1 crypto c P g r n (sops H)) as [_ _ H3 H4 _ _].
    pose proof (pinv_run keccak wshash sec1 c (prover_trace (slog (sops H))).*1) as Hi. by rewrite H4, <- H3 in Hi.
  Qed.

  Lemma may_start_iff : may_start (mlog mops) P <-> P ∈ m_callers (mrun mops) /\ m_counter (mrun mops) + 1 < U64.
  Proof.
    destruct (inv1_run wsid crypto g r n mops) as (_ & _ & _ & E & _ & _ & _ & I8 & _). unfold may_start.
    by rewrite E, I8.
  Qed.

  (** One call of the prover, worked out. *)
  Lemma prover_tx gas e a pc : dep !! a = None ->
    sstep st {| tx_gas := S (S gas); tx_env := e; tx_sender := a; tx_sub := plain P (BProver pc) |} =
    let k0 := {| k_chain := st; k_env := e; k_index := 0; k_sender := a; k_sub := plain P (BProver pc) |} in
    let? (s', m) := map_err EProver (prover_execute keccak wshash sec1 c (prover_env keccak e 0 st) (sy_prover S0) pc) in
    let st1 := <[P := CProver c s']> st in
    match m with
    | MsgStart to w dg ch =>
        let? (ms, o) := map_err EMultisig (multisig_step wsid crypto (sy_multisig S0) (StartSession P w dg ch)) in
        let? (s'', _) := map_err EProver (prover_reply s' (multisig_data o)) in
        Ok (<[P := CProver c s'']> (<[pc_multisig c := CMultisig ms]> st1),
            [k0; {| k_chain := st1; k_env := e; k_index := 1; k_sender := P;
                    k_sub := {| sb_to := to; sb_body := BStartSession w dg ch; sb_funds := []; sb_reply := true |} |}])
    | MsgRegister to ws =>
        let? (ms, o) := map_err EMultisig (multisig_step wsid crypto (sy_multisig S0) (RegisterWorkerSet P ws)) in
        Ok (<[pc_multisig c := CMultisig ms]> st1,
            [k0; {| k_chain := st1; k_env := e; k_index := 1; k_sender := P; k_sub := plain to (BRegisterWorkerSet ws) |}])
    end.
  Proof.
    intros Ha. destruct (pair_run keccak wshash sec1 crypto dep txs P c g r n HP HM) as [[E1 E2] _].
    pose proof (multisig_other dep P c g r n HP HM) as Hne.
    assert (Ha' : st !! a = None).
    { pose proof (shape_end keccak wshash sec1 crypto dep txs a) as Hs. rewrite Ha in Hs. exact Hs. }
    unfold system_step. cbn [tx_gas tx_env tx_sender tx_sub]. rewrite bool_decide_true by done. cbn [ensure rbind].
    cbn [exec_call length]. unfold receive at 1. change (sb_to (plain P (BProver pc))) with P. change (sb_body (plain P (BProver pc))) with (BProver pc).
    rewrite E1. cbn [of_option rbind].
    destruct (prover_execute keccak wshash sec1 c (prover_env keccak e 0 st) (sy_prover S0) pc) as [[s' m]| |] eqn:Ex; [|done|done].
    cbn [map_err rbind fst snd settle]. pose proof (execute_to keccak wshash sec1 c _ _ _ _ _ Ex) as Hto.
    cbn [app]. cbn zeta.
    destruct m as [to w dg ch|to ws]; subst to; cbn [prover_subs run_subs]; cbn [exec_call length app]; unfold receive.
    - cbn [sb_to sb_body]. rewrite chain_ne by done. rewrite E2. cbn [multisig_op of_option rbind].
      destruct (multisig_step wsid crypto (sy_multisig S0) (StartSession P w dg ch)) as [[ms o]| |] eqn:Em; [|done|done].
      cbn [map_err rbind fst snd settle sb_to sb_reply]. 
      destruct (SigningProofs.start_out wshash crypto _ _ _ _ _ _ _ Em) as (i & keys & ->). cbn [multisig_subs multisig_data run_subs rbind fst snd sb_reply].
      unfold reply. rewrite chain_ne by done. rewrite chain_eq.
      destruct (prover_reply s' (Some i)) as [[s'' x]| |] eqn:Er; [|done|done]. cbn [map_err rbind run_subs fst snd app]. done.
    - change (sb_to (plain (pc_multisig c) (BRegisterWorkerSet ws))) with (pc_multisig c).
      change (sb_body (plain (pc_multisig c) (BRegisterWorkerSet ws))) with (BRegisterWorkerSet ws). rewrite chain_ne by done. rewrite E2. cbn [multisig_op of_option rbind multisig_step].
      unfold register_worker_set. cbn [map_err rbind fst snd settle sb_to sb_reply multisig_subs multisig_data run_subs plain app]. done.
  Qed.

  Notation exec := (prover_execute keccak wshash sec1 c).
  Notation call gas e a pc := {| tx_gas := S (S gas); tx_env := e; tx_sender := a; tx_sub := plain P (BProver pc) |}.

  (** What the prover asks of the multisig. *)
  Lemma start_facts env s l pc s' to w dg ch id : pinv keccak wshash sec1 c s l ->
    (forall x, String.length (keccak x) = 32%nat) ->
    exec env s pc = Ok (s', MsgStart to w dg ch) ->
    exists b cur, pv_reply s' = Some (b_id b) /\ pv_current s = Some cur /\ w = to_hex (wshash cur) /\ msg_digest keccak b = Ok dg /\
      String.length dg = 32%nat /\ pv_batches s' !! b_id b = Some b /\ b_encoder b = pc_encoder c /\
      pv_current s' = pv_current s /\ 
      prover_step keccak wshash sec1 c s {| po_call := pc; po_env := env; po_multisig := Some (Some id) |} =
        Ok (set_session s' id (b_id b), {| px_msg := MsgStart to w dg ch; px_event := Some (b_id b, id) |}).
  Proof.
    intros Hi Hk Hex. destruct (execute_reply _ _ _ _ _ _ _ _ Hex) as [bid Hbid].
    assert (Hs : prover_step keccak wshash sec1 c s {| po_call := pc; po_env := env; po_multisig := Some (Some id) |} =
        Ok (set_session s' id bid, {| px_msg := MsgStart to w dg ch; px_event := Some (bid, id) |})).
    { unfold prover_step. cbn [po_env po_call po_multisig]. rewrite Hex. cbn [rbind of_option]. unfold prover_reply. rewrite Hbid. done. }
    pose proof (step_effect _ _ _ _ _ _ _ _ Hs) as Heff.
    pose proof (effect_inv _ _ _ _ _ _ _ _ _ Hi Heff) as Hi'.
    assert (Hx : exists b cur, asks_to_sign keccak wshash c {| px_msg := MsgStart to w dg ch; px_event := Some (bid, id) |} cur b id /\
      pv_current s = Some cur /\ pv_batches (set_session s' id bid) !! b_id b = Some b /\ pv_current (set_session s' id bid) = pv_current s).
    { inversion Heff as [w0 Hcall Hcur Hw|w0 o Hcall Hnext Ho Hver|ids cur ms b i px Hcall Hcur Hm Hbb Hask Hst Ho
          |ids cur ms w0 b i s1 px Hcall Hcur Hm Hb0 Hw Hbb [_ Hst] Hask|cur w0 b i s1 px Hcall Hcur Hw Hup Hbb [_ Hst] Hask];
        exists b, cur.
      - destruct (Hask) as (dg' & _ & _ & [= Hb Hii]). subst i. split; [done|]. split; [done|].
        cbn [pv_batches pv_current set_session]. rewrite <- Hst. split; [|done].
        destruct (pi_made _ _ _ _ _ _ Hi _ _ Hbb) as [E _]. by rewrite E.
      - destruct (Hask) as (dg' & _ & _ & [= Hb Hii]). subst i. split; [done|]. split; [done|].
        rewrite Hst. cbn. split; [by rewrite lookup_insert|done].
      - destruct (Hask) as (dg' & _ & _ & [= Hb Hii]). subst i. split; [done|]. split; [done|].
        rewrite Hst. cbn. split; [by rewrite lookup_insert|done]. }
    destruct Hx as (b & cur & (dg' & Hd1 & [= E1 E2 E3 E4] & [= E5]) & Hcur & Hbt & Hc'). subst dg' bid.
    destruct (pi_made _ _ _ _ _ _ Hi' _ _ Hbt) as [_ (new & ms & Hm & _)].
    exists b, cur. split_and!; try done.
    - by eapply msg_digest_length.
    - unfold build_batch in Hm. apply rbind_ok in Hm as (cs & _ & Hm). apply rbind_ok in Hm as (ms' & _ & [= <-]). done.
  Qed.

  Lemma start_accepted cur dg ch : pv_current (sy_prover S0) = Some cur -> String.length dg = 32%nat ->
    may_start (mlog mops) P ->
    exists ms mu, start_session (sy_multisig S0) P (to_hex (wshash cur)) dg ch =
      Ok (ms, OutStarted (next_session (mlog mops)) (to_hex (wshash cur)) (sg_key <$> ws_signers mu) dg ch) /\
      m_sets (sy_multisig S0) !! to_hex (wshash cur) = Some mu /\
      sessions_of ms (next_session (mlog mops)) = Some {| mu_state := MPending; mu_quorum := ws_threshold mu;
        mu_signers := (fun '(a, sg) => (sg, session_sigs ms (next_session (mlog mops)) !! a)) <$> btree_iter (ws_signers mu) |} /\
      m_sets ms = m_sets (sy_multisig S0).
  Proof.
    intros Hcur Hd [Ha Hc]%may_start_iff. destruct (the_current _ Hcur) as [mu Hmu]. rewrite the_multisig.
    assert (En : next_session (mlog mops) = m_counter (mrun mops) + 1).
    { destruct (inv1_run wsid crypto g r n mops) as (_ & _ & _ & E & _). unfold next_session. by rewrite E. }
    rewrite En. eexists _, mu. split; [apply start_ok; exists mu; split_and!; done|]. split; [done|]. split; [|done].
    unfold sessions_of, get_multisig. cbn [m_sessions m_sets]. rewrite lookup_insert. cbn [of_option rbind ss_wsid]. 
    replace (to_hex (wshash cur)) with (wsid cur) by done. rewrite Hmu. cbn [of_option rbind ss_id ss_state]. done.
  Qed.

  Lemma c94_call gas e a pc : (forall x, String.length (keccak x) = 32%nat) -> dep !! a = None ->
    is_ok (sstep st (call gas e a pc)) = true <->
    exists s' m, exec (prover_env keccak e 0 st) (sy_prover S0) pc = Ok (s', m) /\
      match m with MsgStart _ _ _ _ => may_start (mlog mops) P | MsgRegister _ _ => True end.
  Proof.
    intros Hk Ha. rewrite prover_tx by done. cbn zeta.
    destruct (exec (prover_env keccak e 0 st) (sy_prover S0) pc) as [[s' m]| |] eqn:Ex; cbn [map_err rbind].
    2,3: split; [done|intros (? & ? & ? & _); discriminate].
    destruct m as [to w dg ch|to ws].
    - destruct (start_facts _ _ _ _ _ _ _ _ _ 0 the_pinv Hk Ex) as (b & cur & Hr & Hcur & -> & Hd & Hl & _).
      split.
      + intros Hok. exists s', (MsgStart to (to_hex (wshash cur)) dg ch). split; [done|]. apply may_start_iff. cbn [multisig_step] in Hok.
        destruct (start_session (sy_multisig S0) P (to_hex (wshash cur)) dg ch) as [[ms o]| |] eqn:Es; try done.
        apply start_ok in Es as (ws & E1 & _ & _ & E2 & _). by rewrite the_multisig in E1, E2.
      + intros (s1 & m1 & [= <- <-] & Hms). cbn [multisig_step]. destruct (start_accepted _ _ ch Hcur Hl Hms) as (ms & mu & -> & _).
        cbn [map_err rbind multisig_data]. unfold prover_reply. rewrite Hr. done.
    - cbn [multisig_step]. unfold register_worker_set. cbn [map_err rbind]. split; [|done]. intros _. by exists s', (MsgRegister to ws).
  Qed.

  (** The session that is started. *)
  Lemma c94_session gas e a pc s' to w dg ch : (forall x, String.length (keccak x) = 32%nat) -> dep !! a = None ->
    exec (prover_env keccak e 0 st) (sy_prover S0) pc = Ok (s', MsgStart to w dg ch) ->
    may_start (mlog mops) P ->
    let id := next_session (mlog mops) in
    exists st' l s'' b resp, sstep st (call gas e a pc) = Ok (st', l) /\ pair_state st' P c s'' /\
      msg_digest keccak b = Ok dg /\
      system_proof keccak sec1 recover c s'' id = Ok resp /\ pr_status resp = PfPending /\
      pr_data resp = b_data b /\ pr_ids resp = b_ids b /\
      (forall cur, query_worker_set (sy_prover S0) = Ok cur -> query_worker_set (sy_prover s'') = Ok cur) /\
      (forall d, d <> P -> d <> pc_multisig c -> st' !! d = st !! d).
  Proof.
    intros Hk Ha Ex Hms id. rewrite prover_tx by done. cbn zeta. rewrite Ex. cbn [map_err rbind multisig_step].
    destruct (start_facts _ _ _ _ _ _ _ _ _ 0 the_pinv Hk Ex) as (b & cur & Hr & Hcur & -> & Hd & Hl & Hb & He & Hc' & _).
    destruct (start_accepted _ _ ch Hcur Hl Hms) as (ms & mu & -> & Hmu & Hses & Hsets). cbn [map_err rbind multisig_data].
    unfold prover_reply. rewrite Hr. cbn [of_option rbind map_err]. fold id in Hses |- *.
    pose proof (multisig_other dep P c g r n HP HM) as Hne.
    eexists _, _, {| sy_prover := set_session s' id (b_id b); sy_multisig := ms |}, b, _. split; [done|]. split.
    { split; cbn [sy_prover sy_multisig]; [apply chain_eq|]. rewrite chain_ne by done. apply chain_eq. }
    split; [done|]. split.
    { unfold system_proof, get_proof. cbn [sy_prover sy_multisig set_session pv_sessions pv_batches]. rewrite lookup_insert.
      cbn [of_option rbind]. rewrite Hb. cbn [of_option rbind]. rewrite bool_decide_eq_true_2 by done. cbn [negb].
      rewrite Hses. cbn [of_option rbind mu_state]. done. }
    cbn [pr_status pr_data pr_ids]. split_and!; try done.
    - intros cur' Hq. unfold query_worker_set in *. cbn [sy_prover set_session pv_current]. by rewrite Hc'.
    - intros d H1 H2. rewrite !chain_ne by done. done.
  Qed.

  Lemma c93_confirm gas e a vc cur ws o : dep !! a = None ->
    dep !! pc_verifier c = Some (DVerifier vc) -> valid_vconfig vc ->
    sets_after keccak wshash sec1 c (prover_trace (slog (sops H))) cur (Some ws) ->
    make_operators keccak sec1 (pc_encoder c) ws = Ok o ->
    operators_vouched keccak (pc_verifier c) vc H o ->
    exists st' l s'', sstep st (call gas e a ConfirmWorkerSet) = Ok (st', l) /\ pair_state st' P c s'' /\
      query_worker_set (sy_prover s'') = Ok ws /\ get_worker_set (sy_multisig s'') (wsid ws) = Ok ws /\
      (forall w, w <> wsid ws -> get_worker_set (sy_multisig s'') w = get_worker_set (sy_multisig S0) w) /\
      ((forall w, get_worker_set (sy_multisig S0) (wsid ws) = Ok w -> w = ws) ->
       forall id resp, system_proof keccak sec1 recover c S0 id = Ok resp -> system_proof keccak sec1 recover c s'' id = Ok resp) /\
      (forall d, d <> P -> d <> pc_multisig c -> st' !! d = st !! d).
  Proof.
    intros Ha HV Hvc Hsets Ho Hv.
    destruct (sets_after_functional _ _ _ _ _ _ _ Hsets _ _ (pi_sets _ _ _ _ _ _ the_pinv)) as [Hc1 Hn1].
    destruct (c93_operators keccak wshash sec1 crypto dep txs _ _ _ HV Hvc Hv) as (vs & Hvs & Hst).
    rewrite prover_tx by done. cbn zeta. cbn [prover_execute]. unfold confirm_worker_set. rewrite Hn1. cbn [of_option rbind].
    rewrite Ho. cbn [rbind]. cbn [prover_env pe_verified]. unfold q_set_verified. rewrite Hvs. unfold is_worker_set_verified. rewrite Hst.
    cbn [rbind ask of_option]. rewrite bool_decide_true by done. cbn [ensure rbind map_err multisig_step]. unfold register_worker_set. cbn [map_err rbind].
    pose proof (multisig_other dep P c g r n HP HM) as Hne.
    match goal with |- context [CMultisig ?m] => set (ms := m) end.
    match goal with |- context [CProver c ?p] => set (ps := p) end.
    eexists _, _, {| sy_prover := ps; sy_multisig := ms |}. split; [done|]. split.
    { split; cbn [sy_prover sy_multisig]; [|apply chain_eq]. rewrite chain_ne by done. apply chain_eq. }
    subst ms ps. cbn [sy_prover sy_multisig]. split; [done|]. split.
    { unfold get_worker_set. cbn [m_sets]. by rewrite lookup_insert. }
    split.
    { intros w Hw. unfold get_worker_set. cbn [m_sets]. by rewrite lookup_insert_ne by done. }
    split.
    { intros Hsame id resp. unfold system_proof, get_proof. cbn [sy_prover sy_multisig set_sets pv_sessions pv_batches].
      destruct (pv_sessions (sy_prover S0) !! id) as [bid|]; [|done]. cbn [of_option rbind].
      destruct (pv_batches (sy_prover S0) !! bid) as [b|]; [|done]. cbn [of_option rbind].
      destruct (negb _); [done|].
      unfold sessions_of, get_multisig. cbn [m_sessions m_sets].
      destruct (m_sessions (sy_multisig S0) !! id) as [ss|] eqn:Ess; [|done]. cbn [of_option rbind].
      destruct (decide (wsid ws = ss_wsid ss)) as [E|E]; [|by rewrite lookup_insert_ne].
      rewrite <- E, lookup_insert. unfold get_worker_set in Hsame.
      destruct (m_sets (sy_multisig S0) !! wsid ws) as [w|]; [|done]. by rewrite (Hsame w eq_refl). }
    intros d H1 H2. rewrite !chain_ne by done. done.
  Qed.
End Proofs.
