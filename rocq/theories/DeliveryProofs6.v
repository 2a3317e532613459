(** C94: which votes are accepted, and who can end a poll. *)
From stdpp Require Import sorting.
From Verif Require Import Base BaseLemmas MapLemmas Text TextLemmas StdModel StdSpec StdProofs RouterTypes RegistryTypes RegistryProofs OperatorsModel MultisigTypes
  RouterModel GatewayModel GatewaySpec GatewayProofs NexusModel RewardsModel RewardsSpec RewardsProofs RewardsProofs4 RegistryModel VerifierModel VerifierSpec VerifierProofs VerifierProofs2 VerifierProofs3 VerifierProofs5
  MultisigModel EncodingModel ProverModel SigningModel
  SystemModel SystemSpec SystemProofs SystemProofs2 SystemProofs3 SystemProofs4 SystemProofs9
  DaemonProofs4 DeliverySpec DeliveryProofs DeliveryProofs4.

Section Polls.
  Context (keccak : string -> string) (wshash : worker_set -> string)
          (sec1 : string -> option string)
          (crypto : key_type -> string -> string -> string -> option bool).
  Notation sstep := (system_step keccak wshash sec1 crypto).
  Notation sysrun := (sysrun keccak wshash sec1 crypto).
  Notation history := (history keccak wshash sec1 crypto).
  Context (dep : gmap addr deployed) (txs : list tx) (v : addr) (vc : vconfig) (HV : dep !! v = Some (DVerifier vc)).
  Notation H := (history dep txs).
  Notation st := (sysrun dep txs).
  Notation vops := (verifier_ops v H).

  Lemma the_verifier : st !! v = Some (CVerifier (vrun keccak vc vops)) /\ (vlog keccak vc vops).*1 = vops.
  Proof. pose proof (c80 keccak wshash sec1 crypto dep txs v) as H2. rewrite HV in H2. exact H2. Qed.

  (** A call to the verifier, seen from the verifier alone. *)
  Lemma opened_log l1 k l2 id expires workers items :
    H = l1 ++ k :: l2 -> poll_opened keccak v vc k id expires workers items ->
    exists e lg1 lg2 subj, vlog keccak vc vops = lg1 ++ e :: lg2 /\ opens vc e id expires workers subj /\
      items = match subj with OnMessages ms => length ms | OnOperators _ => 1%nat end /\
      lg2.*1 = verifier_ops v l2.
  Proof.
    intros Hl (Hto & Hn & -> & vs & vs' & meta & Hvs & Hid & Hcase).
    assert (Hop : exists op out subj, verifier_op (en_height (k_env k)) (q_active (k_env k) (k_index k) (k_chain k)) (k_sender k) (sb_body (k_sub k)) = Some op /\
      verifier_step keccak vs op = Ok (vs', out) /\
      (v_config vs = vc -> opens vc (op, out) id (en_height (k_env k) + vc_expiry vc) workers subj) /\
      items = match subj with OnMessages ms => length ms | OnOperators _ => 1%nat end).
    { pose proof (active_named vc k workers Hn) as Hreg.
      destruct Hcase as [(ms & sts & es & Hb & -> & Hs)|(mid & o & tx & n & o' & Hb & -> & Hs)]; rewrite Hb; cbn [verifier_op].
      - pose proof Hs as Hs'. apply verify_messages_ok in Hs' as (_ & _ & sts' & _ & [(_ & _ & [=])|(_ & Hopen)]).
        destruct Hopen as (workers' & snap & tbl & events & Hreg' & Hsn & _ & _ & Htbl & Hev & Hs' & Hout).
        injection Hout as -> -> Hmeta.
        eexists _, _, (OnMessages (List.filter (wants_poll keccak vs) ms)). split; [reflexivity|]. split; [exact Hs|]. split.
        + intros Hc. rewrite Hc in *. rewrite Hreg in Hreg'. injection Hreg' as <-. rewrite <- Hid, Hmeta. cbn. split_and!; try done.
          * eauto using worker_snapshot_addrs.
          * eexists. split_and!; [done|apply filter_sublist|done].
        + symmetry. by eapply Forall2_length.
      - pose proof Hs as Hs'. apply verify_worker_set_ok in Hs' as (st0 & workers' & snap & tx' & ix & _ & _ & Hreg' & Hsn & Hpm & Hs' & Hout).
        injection Hout as -> -> -> Hmeta.
        eexists _, _, (OnOperators o). split; [reflexivity|]. split; [exact Hs|]. split; [|done].
        intros Hc. rewrite Hc in *. rewrite Hreg in Hreg'. injection Hreg' as <-. rewrite <- Hid, Hmeta. cbn. split_and!; try done.
        eauto using worker_snapshot_addrs. }
    destruct Hop as (op & out & subj & Hop & Hst & Ho & Hit).
    destruct (verifier_around keccak wshash sec1 crypto dep txs v vc l1 k l2 vs op vs' out HV Hl Hto Hvs Hop Hst) as (E1 & E2 & E3).
    exists (op, out), (vlog keccak vc (verifier_ops v l1)), (log (verifier_step keccak) vs' (verifier_ops v l2)), subj.
    split; [|split; [|done]].
    - assert (E : vops = verifier_ops v l1 ++ op :: verifier_ops v l2).
      { rewrite Hl. unfold verifier_ops, calls_to. rewrite omap_app. f_equal. cbn [omap list_omap].
        rewrite bool_decide_true by done. by rewrite Hop. }
      rewrite E. unfold vlog. rewrite log_app. f_equal. cbn [log]. unfold log1, exec.
      change (run (verifier_step keccak) (verifier_init vc) (verifier_ops v l1)) with (vrun keccak vc (verifier_ops v l1)). rewrite <- E1, Hst. done.
    - apply Ho. rewrite E1. by destruct (inv_run keccak vc (verifier_ops v l1)).
  Qed.

  Lemma verifier_receive e a b op : verifier_op (en_height e) (q_active e 0 st) a b = Some op ->
    receive keccak wshash sec1 crypto e 0 st a (plain v b) =
    (let? (s', o) := map_err EVerifier (verifier_step keccak (vrun keccak vc vops) op) in Ok (Some (CVerifier s'), verifier_subs o, None)).
  Proof.
    intros Hop. unfold receive. change (sb_to (plain v b)) with v. change (sb_body (plain v b)) with b.
    rewrite (proj1 the_verifier), Hop. reflexivity.
  Qed.
  Lemma verifier_tx_only g e a b op : verifier_op (en_height e) (q_active e 0 st) a b = Some op ->
    is_ok (sstep st {| tx_gas := S g; tx_env := e; tx_sender := a; tx_sub := plain v b |}) = true ->
    is_ok (verifier_step keccak (vrun keccak vc vops) op) = true.
  Proof.
    intros Hop Hok. unfold system_step in Hok; cbn [tx_gas tx_env tx_sender tx_sub] in Hok.
    destruct (ensure _ _) as [[]| |]; cbn [rbind is_ok] in Hok; try discriminate Hok.
    cbn [exec_call length] in Hok. rewrite (verifier_receive _ _ _ _ Hop) in Hok.
    destruct (verifier_step _ _ _) as [[s' o]| |]; [done|discriminate Hok|discriminate Hok].
  Qed.

  Notation tx_vote g e a id ballot := {| tx_gas := S g; tx_env := e; tx_sender := a; tx_sub := plain v (BVote id ballot) |}.
  Notation tx_end g e a id := {| tx_gas := S (S g); tx_env := e; tx_sender := a; tx_sub := plain v (BEndPoll id) |}.

  Lemma c94_vote g e a id ballot l1 k l2 expires workers items : dep !! a = None ->
    H = l1 ++ k :: l2 -> poll_opened keccak v vc k id expires workers items ->
    (is_ok (sstep st (tx_vote g e a id ballot)) = true <->
     a ∈ w_addr <$> workers /\ en_height e < expires /\ length ballot = items /\
     forall k' b, k' ∈ l2 -> k_to k' = v -> k_sender k' = a -> sb_body (k_sub k') <> BVote id b) /\
    forall st' l, sstep st (tx_vote g e a id ballot) = Ok (st', l) -> forall d, d <> v -> st' !! d = st !! d.
  Proof.
    intros Ha Hl Ho. destruct (opened_log _ _ _ _ _ _ _ Hl Ho) as (ev & lg1 & lg2 & subj & Hlg & Hop & Hit & Hl2).
    assert (Ha' : st !! a = None).
    { pose proof (shape_end keccak wshash sec1 crypto dep txs a) as Hs. rewrite Ha in Hs. exact Hs. }
    pose proof (c88_vote keccak vc vops lg1 ev lg2 id expires workers subj (en_height e) a ballot Hlg Hop) as Hv.
    assert (Hr : forall s' out, verifier_step keccak (vrun keccak vc vops) (Vote (en_height e) a id ballot) = Ok (s', out) ->
      exists l, sstep st (tx_vote g e a id ballot) = Ok (<[v := CVerifier s']> st, l)).
    { intros s' out Hs. pose proof Hs as Hs'. cbn [verifier_step] in Hs'. apply verifier_vote_ok in Hs' as (vp & p' & _ & _ & _ & ->).
      unfold system_step. cbn [tx_gas tx_env tx_sender tx_sub]. rewrite bool_decide_true by done. cbn [ensure rbind exec_call length].
      rewrite (verifier_receive e a (BVote id ballot) (Vote (en_height e) a id ballot) eq_refl), Hs. cbn [map_err rbind fst snd verifier_subs settle run_subs].
      eexists. reflexivity. }
    split.
    - rewrite <- Hit in Hv. etrans; [|etrans; [exact Hv|]].
      + split; [by apply verifier_tx_only|]. intros Hok. destruct (verifier_step _ _ _) as [[s' out]| |] eqn:Es; try discriminate Hok.
        destruct (Hr _ _ eq_refl) as [l ->]. done.
      + apply and_iff_compat_l, and_iff_compat_l, and_iff_compat_l. split.
        * intros Hno k' b Hk Ht Hs Hb. assert (Hin : Vote (en_height (k_env k')) a id b ∈ lg2.*1).
          { rewrite Hl2. unfold verifier_ops, calls_to. apply elem_of_list_omap. exists k'. split; [done|]. rewrite bool_decide_true by done.
            rewrite Hb, Hs. done. }
          apply elem_of_list_fmap in Hin as ([op out] & Heq & Hin). cbn in Heq. subst op. by eapply Hno.
        * intros Hno h' b o Hin. apply (elem_of_list_fmap_1 fst) in Hin. rewrite Hl2 in Hin. cbn [fst] in Hin.
          apply ops_elem in Hin as (k' & Hk & Ht & Hv'). destruct (sb_body (k_sub k')) eqn:Eb; try discriminate Hv'. injection Hv' as _ <- -> ->.
          by eapply Hno.
    - intros st' l Hs d Hd. assert (Hok : is_ok (sstep st (tx_vote g e a id ballot)) = true) by by rewrite Hs.
      apply (verifier_tx_only g e a (BVote id ballot) (Vote (en_height e) a id ballot) eq_refl) in Hok.
      destruct (verifier_step _ _ _) as [[s' out]| |] eqn:Es; try discriminate Hok.
      destruct (Hr _ _ eq_refl) as [l' E]. rewrite Hs in E. injection E as -> _. by apply chain_ne.
  Qed.

  Lemma parts_bound (parts : list addr) id : NoDup parts ->
    (forall a, a ∈ parts -> exists h' ballot, Vote h' a id ballot ∈ vops) -> (length parts <= length H)%nat.
  Proof.
    intros Hnd Hin. transitivity (length (k_sender <$> H)); [|by rewrite fmap_length].
    apply submseteq_length, NoDup_submseteq; [done|]. intros a Ha. destruct (Hin _ Ha) as (h' & b & Hv).
    apply ops_elem in Hv as (k' & Hk & Ht & Hv'). destruct (sb_body (k_sub k')); try discriminate Hv'. injection Hv' as _ <- _ _.
    apply elem_of_list_fmap. eauto.
  Qed.
  Lemma ops_length {Op} (f : call -> option Op) a l : (length (calls_to f a l) <= length l)%nat.
  Proof. unfold calls_to. induction l as [|k l IH]; [done|]. cbn [omap list_omap]. destruct (if bool_decide _ then _ else _); cbn [length]; lia. Qed.

  Lemma c94_end g e a id l1 k l2 expires workers items g0 d0 p0 h0 : dep !! a = None ->
    dep !! vc_rewards vc = Some (DRewards g0 d0 p0 h0) ->
    valid_rinit {| ri_gov := g0; ri_denom := d0; ri_params := p0; ri_height := h0 |} -> Forall valid_rop (rewards_ops (vc_rewards vc) H) ->
    in_blocks_from h0 (txs ++ [tx_end g e a id]) -> 2 * N.of_nat (length H) < U64 ->
    H = l1 ++ k :: l2 -> poll_opened keccak v vc k id expires workers items ->
    (is_ok (sstep st (tx_end g e a id)) = true <->
     expires <= en_height e /\ forall k', k' ∈ l2 -> k_to k' = v -> sb_body (k_sub k') <> BEndPoll id) /\
    forall st' l, sstep st (tx_end g e a id) = Ok (st', l) ->
      (exists parts rs, NoDup parts /\ st !! vc_rewards vc = Some (CRewards rs) /\
         st' !! vc_rewards vc = Some (CRewards (run rewards_step rs ((fun w => Record_ (en_height e) v (dec id) w) <$> parts)))) /\
      forall d, d <> v -> d <> vc_rewards vc -> st' !! d = st !! d.
  Proof.
    intros Ha HR Hi Hvr Hb Hlen Hl Ho. destruct (opened_log _ _ _ _ _ _ _ Hl Ho) as (ev & lg1 & lg2 & subj & Hlg & Hop & Hit & Hl2).
    pose proof (c88_end keccak vc vops lg1 ev lg2 id expires workers subj (en_height e) Hlg Hop) as Hv.
    assert (Hne : v <> vc_rewards vc) by (intros E; rewrite <- E, HV in HR; discriminate HR).
    assert (Hr : forall s' out, verifier_step keccak (vrun keccak vc vops) (EndPoll (en_height e) id) = Ok (s', out) ->
      exists st' l, sstep st (tx_end g e a id) = Ok (st', l) /\
      (exists parts rs, NoDup parts /\ st !! vc_rewards vc = Some (CRewards rs) /\
         st' !! vc_rewards vc = Some (CRewards (run rewards_step rs ((fun w => Record_ (en_height e) v (dec id) w) <$> parts)))) /\
      forall d, d <> v -> d <> vc_rewards vc -> st' !! d = st !! d).
    { intros s' out Hs. pose proof Hs as Hs'. cbn [verifier_step] in Hs'. apply verifier_end_poll_ok in Hs' as (vp & p' & _ & _ & _ & Eo).
      assert (Hlog : vlog keccak vc (vops ++ [EndPoll (en_height e) id]) = vlog keccak vc vops ++ (EndPoll (en_height e) id, out) :: []).
      { unfold vlog. rewrite log_app. f_equal. cbn [log]. unfold log1, exec. unfold vrun in Hs. by rewrite Hs. }
      rewrite Eo in Hlog. apply c11_reports in Hlog as (parts & Er & Hnd & _ & Hparts). rewrite Er in Eo.
      destruct (recording_tx keccak wshash sec1 crypto dep txs (vc_rewards vc) g0 d0 p0 h0 HR g e a (plain v (BEndPoll id))
        (CVerifier s') ((fun a => (vc_rewards vc, dec id, a)) <$> parts) None Ha Hne Hi Hvr Hb) as (st' & l & E1 & E2 & E3 & E4).
      - rewrite fmap_length. assert (Hpl : (length parts <= length H)%nat).
        { apply (parts_bound _ id Hnd). intros w (h' & b & o & Hin & _)%Hparts. exists h', b.
          apply (elem_of_list_fmap_1 fst) in Hin. by rewrite (proj2 the_verifier) in Hin. }
        pose proof (ops_length (fun k0 => rewards_op (en_height (k_env k0)) (k_sender k0) (sb_funds (k_sub k0)) (sb_body (k_sub k0))) (vc_rewards vc) H) as Hol.
        unfold rewards_ops. lia.
      - apply Forall_fmap, Forall_forall. done.
      - rewrite (verifier_receive e a (BEndPoll id) (EndPoll (en_height e) id) eq_refl), Hs. rewrite Eo. reflexivity.
      - exists st', l. split; [done|]. split; [|exact E4]. exists parts. eexists. split; [done|].
        split; [apply (the_rewards keccak wshash sec1 crypto dep txs _ _ _ _ _ HR)|]. rewrite E3. unfold rrun. rewrite run_app.
        rewrite <- list_fmap_compose. reflexivity. }
    split.
    - etrans; [|etrans; [exact Hv|]].
      + split; [by apply verifier_tx_only|]. intros Hok. destruct (verifier_step _ _ _) as [[s' out]| |] eqn:Es; try discriminate Hok.
        destruct (Hr _ _ eq_refl) as (st' & l & -> & _). done.
      + apply and_iff_compat_l. unfold ended. split.
        * intros Hno k' Hk Ht Hb'. apply Hno. assert (Hin : EndPoll (en_height (k_env k')) id ∈ lg2.*1).
          { rewrite Hl2. unfold verifier_ops, calls_to. apply elem_of_list_omap. exists k'. split; [done|]. rewrite bool_decide_true by done.
            by rewrite Hb'. }
          apply elem_of_list_fmap in Hin as ([op out] & Heq & Hin). cbn in Heq. subst op. apply elem_of_list_omap. by eexists.
        * intros Hno Hin. apply elem_of_list_omap in Hin as ([op out] & Hin & He). cbn [fst] in He. destruct op; try discriminate He. injection He as ->.
          apply (elem_of_list_fmap_1 fst) in Hin. rewrite Hl2 in Hin. cbn [fst] in Hin.
          apply ops_elem in Hin as (k' & Hk & Ht & Hv'). destruct (sb_body (k_sub k')) eqn:Eb; try discriminate Hv'. injection Hv' as _ ->.
          by eapply Hno.
    - intros st' l Hs. assert (Hok : is_ok (sstep st (tx_end g e a id)) = true) by by rewrite Hs.
      apply (verifier_tx_only (S g) e a (BEndPoll id) (EndPoll (en_height e) id) eq_refl) in Hok.
      destruct (verifier_step _ _ _) as [[s' out]| |] eqn:Es; try discriminate Hok.
      destruct (Hr _ _ eq_refl) as (st2 & l' & E & Hd). rewrite Hs in E. injection E as -> _. done.
  Qed.
End Polls.
