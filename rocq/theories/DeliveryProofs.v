(** C93: votes verify messages in the whole system, and verified messages can
    be delivered by anybody. *)
From stdpp Require Import sorting.
From Verif Require Import Base BaseLemmas Text StdModel RouterTypes RegistryTypes OperatorsModel MultisigTypes
  RouterModel RouterSpec RouterProofs GatewayModel GatewaySpec GatewayProofs NexusModel RewardsModel RegistryModel
  VerifierModel VerifierSpec VerifierProofs VerifierProofs5 LivenessSpec MultisigModel EncodingModel ProverModel SigningModel
  SystemModel SystemSpec SystemProofs SystemProofs2 SystemProofs3 SystemProofs4 SystemProofs9 DeliverySpec.

Section Live.
  Context (keccak : string -> string) (wshash : worker_set -> string)
          (sec1 : string -> option string)
          (crypto : key_type -> string -> string -> string -> option bool).
  Notation sstep := (system_step keccak wshash sec1 crypto).
  Notation sysrun := (sysrun keccak wshash sec1 crypto).
  Notation history := (history keccak wshash sec1 crypto).

  (** *** Heights of calls *)
  Lemma tx_calls_env st t st' l : sstep st t = Ok (st', l) -> Forall (fun k => k_env k = tx_env t) l.
  Proof.
    intros [_ (k & rest & -> & Hk & _ & Ho & _)]%system_step_spec. cbn [app].
    assert (He : k_env k = tx_env t) by by subst k. clear Hk.
    constructor; [done|]. revert Ho.
    induction rest as [|x rest IH] using rev_ind; intros Ho; [done|]. apply Forall_app. 
    assert (HF : Forall (fun k0 => k_env k0 = tx_env t) rest).
    { apply IH. intros a y b ->. destruct (Ho a y (b ++ [x])) as (p & ? & ?); [by rewrite <- app_assoc|]. eauto. }
    split; [done|]. constructor; [|done]. destruct (Ho rest x [] eq_refl) as (p & Hp & (_ & _ & _ & _ & _ & _ & _ & _ & -> & _)).
    apply elem_of_cons in Hp as [->|Hp]; [done|]. rewrite Forall_forall in HF. auto.
  Qed.
  Lemma sorted_app (l1 l2 : list N) : StronglySorted N.le l1 -> StronglySorted N.le l2 ->
    (forall x y, x ∈ l1 -> y ∈ l2 -> x <= y) -> StronglySorted N.le (l1 ++ l2).
  Proof.
    induction 1 as [|x l1 Hs IH Hx]; intros H2 H; cbn [app]; [done|]. constructor.
    - apply IH; [done|]. intros. apply H; [by right|done].
    - apply Forall_app. split; [done|]. apply Forall_forall. intros y Hy. apply H; [left|done].
  Qed.
  Lemma sorted_sublist (l1 l2 : list N) : l1 `sublist_of` l2 -> StronglySorted N.le l2 -> StronglySorted N.le l1.
  Proof.
    induction 1 as [|x l1 l2 Hs IH|x l1 l2 Hs IH]; intros H; [constructor| |].
    - apply StronglySorted_inv in H as [H1 H2]. constructor; [auto|].
      rewrite Forall_forall in *. intros y Hy. apply H2. eapply elem_of_submseteq; [done|]. by apply sublist_submseteq.
    - apply StronglySorted_inv in H as [H1 H2]. auto.
  Qed.
  Lemma calls_sorted st txs : in_blocks txs -> StronglySorted N.le ((fun k => en_height (k_env k)) <$> (log sstep st txs ≫= snd)).
  Proof.
    unfold in_blocks. revert st. induction txs as [|t txs IH]; intros st H; [constructor|].
    cbn [fmap list_fmap] in H. apply StronglySorted_inv in H as [H1 H2]. cbn [log]. rewrite bind_app, fmap_app.
    apply sorted_app; [|by apply IH|].
    - unfold log1. destruct (sstep st t) as [[st' l]| |] eqn:E; cbn; try constructor. rewrite app_nil_r.
      apply tx_calls_env in E. clear -E. induction E as [|k l Hk Hl IH]; cbn; constructor; [done|].
      apply Forall_fmap. eapply Forall_impl; [exact Hl|]. intros k' Hk'. cbn in *. rewrite Hk, Hk'. done.
    - intros x y Hx Hy. apply elem_of_list_fmap in Hx as (k & -> & Hk). apply elem_of_list_fmap in Hy as (k' & -> & Hk').
      assert (k_env k = tx_env t) as ->.
      { unfold log1 in Hk. destruct (sstep st t) as [[st' l]| |] eqn:E; cbn in Hk; try by apply elem_of_nil in Hk.
        rewrite app_nil_r in Hk. apply tx_calls_env in E. rewrite Forall_forall in E. auto. }
      apply elem_of_list_bind in Hk' as ([t' l'] & Hk' & Hl'). cbn [snd] in Hk'.
      apply log_elem in Hl' as (o1 & o2 & s' & -> & Hst). apply tx_calls_env in Hst. rewrite Forall_forall in Hst.
      rewrite (Hst _ Hk'). rewrite Forall_forall in H2. apply H2. apply elem_of_list_fmap. exists t'. split; [done|].
      apply elem_of_app. right. left.
  Qed.
  Lemma verifier_heights v l : StronglySorted N.le ((fun k => en_height (k_env k)) <$> l) -> in_order (verifier_ops v l).
  Proof.
    intros H. eapply sorted_sublist; [|exact H]. unfold verifier_ops, calls_to. clear H.
    induction l as [|k l IH]; [done|]. cbn [omap list_omap]. 
    destruct (bool_decide (k_to k = v)); cbn [fmap list_fmap]; [|by constructor].
    destruct (verifier_op _ _ _ _) as [o|] eqn:E; [|by constructor]. cbn [fmap list_fmap].
    assert (at_height o = en_height (k_env k)) as ->.
    { destruct (sb_body (k_sub k)); cbn [verifier_op] in E; try discriminate E; by injection E as <-. }
    by constructor.
  Qed.

  (** *** Votes *)
  Lemma voted_vouched v t l2 id expires workers idx s' :
    voted v t l2 id expires workers idx ->
    (log (verifier_step keccak) s' (verifier_ops v l2)).*1 = verifier_ops v l2 ->
    vouched t (log (verifier_step keccak) s' (verifier_ops v l2)) id expires workers idx.
  Proof.
    intros (voters & Hnd & Hall & Hle) Hl. exists voters. split; [done|]. split; [|done].
    intros a Ha. destruct (Hall a Ha) as (Hw & k & ballot & Hk & Hto & Hs & Hb & Hh & Hv). split; [done|].
    assert (Hin : Vote (en_height (k_env k)) a id ballot ∈ verifier_ops v l2).
    { apply elem_of_list_omap. exists k. split; [done|]. rewrite bool_decide_true by done. rewrite Hb. cbn. by rewrite Hs. }
    rewrite <- Hl in Hin. apply elem_of_list_fmap in Hin as ([o out] & E & Hin). cbn [fst] in E. subst o.
    exists (en_height (k_env k)), ballot, out. done.
  Qed.
  Lemma active_named vc k workers : named vc k workers ->
    q_active (k_env k) (k_index k) (k_chain k) (vc_registry vc) (vc_service vc) (vc_chain vc) = Some workers.
  Proof.
    unfold q_active, named. destruct (k_chain k !! vc_registry vc) as [[]|]; try done. unfold ask.
    by intros ->.
  Qed.

  (** The verifier's operations around a call. *)
  Lemma verifier_around dep txs v vc l1 k l2 vs op vs' out :
    dep !! v = Some (DVerifier vc) -> history dep txs = l1 ++ k :: l2 -> k_to k = v ->
    k_chain k !! v = Some (CVerifier vs) ->
    verifier_op (en_height (k_env k)) (q_active (k_env k) (k_index k) (k_chain k)) (k_sender k) (sb_body (k_sub k)) = Some op ->
    verifier_step keccak vs op = Ok (vs', out) ->
    let ops1 := verifier_ops v l1 in let ops2 := verifier_ops v l2 in
    vs = vrun keccak vc ops1 /\
    sysrun dep txs !! v = Some (CVerifier (vrun keccak vc (ops1 ++ op :: ops2))) /\
    (log (verifier_step keccak) vs' ops2).*1 = ops2.
  Proof.
    intros Hd Hl Hto Hvs Hop Hst ops1 ops2.
    pose proof (c80_during keccak wshash sec1 crypto dep txs l1 k l2 v Hl) as H1. rewrite Hd in H1. cbn [as_alone] in H1.
    destruct H1 as [H1 L1]. rewrite Hvs in H1. injection H1 as ->. split; [done|].
    pose proof (c80 keccak wshash sec1 crypto dep txs v) as H2. rewrite Hd in H2. cbn [as_alone] in H2. destruct H2 as [H2 L2].
    assert (E : verifier_ops v (history dep txs) = ops1 ++ op :: ops2).
    { rewrite Hl. unfold ops1, ops2, verifier_ops, calls_to. rewrite omap_app. f_equal. cbn [omap list_omap].
      rewrite bool_decide_true by done. by rewrite Hop. }
    rewrite E in H2, L2. split; [done|]. rewrite log_app, fmap_app in L2.
    fold ops1 in L1. rewrite L1 in L2. apply app_inv_head in L2. cbn [log] in L2. unfold log1, exec in L2.
    fold ops1 in Hst. rewrite Hst in L2. cbn [app fmap list_fmap fst] in L2. by injection L2.
  Qed.

  Lemma c93_message dep txs v vc m : dep !! v = Some (DVerifier vc) -> valid_vconfig vc -> in_blocks txs ->
    message_vouched keccak v vc (history dep txs) m ->
    exists vs, sysrun dep txs !! v = Some (CVerifier vs) /\ message_status keccak vs m = Ok Verified.
  Proof.
    intros Hd Hcfg Hb (l1 & k & l2 & vs & vs' & ms & sts & es & meta & workers & idx & Hl & Hto & Hvs & Hbd & Hst & [Hi Hlast] & Hn & Hv).
    assert (Hop : verifier_op (en_height (k_env k)) (q_active (k_env k) (k_index k) (k_chain k)) (k_sender k) (sb_body (k_sub k)) =
      Some (VerifyMessages (en_height (k_env k)) (q_active (k_env k) (k_index k) (k_chain k)) ms)) by by rewrite Hbd.
    destruct (verifier_around _ _ _ _ _ _ _ _ _ vs' _ Hd Hl Hto Hvs Hop Hst) as (-> & Hend & L2).
    eexists. split; [exact Hend|]. eapply c88_verifies; [done|exact Hst|by apply active_named|exact Hi|exact Hlast| |].
    - apply verifier_heights. pose proof (calls_sorted (system_init dep) txs Hb) as HS.
      change (log sstep (system_init dep) txs ≫= snd) with (history dep txs) in HS. rewrite Hl, fmap_app in HS.
      eapply sorted_sublist; [|exact HS]. apply sublist_inserts_l. cbn [fmap list_fmap]. by constructor.
    - by eapply voted_vouched.
  Qed.
  Lemma c93_operators dep txs v vc o : dep !! v = Some (DVerifier vc) -> valid_vconfig vc ->
    operators_vouched keccak v vc (history dep txs) o ->
    exists vs, sysrun dep txs !! v = Some (CVerifier vs) /\ worker_set_status keccak vs o = Ok Verified.
  Proof.
    intros Hd Hcfg (l1 & k & l2 & vs & vs' & mid & tx & n & meta & workers & Hl & Hto & Hvs & Hbd & Hst & Hn & Hv & Hno).
    assert (Hop : verifier_op (en_height (k_env k)) (q_active (k_env k) (k_index k) (k_chain k)) (k_sender k) (sb_body (k_sub k)) =
      Some (VerifyWorkerSet (en_height (k_env k)) (q_active (k_env k) (k_index k) (k_chain k)) mid o)) by by rewrite Hbd.
    destruct (verifier_around _ _ _ _ _ _ _ _ _ vs' _ Hd Hl Hto Hvs Hop Hst) as (-> & Hend & L2).
    eexists. split; [exact Hend|]. eapply c88_verifies_set; [done|exact Hst|by apply active_named| |].
    - intros h' reg' mid' o' out Hin. apply (elem_of_list_fmap_1 fst) in Hin. rewrite L2 in Hin. cbn [fst] in Hin.
      apply ops_elem in Hin as (k' & Hk' & Hto' & Hop'). destruct (sb_body (k_sub k')) eqn:Eb; try discriminate Hop'.
      cbn [verifier_op] in Hop'. injection Hop' as <- <- <- <-. by eapply Hno.
    - by eapply voted_vouched.
  Qed.
End Live.
