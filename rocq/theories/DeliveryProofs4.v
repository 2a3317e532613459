(** C94: signatures and ends of polls are accepted in the whole system as they
    are by the contract alone: the rewards contract refuses no record. *)
From stdpp Require Import sorting.
From Verif Require Import Base BaseLemmas Text StdModel StdSpec RouterTypes RegistryTypes RegistryProofs OperatorsModel MultisigTypes
  RouterModel GatewayModel GatewaySpec GatewayProofs NexusModel RewardsModel RewardsSpec RewardsProofs RewardsProofs4 RegistryModel VerifierModel VerifierSpec VerifierProofs VerifierProofs5
  MultisigModel MultisigSpec MultisigProofs MultisigProofs2 MultisigProofs3 EncodingModel EncodingSpec ProverModel ProverSpec ProverProofs ProverProofs2 ProverProofs3 ProverProofs4
  SigningModel SigningSpec SigningProofs SigningProofs2
  SystemModel SystemSpec SystemProofs SystemProofs2 SystemProofs3 SystemProofs4 SystemProofs5 SystemProofs6
  DaemonProofs4 DeliverySpec DeliveryProofs DeliveryProofs3.

Section Records.
  Context (keccak : string -> string) (wshash : worker_set -> string)
          (sec1 : string -> option string)
          (crypto : key_type -> string -> string -> string -> option bool).
  Notation sstep := (system_step keccak wshash sec1 crypto).
  Notation sysrun := (sysrun keccak wshash sec1 crypto).
  Notation history := (history keccak wshash sec1 crypto).
  Notation exec_call := (exec_call keccak wshash sec1 crypto).

  Lemma heights_app l1 l2 : RewardsSpec.heights (l1 ++ l2) = RewardsSpec.heights l1 ++ RewardsSpec.heights l2.
  Proof. apply omap_app. Qed.

  (** Records of one contract at one moment. *)
  Lemma records_run i r me g e : valid_rinit i -> en_height e < U64 ->
    forall recs ops st tr,
    Forall (fun x : addr * string * addr => x.1.1 = r) recs ->
    Forall valid_rop ops -> StronglySorted N.le (ri_height i :: RewardsSpec.heights ops) ->
    Forall (fun h => h <= en_height e) (ri_height i :: RewardsSpec.heights ops) ->
    N.of_nat (length ops) + N.of_nat (length recs) < U64 ->
    st !! r = Some (CRewards (rrun i ops)) ->
    exists st' tr', run_subs (exec_call (S g) e me) me st tr ((fun x => plain x.1.1 (BRecord x.1.2 x.2)) <$> recs) = Ok (st', tr') /\
      (forall d, d <> r -> st' !! d = st !! d) /\
      st' !! r = Some (CRewards (rrun i (ops ++ ((fun x => Record_ (en_height e) me x.1.2 x.2) <$> recs)))).
  Proof.
    intros Hi He. induction recs as [|x recs IH]; intros ops st tr Hr Hv Hs Hh Hlen Hst.
    - eexists _, _. split; [done|]. split; [done|]. by rewrite app_nil_r.
    - apply Forall_cons in Hr as [Hx Hr]. cbn [length] in Hlen.
      destruct (record_accepted i ops (en_height e) me x.1.2 x.2 Hi Hv) as [s' Hs'].
      { rewrite app_comm_cons. apply sorted_app; [done|repeat constructor|]. rewrite Forall_forall in Hh. intros y z Hy ->%elem_of_list_singleton. auto. }
      { done. }
      { lia. }
      cbn [fmap list_fmap run_subs]. cbn [SystemModel.exec_call]. unfold receive at 1.
      change (sb_to (plain x.1.1 (BRecord x.1.2 x.2))) with x.1.1. change (sb_body (plain x.1.1 (BRecord x.1.2 x.2))) with (BRecord x.1.2 x.2).
      rewrite Hx, Hst. cbn [rewards_op of_option rbind]. rewrite Hs'. cbn [map_err rbind fst snd settle run_subs].
      change (sb_reply (plain r (BRecord x.1.2 x.2))) with false. cbn [rbind].
      assert (Er : s' = rrun i (ops ++ [Record_ (en_height e) me x.1.2 x.2])).
      { unfold rrun. rewrite run_snoc. unfold exec. unfold rrun in Hs'. by rewrite Hs'. }
      match goal with |- context [run_subs _ _ ?st1 ?tr1 _] =>
        destruct (IH (ops ++ [Record_ (en_height e) me x.1.2 x.2]) st1 tr1) as (st' & tr' & E & H1 & H2) end.
      + done.
      + apply Forall_app. split; [done|]. constructor; [|done]. split; [|done]. intros h [= <-]. done.
      + rewrite heights_app, app_comm_cons. apply sorted_app; [done|repeat constructor|].
        rewrite Forall_forall in Hh. intros y z Hy ->%elem_of_list_singleton. auto.
      + rewrite heights_app, app_comm_cons. apply Forall_app. split; [done|]. constructor; [|done]. done.
      + rewrite app_length. cbn [length]. lia.
      + rewrite chain_eq. by rewrite Er.
      + exists st', tr'. split; [exact E|]. split.
        * intros d Hd. rewrite H1 by done. by rewrite chain_ne by done.
        * rewrite H2, <- app_assoc. done.
  Qed.

  (** The rewards contract in the system. *)
  Context (dep : gmap addr deployed) (txs : list tx) (r : addr) (g0 : addr) (d0 : string) (p0 : rparams) (h0 : N).
  Context (HR : dep !! r = Some (DRewards g0 d0 p0 h0)).
  Notation i := {| ri_gov := g0; ri_denom := d0; ri_params := p0; ri_height := h0 |}.
  Notation H := (history dep txs).
  Notation st := (sysrun dep txs).
  Lemma the_rewards : st !! r = Some (CRewards (rrun i (rewards_ops r H))).
  Proof. pose proof (shape_end keccak wshash sec1 crypto dep txs r) as Hs. rewrite HR in Hs. exact Hs. Qed.

  Lemma history_tx k : k ∈ H -> exists t, t ∈ txs /\ k_env k = tx_env t.
  Proof.
    intros Hk. unfold SystemSpec.history, syslog in Hk. apply elem_of_list_bind in Hk as ([t l] & Hk & Hl). cbn [snd] in Hk.
    apply log_elem in Hl as (o1 & o2 & s' & -> & Hst). apply tx_calls_env in Hst. rewrite Forall_forall in Hst.
    exists t. split; [|by apply Hst]. apply elem_of_app. right. left.
  Qed.
  Lemma reward_height k op : rewards_op (en_height (k_env k)) (k_sender k) (sb_funds (k_sub k)) (sb_body (k_sub k)) = Some op ->
    forall h, rop_height op = Some h -> h = en_height (k_env k).
  Proof. intros Ho h Hh. destruct (sb_body (k_sub k)); cbn [rewards_op] in Ho; try discriminate Ho; injection Ho as <-; cbn in Hh; congruence. Qed.
  Lemma rewards_sublist l : RewardsSpec.heights (rewards_ops r l) `sublist_of` ((fun k => en_height (k_env k)) <$> l).
  Proof.
    unfold rewards_ops, calls_to. induction l as [|k l IH]; [done|]. cbn [omap list_omap fmap list_fmap].
    destruct (bool_decide (k_to k = r)); [|by constructor].
    destruct (rewards_op _ _ _ _) as [op|] eqn:E; [|by constructor]. unfold RewardsSpec.heights in *. cbn [omap list_omap].
    destruct (rop_height op) as [h|] eqn:Eh; [|by constructor]. rewrite (reward_height _ _ E _ Eh). by constructor.
  Qed.
  Lemma rewards_sorted t : in_blocks_from h0 (txs ++ [t]) ->
    StronglySorted N.le (h0 :: RewardsSpec.heights (rewards_ops r H)) /\
    Forall (fun h => h <= en_height (tx_env t)) (h0 :: RewardsSpec.heights (rewards_ops r H)).
  Proof.
    intros [Hb Hf]. unfold in_blocks in Hb. rewrite fmap_app in Hb. apply Forall_app in Hf as [Hf Ht]. apply Forall_inv in Ht.
    assert (Hle : forall k, k ∈ H -> h0 <= en_height (k_env k) /\ en_height (k_env k) <= en_height (tx_env t)).
    { intros k Hk. apply history_tx in Hk as (t' & Ht' & ->). rewrite Forall_forall in Hf. split; [by apply Hf|].
      clear -Hb Ht'. induction txs as [|y l IH]; [by apply elem_of_nil in Ht'|]. cbn [fmap list_fmap app] in Hb.
      apply StronglySorted_inv in Hb as [H1 H2]. apply elem_of_cons in Ht' as [->|Ht']; [|by apply IH].
      rewrite Forall_forall in H2. apply H2. apply elem_of_app. right. left. }
    assert (Hin : forall h, h ∈ RewardsSpec.heights (rewards_ops r H) -> h0 <= h /\ h <= en_height (tx_env t)).
    { intros h Hh. eapply elem_of_submseteq in Hh; [|apply sublist_submseteq, rewards_sublist].
      apply elem_of_list_fmap in Hh as (k & -> & Hk). auto. }
    split.
    - constructor.
      + eapply sorted_sublist; [apply rewards_sublist|]. unfold SystemSpec.history, syslog. apply calls_sorted.
        unfold in_blocks. eapply sorted_sublist; [|exact Hb]. by apply sublist_inserts_r.
      + apply Forall_forall. intros h Hh. by apply Hin.
    - constructor; [lia|]. apply Forall_forall. intros h Hh. by apply Hin.
  Qed.

  (** A call whose only messages are records. *)
  Lemma recording_tx g e a m c' recs data : dep !! a = None -> sb_to m <> r ->
    valid_rinit i -> Forall valid_rop (rewards_ops r H) ->
    in_blocks_from h0 (txs ++ [{| tx_gas := S (S g); tx_env := e; tx_sender := a; tx_sub := m |}]) ->
    N.of_nat (length (rewards_ops r H)) + N.of_nat (length recs) < U64 ->
    Forall (fun x : addr * string * addr => x.1.1 = r) recs ->
    receive keccak wshash sec1 crypto e 0 st a m = Ok (Some c', (fun x => plain x.1.1 (BRecord x.1.2 x.2)) <$> recs, data) ->
    exists st' l, sstep st {| tx_gas := S (S g); tx_env := e; tx_sender := a; tx_sub := m |} = Ok (st', l) /\
      st' !! sb_to m = Some c' /\
      st' !! r = Some (CRewards (rrun i (rewards_ops r H ++ ((fun x => Record_ (en_height e) (sb_to m) x.1.2 x.2) <$> recs)))) /\
      (forall d, d <> sb_to m -> d <> r -> st' !! d = st !! d).
  Proof.
    intros Ha Hne Hi Hv Hb Hlen Hrecs Hr.
    assert (Ha' : st !! a = None).
    { pose proof (shape_end keccak wshash sec1 crypto dep txs a) as Hs. rewrite Ha in Hs. exact Hs. }
    destruct (rewards_sorted _ Hb) as [H1 H2]. cbn [tx_env] in H2.
    assert (He : en_height e < U64).
    { destruct Hb as [_ Hf]. apply Forall_app in Hf as [_ Hf]. apply Forall_inv in Hf. cbn in Hf. lia. }
    unfold system_step. cbn [tx_gas tx_env tx_sender tx_sub]. rewrite bool_decide_true by done. cbn [ensure rbind].
    remember (S g) as g1. cbn [SystemModel.exec_call length]. rewrite Hr. cbn [rbind fst snd settle]. subst g1.
    match goal with |- context [run_subs _ _ ?st1 ?tr1 _] =>
      destruct (records_run i r (sb_to m) g e Hi He recs (rewards_ops r H) st1 tr1 Hrecs Hv H1 H2 Hlen) as (st' & tr' & E & E1 & E2) end.
    { rewrite chain_ne by done. apply the_rewards. }
    match type of E with ?x = _ => match goal with |- context [run_subs ?a1 ?a2 ?a3 ?a4 ?a5] => change (run_subs a1 a2 a3 a4 a5) with x end end.
    rewrite E. cbn [rbind]. exists st', tr'. split; [done|]. split; [|split].
    - rewrite E1 by done. apply chain_eq.
    - exact E2.
    - intros d D1 D2. rewrite E1 by done. by rewrite chain_ne by done.
  Qed.
End Records.
