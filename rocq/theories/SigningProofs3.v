(** C62: the proof carries the threshold; batches without a transfer are never made again. *)
From stdpp Require Import sorting.
From Verif Require Import Base BaseLemmas MapLemmas Text StdModel StdSpec StdProofs RegistryTypes RouterTypes
  MultisigTypes OperatorsModel MultisigModel MultisigSpec MultisigProofs MultisigProofs2 MultisigProofs3
  EncodingModel EncodingSpec EncodingProofs4 EncodingProofs5 TextLemmas ProverModel ProverSpec ProverProofs ProverProofs2
  ProverProofs3 ProverProofs4 SigningModel SigningSpec SigningProofs SigningProofs2.

Section C62.
  Context (keccak : string -> string) (wshash : worker_set -> string)
          (sec1 : string -> option string) (recover : string -> string -> string -> option N)
          (crypto : key_type -> string -> string -> string -> option bool).
  Context (c : pconfig) (me g r : addr) (p : N) (ops : list sop).
  Notation s := (srun keccak wshash sec1 crypto c me g r p ops).
  Notation l := (slog keccak wshash sec1 crypto c me g r p ops).
  Notation wsid := (worker_set_id wshash).

  (** converted signatures weigh what the signatures weigh *)
  Lemma converted_weight e digest (sel : list (signer * option signature)) os (w := fun o => match op_sig o with Some _ => op_weight o | None => 0 end) :
    recoverable crypto recover ->
    Forall (fun x => good_signature crypto x.2 digest (sg_key x.1)) (signed sel) ->
    Some <$> os = dest_operator keccak sec1 e <$> ((fun y => (y.1, convert_sig recover e digest y.1 y.2)) <$> sel) ->
    lsum w os = weight_of (signed sel).
  Proof.
    intros Hr. revert os. induction sel as [|[sg sig] sel IH]; intros os Hg Ho; [by destruct os|].
    destruct os as [|o os]; [done|]. rewrite !fmap_cons in Ho. injection Ho as Ho1 Ho2.
    rewrite lsum_cons. unfold dest_operator in Ho1. cbn [fst snd] in Ho1.
    destruct (dest_addr _ _ _ _) as [a|]; [|done]. injection Ho1 as ->. cbn [op_sig op_weight w].
    destruct sig as [sig|].
    - change (signed ((sg, Some sig) :: sel)) with ((sg, sig) :: signed sel) in *. apply Forall_cons in Hg as [[Ht Hg] Hgs]. cbn [fst snd] in *. rewrite (IH _ Hgs Ho2).
      unfold weight_of. rewrite lsum_cons. cbn [fst].
      destruct sig as [b|b|b]; cbn [convert_sig]; try done. cbn in Ht, Hg. rewrite <- Ht in Hg.
      by destruct (Hr _ _ _ Hg) as [? ->].
    - change (signed ((sg, None) :: sel)) with (signed sel) in *. cbn [convert_sig]. by rewrite (IH _ Hg Ho2), N.add_0_l.
  Qed.

  Lemma perm_fmap_some {A B} (f : B -> option A) (os : list A) (sel : list B) : Some <$> os ≡ₚ f <$> sel ->
    exists os', os' ≡ₚ os /\ Some <$> os' = f <$> sel.
  Proof.
    intros H. symmetry in H. apply Permutation_map_inv in H as (os' & H1 & H2). exists os'. split; [by symmetry|].
    by rewrite H1.
  Qed.

  Lemma c62_carries id resp d :
    (forall x, String.length (keccak x) = 32%nat) -> (forall w, String.length (wshash w) = 32%nat) ->
    pc_chain_id c < U256 -> distinct_sets wshash l -> recoverable crypto recover ->
    system_proof keccak sec1 recover c s id = Ok resp -> pr_status resp = PfCompleted d ->
    exists k1 e k2 cur b0 digest,
      prover_trace l = k1 ++ e :: k2 /\ session_start keccak wshash sec1 c k1 e id cur b0 /\
      msg_digest keccak b0 = Ok digest /\ started_with wsid (multisig_trace l) id digest cur /\
      (not_rebuilt keccak wshash sec1 c (k1 ++ [e]) k2 (b_id b0) -> set_ok cur -> fits (pc_encoder c) d ->
       exists x pf os, decode_execute (pc_encoder c) d = Some (x, pf) /\
         decode_data (pc_encoder c) x = Some (data_view (b_data b0)) /\
         decode_proof (pc_encoder c) pf =
           Some (op_addr <$> os, op_weight <$> os, ws_threshold cur, omap (fun o => sig_bytes <$> op_sig o) os) /\
         ws_threshold cur <= proof_weight os /\
         Forall (op_backed keccak sec1 crypto recover (pc_encoder c) (multisig_trace l) id cur digest) os).
  Proof.
    intros Hk Hw Hc Hd Hr Hp Hst.
    destruct (c62_backed _ _ _ _ _ _ _ _ _ _ _ _ _ _ Hk Hw Hc Hd Hp Hst)
      as (k1 & e & k2 & cur & b0 & digest & b & sel & H1 & H2 & H3 & H4 & H5 & H6 & H7 & H8 & H9 & H10 & H11 & H12 & _ & H13 & H14).
    exists k1, e, k2, cur, b0, digest. split_and!; try done. intros Hn Ho Hf. rewrite <- H7 in *.
    destruct (H14 Ho Hf) as (dg & x & pf & os & G1 & G2 & G3 & G4 & G5 & _).
    assert (b = b0) as -> by auto. rewrite H3 in G1. injection G1 as <-.
    exists x, pf, os. split_and!; try done.
    - apply perm_fmap_some in G5 as (os' & Hos & G5). unfold proof_weight.
      rewrite <- (lsum_perm _ _ _ Hos), (converted_weight (b_encoder b0) digest sel); [done|done| |done].
      eapply Forall_impl; [exact H10|]. by intros y (_ & _ & ?).
    - apply Forall_forall. intros o Hin sg' Hsg.
      assert (Some o ∈ dest_operator keccak sec1 (b_encoder b0) <$>
        ((fun y => (y.1, convert_sig recover (b_encoder b0) digest y.1 y.2)) <$> sel)) as Hy.
      { rewrite <- G5. by apply elem_of_list_fmap_1. }
      rewrite <- list_fmap_compose in Hy. apply elem_of_list_fmap in Hy as ([sg sig] & Ho' & Hy).
      cbn [compose fst snd] in Ho'. unfold dest_operator in Ho'. cbn [fst snd] in Ho'.
      destruct (dest_addr _ _ _ _) as [a|] eqn:Ea; [|done]. injection Ho' as ->. cbn [op_sig] in Hsg.
      destruct sig as [sig|]; [|done]. exists sg, sig. split_and!; try done.
      eapply Forall_forall in H10; [exact H10|]. unfold signed. apply elem_of_list_omap. by exists (sg, Some sig).
  Qed.

  Lemma c62_plain id k1 e k2 cur b0 : (forall w, wshash w <> "") ->
    prover_trace l = k1 ++ e :: k2 -> session_start keccak wshash sec1 c k1 e id cur b0 ->
    b_id b0 = batch_id keccak wshash (b_ids b0) None -> plain_history keccak wshash c (prover_trace l) (b_ids b0) ->
    not_rebuilt keccak wshash sec1 c (k1 ++ [e]) k2 (b_id b0).
  Proof.
    intros Hw Hl Hst Hid [He Hh] ka op out kb b -> Hb Hbid.
    assert (announced (k1 ++ [e] ++ ka) (b_id b0)) as Hann.
    { destruct Hst as (_ & (dg & _ & _ & Hev) & _). exists e, id. split; [|done]. apply elem_of_app. right. by left. }
    destruct Hb as (cur' & next & ws & new & ms & _ & Ha & Hb & Hnew & Hcall).
    unfold build_batch in Hb. res_inv. subst.
    destruct (Hh op out new) as (E1 & E2 & E3).
    { rewrite Hl. apply elem_of_app. right. right. apply elem_of_app. right. by left. }
    { destruct Hnew as [[-> _]|[-> _]]; done. }
    assert (m_cc <$> ms = asked op) as Hms.
    { unfold asked. unfold asked in E2. destruct (po_call op) as [ids| |]; [|by destruct Hcall as [-> _]|done]. apply E2. by destruct Hcall. }
    cbn [b_id] in Hbid. rewrite Hms, Hid in Hbid. symmetry in Hbid.
    destruct (batch_id_event_inj _ _ _ _ _ _ Hw He E1 Hbid E3) as [_ Hn].
    destruct new as [w|]; [done|].
    unfold asked in *. destruct (po_call op) as [ids| |]; [|by destruct Hcall as [_ []]|done].
    destruct Hcall as (_ & _ & _ & []). rewrite <- Hbid, <- Hid. by rewrite <- app_assoc.
  Qed.
End C62.
