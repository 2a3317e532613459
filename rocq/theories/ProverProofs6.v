(** C89: when the prover answers with a proof. *)
From stdpp Require Import sorting.
From Verif Require Import Base BaseLemmas MapLemmas Text TextLemmas StdModel StdSpec StdProofs RegistryTypes RouterTypes
  MultisigTypes OperatorsModel MultisigModel EncodingModel EncodingSpec EncodingProofs EncodingProofs2 EncodingProofs3
  EncodingProofs4 ProverModel ProverSpec ProverProofs ProverProofs2 ProverProofs3 ProverProofs4 ProverProofs5 LivenessSpec.

Lemma try_map_total {E A B} (f : A -> res E B) l :
  Forall (fun a => exists b, f a = Ok b) l -> exists bs, try_map f l = Ok bs.
Proof.
  induction 1 as [|a l [b Hb] _ [bs IH]]; [by exists []|]. exists (b :: bs).
  cbn [try_map]. by rewrite Hb, IH.
Qed.

Section C89.
  Context (keccak : string -> string) (wshash : worker_set -> string)
          (sec1 : string -> option string) (recover : string -> string -> string -> option N).
  Local Notation run_ := (prun keccak wshash sec1).
  Local Notation log_ := (plog keccak wshash sec1).

  (** the batch of a session is there, with the configured encoder, and its
      digest could be computed *)
  Lemma announced_batch c ops id bid :
    session_batch (log_ c ops) id = Some bid ->
    pv_sessions (run_ c ops) !! id = Some bid /\
    exists b, pv_batches (run_ c ops) !! bid = Some b /\ b_encoder b = pc_encoder c.
  Proof.
    intros Hs. split; [by rewrite sessions_log|].
    assert (announced (log_ c ops) bid) as Ha.
    { unfold session_batch in Hs. apply last_Some_elem_of in Hs.
      apply elem_of_list_omap in Hs as (e & He & Hev).
      destruct (px_event e.2) as [[bid' i]|] eqn:Hpx; [|done]. destruct (i =? id); [|done].
      injection Hev as ->. exists e, i. done. }
    apply announced_iff in Ha as [b Hb]. exists b. split; [done|].
    destruct (pi_made _ _ _ _ _ _ (pinv_run keccak wshash sec1 c ops) _ _ Hb) as [_ Hm].
    destruct Hm as (ws & ms & Hm & _). unfold build_batch in Hm.
    apply rbind_ok in Hm as (cs & _ & Hm). apply rbind_ok in Hm as (ms' & _ & [= <-]). done.
  Qed.
  Lemma batch_digest c ops bid b :
    pv_batches (run_ c ops) !! bid = Some b -> exists digest, msg_digest keccak b = Ok digest.
  Proof.
    revert bid b. unfold prun.
    apply (run_inv _ (fun s => forall bid b, pv_batches s !! bid = Some b -> exists digest, msg_digest keccak b = Ok digest)).
    - intros bid b H. cbn in H. by rewrite lookup_empty in H.
    - intros s op s' out IH Hstep bid b Hb. apply step_effect in Hstep.
      destruct Hstep as [ws|ws o|ids cur ms b' id out|ids cur ms ws b' id s' out Hc Hcur Hms Hbt Hws Hbb Hst Has
                        |cur ws b' id s' out Hc Hcur Hws Hup Hbb Hst Has]; try (by eapply IH).
      all: destruct Has as (digest & Hd & _); destruct Hst as (? & Hst); cbn in Hst;
        subst s'; cbn in Hb; destruct (decide (b_id b' = bid)) as [<-|Hne];
        [rewrite lookup_insert in Hb; injection Hb as <-; eauto
        |rewrite lookup_insert_ne in Hb by done; by eapply IH].
  Qed.

  Lemma is_ok_iff {E A} (r : res E A) : is_ok r = true <-> exists a, r = Ok a.
  Proof. destruct r; cbn; split; naive_solver. Qed.

  Lemma c89_pending c ops mu m id bid :
    session_batch (log_ c ops) id = Some bid -> mu id = Some m -> mu_state m = MPending ->
    exists r, get_proof keccak sec1 recover c (run_ c ops) mu id = Ok r /\ pr_status r = PfPending.
  Proof.
    intros Hs Hm Hst. destruct (announced_batch _ _ _ _ Hs) as (Hses & b & Hb & He).
    unfold get_proof. rewrite Hses. cbn [of_option rbind]. rewrite Hb. cbn [of_option rbind].
    rewrite bool_decide_eq_true_2 by done. cbn [negb]. rewrite Hm. cbn [of_option rbind]. rewrite Hst.
    cbn. eauto.
  Qed.

  Lemma completed_iff c ops mu m id bid ct :
    session_batch (log_ c ops) id = Some bid -> mu id = Some m -> mu_state m = MCompleted ct ->
    weight_of (signed (mu_signers m)) < U256 ->
    exists b sel, pv_batches (run_ c ops) !! bid = Some b /\ b_encoder b = pc_encoder c /\
      optimize_signers (mu_signers m) (mu_quorum m) = Ok sel /\
      ((exists r d, get_proof keccak sec1 recover c (run_ c ops) mu id = Ok r /\ pr_status r = PfCompleted d) <->
       exists d, encode_execute_data keccak sec1 recover b (mu_quorum m) sel = Ok d).
  Proof.
    intros Hs Hm Hst Hw. destruct (announced_batch _ _ _ _ Hs) as (Hses & b & Hb & He).
    destruct (optimize_total _ (mu_quorum m) Hw) as [sel Hsel]. exists b, sel. split_and!; try done.
    unfold get_proof. rewrite Hses. cbn [of_option rbind]. rewrite Hb. cbn [of_option rbind].
    rewrite bool_decide_eq_true_2 by done. cbn [negb]. rewrite Hm. cbn [of_option rbind]. rewrite Hst.
    rewrite Hsel. cbn [rbind].
    destruct (encode_execute_data keccak sec1 recover b (mu_quorum m) sel) as [d| |]; cbn; naive_solver.
  Qed.

  Lemma signer_operator_abi x : (exists o, signer_operator keccak sec1 Abi x = Ok o) <->
    is_Some (sec1 (pk_bytes (sg_key x.1))).
  Proof.
    unfold signer_operator, evm_address. destruct (sec1 (pk_bytes (sg_key x.1))) as [p|]; cbn; split.
    - eauto.
    - eauto.
    - intros [o [=]].
    - intros [? [=]].
  Qed.

  Lemma c89_abi c ops mu m id bid ct :
    (forall x, String.length (keccak x) = 32%nat) -> pc_encoder c = Abi ->
    session_batch (log_ c ops) id = Some bid -> mu id = Some m -> mu_state m = MCompleted ct ->
    weight_of (signed (mu_signers m)) < U256 ->
    ((exists r d, get_proof keccak sec1 recover c (run_ c ops) mu id = Ok r /\ pr_status r = PfCompleted d) <->
     Forall (fun x => is_Some (sec1 (pk_bytes (sg_key x.1)))) (mu_signers m)).
  Proof.
    intros Hk Henc Hs Hm Hst Hw.
    destruct (completed_iff _ _ _ _ _ _ _ Hs Hm Hst Hw) as (b & sel & Hb & He & Hsel & Hiff).
    rewrite Hiff. clear Hiff. apply optimize_selection, sel_signers in Hsel.
    assert (Forall (fun x => is_Some (sec1 (pk_bytes (sg_key x.1)))) (mu_signers m) <->
            Forall (fun x => is_Some (sec1 (pk_bytes (sg_key x.1)))) sel) as ->.
    { rewrite <- !(Forall_fmap fst (fun sg => is_Some (sec1 (pk_bytes (sg_key sg))))). by rewrite Hsel. }
    unfold encode_execute_data, msg_digest. rewrite He, Henc. cbn [rbind encode_data].
    set (f := fun x : signer * option signature => (x.1, convert_sig recover Abi _ x.1 x.2)).
    assert (Forall (fun x => is_Some (sec1 (pk_bytes (sg_key x.1)))) sel <->
            Forall (fun x => is_Some (sec1 (pk_bytes (sg_key x.1)))) (f <$> sel)) as ->.
    { rewrite Forall_fmap. done. }
    generalize (f <$> sel). intros l. clear -Hk. split.
    - intros (d & H). apply rbind_ok in H as (p & H & _). unfold encode_proof in H.
      apply rbind_ok in H as (o & H & _). unfold proof_operators in H. apply rbind_ok in H as (os & H & _).
      apply try_map_ok in H. induction H as [|x o' l os Hx _ IH]; constructor; [|done].
      apply signer_operator_abi. eauto.
    - intros Hall. destruct (try_map_total (signer_operator keccak sec1 Abi) l) as [os Hos].
      { eapply Forall_impl; [exact Hall|]. intros x Hx. by apply signer_operator_abi. }
      unfold encode_proof, proof_operators. rewrite Hos. cbn [rbind].
      destruct (try_map_total (E:=perror) (fun o => address_token (op_addr o)) (isort operator_leb os)) as [toks Ht].
      { apply Forall_forall. intros o Ho. apply elem_of_isort in Ho. apply try_map_ok in Hos.
        apply elem_of_list_lookup in Ho as [i Hi]. destruct (Forall2_lookup_r _ _ _ _ _ Hos Hi) as (x & _ & Hx).
        unfold signer_operator, evm_address in Hx. destruct (sec1 _) as [pt|]; [|done]. cbn [of_option rbind] in Hx.
        assert (op_addr o = sdrop 12 (keccak pt)) as -> by (by injection Hx as <-).
        unfold address_token. rewrite sdrop_length, Hk. eauto. }
      rewrite Ht. cbn [rbind]. eauto.
  Qed.
  (** *** BCS *)
  Lemma u128_dec n : n < U128 -> u256_to_u128 n = Ok n.
  Proof. intros H. unfold u256_to_u128. by rewrite parse_uint_dec. Qed.

  Lemma uleb_short fuel : forall n, slen (uleb_go fuel n) <= N.of_nat fuel.
  Proof.
    induction fuel as [|f IH]; intros n; [done|]. cbn [uleb_go]. destruct (n <? 128).
    - unfold slen. cbn. lia.
    - specialize (IH (n / 128)). unfold slen in *. cbn [String.length]. lia.
  Qed.
  Lemma bcs_len_total n : n <= BCS_MAX -> exists s, bcs_len n = Some s /\ slen s <= 5.
  Proof. intros H. unfold bcs_len. rewrite (proj2 (N.leb_le _ _) H). exists (uleb n). split; [done|apply uleb_short]. Qed.
  Lemma slen_append a b : slen (a +:+ b) = slen a + slen b.
  Proof. unfold slen. rewrite app_length_str. lia. Qed.
  Lemma bcs_bytes_total b : slen b <= BCS_MAX -> exists s, bcs_bytes b = Some s /\ slen s <= 5 + slen b.
  Proof.
    intros H. unfold bcs_bytes. destruct (bcs_len_total _ H) as (l & -> & Hl). eexists. split; [done|].
    rewrite slen_append. lia.
  Qed.
  Lemma bcs_tuple_total l n :
    Forall (fun o => exists s, o = Some s /\ slen s <= n) l ->
    exists s, bcs_tuple l = Some s /\ slen s <= n * N.of_nat (length l).
  Proof.
    induction 1 as [|o l (s & -> & Hs) _ (r & Hr & IH)]; [exists ""; split; [done|unfold slen; cbn; lia]|].
    cbn [bcs_tuple length]. rewrite Hr. eexists. split; [done|]. rewrite slen_append. lia.
  Qed.
  Lemma bcs_seq_total {A} (f : A -> option string) l n :
    N.of_nat (length l) <= BCS_MAX ->
    Forall (fun a => exists s, f a = Some s /\ slen s <= n) l ->
    exists s, bcs_seq f l = Some s /\ slen s <= 5 + n * N.of_nat (length l).
  Proof.
    intros Hl Hf. unfold bcs_seq. destruct (bcs_len_total _ Hl) as (h & -> & Hh). cbn [bcs_tuple].
    destruct (bcs_tuple_total (f <$> l) n) as (r & -> & Hr); [by rewrite Forall_fmap|].
    eexists. split; [done|]. rewrite slen_append. rewrite fmap_length in Hr. lia.
  Qed.

  Lemma weights_total {A} (f : A -> N) (l : list A) :
    Forall (fun o => f o < U128) l -> try_map (fun o => u256_to_u128 (f o)) l = Ok (f <$> l).
  Proof.
    induction 1 as [|a l Ha _ IH]; [done|]. cbn [try_map fmap list_fmap]. rewrite u128_dec by done. by rewrite IH.
  Qed.

  Lemma proof_sigs_length os : (length (proof_sigs os) <= length os)%nat.
  Proof. unfold proof_sigs. induction os as [|o os IH]; cbn; [lia|]. destruct (op_sig o); cbn; lia. Qed.

  Lemma c89_bcs c ops mu m id bid ct :
    pc_encoder c = Bcs ->
    session_batch (log_ c ops) id = Some bid -> mu id = Some m -> mu_state m = MCompleted ct ->
    weight_of (signed (mu_signers m)) < U256 ->
    mu_quorum m < U128 -> Forall (fun x => sg_weight x.1 < U128) (mu_signers m) ->
    N.of_nat (length (mu_signers m)) <= 2 ^ 20 ->
    Forall (fun x => slen (pk_bytes (sg_key x.1)) <= 65 /\
                     forall sig, x.2 = Some sig -> slen (sig_bytes sig) <= 65) (mu_signers m) ->
    (forall r e, get_proof keccak sec1 recover c (run_ c ops) (fun _ => Some {| mu_state := MPending;
        mu_quorum := 0; mu_signers := [] |}) id = Ok r -> bcs_encode (pr_data r) = Ok e -> slen e <= BCS_MAX) ->
    exists r d, get_proof keccak sec1 recover c (run_ c ops) mu id = Ok r /\ pr_status r = PfCompleted d.
  Proof.
    intros Henc Hs Hm Hst Hw Hq Hws Hn Hsz Hdata.
    destruct (completed_iff _ _ _ _ _ _ _ Hs Hm Hst Hw) as (b & sel & Hb & He & Hsel & Hiff).
    apply Hiff. clear Hiff.
    destruct (batch_digest _ _ _ _ Hb) as [digest Hd]. pose proof He as Henc'. rewrite Henc in He.
    pose proof Hd as Hd'. unfold msg_digest in Hd'. rewrite He in Hd'. apply rbind_ok in Hd' as (e & Hde & _).
    assert (slen e <= BCS_MAX) as Hle.
    { apply (Hdata {| pr_session := id; pr_ids := b_ids b; pr_data := b_data b; pr_status := PfPending |} e); [|exact Hde]. destruct (announced_batch _ _ _ _ Hs) as (Hses & b' & Hb' & He').
      unfold get_proof. rewrite Hses. cbn [of_option rbind]. rewrite Hb. cbn [of_option rbind].
      rewrite bool_decide_eq_true_2 by done. reflexivity. }
    unfold encode_execute_data. rewrite Hd. cbn [rbind]. rewrite He. cbn [encode_data]. rewrite Hde. cbn [rbind].
    pose proof (optimize_selection _ _ _ Hsel) as Hsl.
    set (f := fun x : signer * option signature => (x.1, convert_sig recover Bcs digest x.1 x.2)).
    assert (forall sg sig, (sg, Some sig) ∈ sel -> slen (sig_bytes sig) <= 65) as Hold.
    { intros sg0 sig0 Hin. destruct (sel_kept _ _ _ Hsl) as (rest & Hperm & _).
      assert ((sg0, sig0) ∈ signed (mu_signers m)) as Hin'.
      { rewrite Hperm. apply elem_of_app. left. unfold signed. apply elem_of_list_omap.
        exists (sg0, Some sig0). done. }
      unfold signed in Hin'. apply elem_of_list_omap in Hin' as ([sg1 [sig1|]] & Hin1 & Heq); [|done].
      injection Heq as -> ->. rewrite Forall_forall in Hsz. by eapply (Hsz _ Hin1). }
    assert (Forall (fun x => sg_weight x.1 < U128 /\ slen (pk_bytes (sg_key x.1)) <= 65 /\
              forall sig, x.2 = Some sig -> slen (sig_bytes sig) <= 66) (f <$> sel)) as Hall.
    { rewrite Forall_fmap. apply Forall_forall. intros x Hx. unfold f. cbn [compose fst snd].
      assert (x.1 ∈ (mu_signers m).*1) as Hx1.
      { rewrite <- (sel_signers _ _ _ Hsl). by apply elem_of_list_fmap_1. }
      apply elem_of_list_fmap in Hx1 as (y & Hxy & Hy). rewrite Forall_forall in Hws, Hsz.
      specialize (Hws _ Hy). specialize (Hsz _ Hy) as [Hk _]. rewrite Hxy. split_and!; [done|done|].
      intros sig Hsig. destruct x as [sg [s|]]; cbn in Hsig; [|done]. specialize (Hold _ _ Hx).
      destruct s as [bs|bs|bs]; cbn in Hsig, Hold.
      - destruct (recover digest _ bs); [|done]. injection Hsig as <-. cbn. rewrite slen_append.
        unfold slen at 2. cbn. lia.
      - injection Hsig as <-. cbn. lia.
      - injection Hsig as <-. cbn. lia. }
    assert (N.of_nat (length (f <$> sel)) <= 2 ^ 20) as Hlen.
    { rewrite fmap_length. pose proof (sel_signers _ _ _ Hsl) as Hp. apply Permutation_length in Hp.
      rewrite !fmap_length in Hp. lia. }
    revert Hall Hlen. generalize (f <$> sel) as l. intros l Hall Hlen.
    unfold encode_proof, proof_operators.
    destruct (try_map_total (signer_operator keccak sec1 Bcs) l) as [os Hos].
    { apply Forall_forall. intros x _. unfold signer_operator. cbn. eauto. }
    rewrite Hos. cbn [rbind]. apply try_map_ok in Hos. set (ops' := isort operator_leb os).
    assert (Forall (fun o => op_weight o < U128 /\ slen (op_addr o) <= 65 /\
              forall sig, op_sig o = Some sig -> slen (sig_bytes sig) <= 66) ops') as Hops.
    { apply Forall_forall. intros o Ho. apply elem_of_isort in Ho.
      apply elem_of_list_lookup in Ho as [i Hi]. destruct (Forall2_lookup_r _ _ _ _ _ Hos Hi) as (x & Hxi & Hx).
      unfold signer_operator in Hx. cbn in Hx. injection Hx as <-. cbn.
      apply elem_of_list_lookup_2 in Hxi. rewrite Forall_forall in Hall. by apply Hall. }
    assert (N.of_nat (length ops') <= 2 ^ 20) as Hlo.
    { unfold ops'. rewrite (Permutation_length (isort_perm operator_leb os)). apply Forall2_length in Hos. lia. }
    rewrite (weights_total op_weight ops') by (eapply Forall_impl; [exact Hops|]; by intros ? [? _]).
    cbn [rbind]. rewrite u128_dec by done. cbn [rbind].
    assert (BCS_MAX = 2147483647) as HM by done. change (2 ^ 20) with 1048576 in *.
    destruct (bcs_seq_total bcs_bytes (op_addr <$> ops') 70) as (s1 & Hs1 & Hl1).
    { rewrite fmap_length. lia. }
    { rewrite Forall_fmap. eapply Forall_impl; [exact Hops|]. intros o (_ & Ho & _). cbn.
      destruct (bcs_bytes_total (op_addr o)) as (s & Hs' & Hl); [lia|]. exists s. split; [done|lia]. }
    destruct (bcs_seq_total (fun w => Some (le_bytes 16 w)) (op_weight <$> ops') 16) as (s2 & Hs2 & Hl2).
    { rewrite fmap_length. lia. }
    { apply Forall_forall. intros w _. eexists. split; [done|]. unfold slen. rewrite le_bytes_length. done. }
    destruct (bcs_seq_total bcs_bytes (proof_sigs ops') 71) as (s3 & Hs3 & Hl3).
    { pose proof (proof_sigs_length ops'). lia. }
    { apply Forall_forall. intros b' Hb'. unfold proof_sigs in Hb'.
      apply elem_of_list_omap in Hb' as (o & Ho & Hb').
      rewrite Forall_forall in Hops. destruct (Hops _ Ho) as (_ & _ & Hsig).
      destruct (op_sig o) as [sg|]; [|done]. cbn in Hb'. injection Hb' as <-.
      specialize (Hsig _ eq_refl). destruct (bcs_bytes_total (sig_bytes sg)) as (s & Hs' & Hl); [lia|].
      exists s. split; [done|lia]. }
    rewrite Hs1, Hs2, Hs3. cbn [bcs_tuple of_option rbind].
    set (p := s1 +:+ _).
    assert (slen p <= BCS_MAX) as Hp.
    { unfold p. rewrite !slen_append. 
      assert (slen (le_bytes 16 (mu_quorum m)) = 16) as -> by (unfold slen; by rewrite le_bytes_length).
      assert (slen "" = 0) as -> by done.
      pose proof (fmap_length op_weight ops') as L1. pose proof (fmap_length op_addr ops') as L2.
      pose proof (proof_sigs_length ops'). lia. }
    destruct (bcs_bytes_total _ Hle) as (x & -> & _). destruct (bcs_bytes_total _ Hp) as (y & -> & _).
    cbn [of_option]. eauto.
  Qed.

  (** *** One key stops all *)
  Lemma abi_list_decodes ws l a sg :
    abi_operator_list keccak sec1 ws = Ok l -> ws_signers ws !! a = Some sg ->
    is_Some (sec1 (pk_bytes (sg_key sg))).
  Proof.
    intros H Ha. unfold abi_operator_list in H. apply try_map_ok in H.
    assert (sg ∈ signers_of ws) as Hin.
    { unfold signers_of. apply elem_of_list_fmap. exists (a, sg). split; [done|]. by apply elem_of_btree_iter. }
    apply elem_of_list_lookup in Hin as [i Hi]. destruct (Forall2_lookup_l _ _ _ _ _ H Hi) as (y & _ & Hy).
    unfold evm_address_expect, evm_address in Hy. destruct (sec1 _); [eauto|done].
  Qed.

  Lemma build_decodes c ws ms b a sg :
    pc_encoder c = Abi -> ws_signers ws !! a = Some sg ->
    build_batch keccak wshash sec1 (pc_chain_id c) (pc_encoder c) (Some ws) ms = Ok b ->
    is_Some (sec1 (pk_bytes (sg_key sg))).
  Proof.
    intros He Ha H. rewrite He in H. unfold build_batch, make_transfer, abi_transfer_params in H.
    apply rbind_ok in H as (cs & H & _). apply rbind_ok in H as (cm & H & _).
    apply rbind_ok in H as (pa & H & _). apply rbind_ok in H as (l & H & _).
    by eapply abi_list_decodes.
  Qed.

  Lemma c89_bad_key c ops op cur next ws a sg :
    pc_encoder c = Abi ->
    sets_after keccak wshash sec1 c (log_ c ops) (Some cur) next ->
    is_active_set c (po_env op) ws -> pc_diff c < differing ws cur ->
    ws_signers ws !! a = Some sg -> sec1 (pk_bytes (sg_key sg)) = None ->
    may_propose keccak wshash (log_ c ops) (po_call op) ->
    is_ok (prover_step keccak wshash sec1 c (run_ c ops) op) = false.
  Proof.
    intros Henc Hsets Hact Hdiff Ha Hbad Hmay.
    destruct (prover_step keccak wshash sec1 c (run_ c ops) op) as [[s' out]| |] eqn:Hstep; [|done..].
    exfalso. destruct (sets_after_functional _ _ _ _ _ _ _ Hsets _ _ (c46_history keccak wshash sec1 c ops)) as [Hc _].
    pose proof (after_keyed keccak wshash sec1 c ops _ Hc) as Hkc.
    apply step_effect in Hstep.
    destruct Hstep as [w Hcall Hcur Hws|w o Hcall|ids cur' ms b id out Hcall Hcur Hms Hbt Has
                      |ids cur' ms w b id s' out Hcall Hcur Hms Hbt Hws Hbb Hst Has
                      |cur' w b id s' out Hcall Hcur Hws Hup Hbb Hst Has].
    - congruence.
    - rewrite Hcall in Hmay. done.
    - rewrite Hcall in Hmay. cbn in Hmay. apply Hmay, announced_iff. eauto.
    - pose proof (make_worker_set_active _ _ _ Hws) as Hact'.
      rewrite (active_set_unique _ _ _ _ Hact' Hact) in *.
      assert (proposed c ws cur' = Some ws) as Hp.
      { unfold proposed. rewrite Hc in Hcur. injection Hcur as <-.
        apply should_update_iff in Hdiff; [by rewrite Hdiff|by eapply active_keyed|done]. }
      rewrite Hp in Hbb. eapply build_decodes in Hbb as [p Hp']; [|done|done]. congruence.
    - pose proof (make_worker_set_active _ _ _ Hws) as Hact'.
      rewrite (active_set_unique _ _ _ _ Hact' Hact) in *.
      eapply build_decodes in Hbb as [p Hp']; [|done|done]. congruence.
  Qed.

  Lemma c89_no_key c ops op workers w :
    pe_active (po_env op) (pc_registry c) (pc_service c) (pc_chain c) = Some workers -> w ∈ workers ->
    pe_key (po_env op) (pc_multisig c) (w_addr w) (pc_key_type c) = None ->
    may_propose keccak wshash (log_ c ops) (po_call op) ->
    is_ok (prover_step keccak wshash sec1 c (run_ c ops) op) = false.
  Proof.
    intros Hact Hw Hkey Hmay.
    assert (forall ws, make_worker_set c (po_env op) <> Ok ws) as Hno.
    { intros ws Hws. apply make_worker_set_active in Hws as (wk & Hwk & _ & _ & Hd & Hs & _).
      rewrite Hact in Hwk. injection Hwk as <-.
      destruct (proj2 (Hd (w_addr w))) as [sg Hsg]; [by apply elem_of_list_fmap_1|].
      destruct (Hs _ _ Hsg) as (_ & _ & Hk). congruence. }
    destruct (prover_step keccak wshash sec1 c (run_ c ops) op) as [[s' out]| |] eqn:Hstep; [|done..].
    exfalso. apply step_effect in Hstep.
    destruct Hstep as [ws Hcall Hcur Hws|ws o Hcall|ids cur' ms b id out Hcall Hcur Hms Hbt Has
                      |ids cur' ms ws b id s' out Hcall Hcur Hms Hbt Hws Hbb Hst Has
                      |cur' ws b id s' out Hcall Hcur Hws Hup Hbb Hst Has]; try (by eapply Hno).
    - rewrite Hcall in Hmay. done.
    - rewrite Hcall in Hmay. cbn in Hmay. apply Hmay, announced_iff. eauto.
  Qed.
End C89.
