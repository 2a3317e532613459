(** C94: which signatures are accepted, and when they make a proof. *)
From stdpp Require Import sorting.
From Verif Require Import Base BaseLemmas MapLemmas Text TextLemmas StdModel StdSpec StdProofs RouterTypes RegistryTypes RegistryProofs OperatorsModel MultisigTypes
  RouterModel GatewayModel GatewaySpec GatewayProofs NexusModel RewardsModel RewardsSpec RewardsProofs RewardsProofs4 RegistryModel VerifierModel VerifierSpec VerifierProofs VerifierProofs5
  MultisigModel MultisigSpec MultisigProofs MultisigProofs2 MultisigProofs3 EncodingModel EncodingSpec ProverModel ProverSpec ProverProofs ProverProofs2 ProverProofs3 ProverProofs4 ProverProofs6
  SigningModel SigningSpec SigningProofs SigningProofs2
  SystemModel SystemSpec SystemProofs SystemProofs2 SystemProofs3 SystemProofs4 SystemProofs5 SystemProofs6
  DaemonProofs4 DeliverySpec DeliveryProofs DeliveryProofs3 DeliveryProofs4.

Section Signatures.
  Context (keccak : string -> string) (wshash : worker_set -> string)
          (sec1 : string -> option string)
          (crypto : key_type -> string -> string -> string -> option bool).
  Notation sstep := (system_step keccak wshash sec1 crypto).
  Notation sysrun := (sysrun keccak wshash sec1 crypto).
  Notation history := (history keccak wshash sec1 crypto).
  Context (dep : gmap addr deployed) (txs : list tx) (r : addr) (g0 : addr) (d0 : string) (p0 : rparams) (h0 : N).
  Context (HR : dep !! r = Some (DRewards g0 d0 p0 h0)).
  Notation i := {| ri_gov := g0; ri_denom := d0; ri_params := p0; ri_height := h0 |}.
  Notation H := (history dep txs).
  Notation st := (sysrun dep txs).
  Notation wsid := (worker_set_id wshash).

  Section OneMultisig.
    Context (M gm : addr) (nn : N) (HM : dep !! M = Some (DMultisig gm r nn)).
    Notation mops := (multisig_ops M H).
    Notation mrun := (mrun wsid crypto gm r nn).
    Notation mlog := (mlog wsid crypto gm r nn).
    Lemma a_multisig : st !! M = Some (CMultisig (mrun mops)).
    Proof. pose proof (shape_end keccak wshash sec1 crypto dep txs M) as Hs. rewrite HM in Hs. exact Hs. Qed.
    Lemma all_accepted : (mlog mops).*1 = mops.
    Proof.
      eapply (each_multisig keccak wshash sec1 crypto (system_init dep)); [apply history_steps|].
      etrans; [apply lookup_fmap|]. by rewrite HM.
    Qed.

    Lemma submitters_signed id : signed_by (mlog mops) id = submitters M H id.
    Proof.
      assert (E : forall l, Forall (fun x : mop * mout => match x.1 with SubmitSignature _ _ _ _ => exists a b c d e, x.2 = OutSigned a b c d e | _ => True end) l ->
        signed_by l id = omap (fun op => match op with SubmitSignature _ a j _ => if j =? id then Some a else None | _ => None end) l.*1).
      { induction 1 as [|[op out] l Hx _ IH]; [done|]. unfold signed_by, submissions in *. cbn [fst snd] in Hx.
        cbn [omap list_omap fmap list_fmap fst]. destruct op as [|h a j b| | |]; try exact IH.
        destruct Hx as (? & ? & ? & ? & ? & ->). destruct (j =? id); cbn [fmap list_fmap fst]; by rewrite IH. }
      rewrite E.
      - rewrite all_accepted. unfold multisig_ops, calls_to, submitters. generalize H. intros l. induction l as [|k l IH]; [done|].
        cbn [omap list_omap]. destruct (bool_decide (k_to k = M)); [|exact IH].
        destruct (sb_body (k_sub k)); cbn [multisig_op]; try exact IH.
        all: cbn [omap list_omap]; try exact IH. destruct (id0 =? id); by rewrite IH.
      - apply Forall_forall. intros [op out] Hin. cbn [fst snd]. destruct op as [|h a j b| | |]; try done.
        unfold MultisigSpec.mlog in Hin. apply log_elem in Hin as (o1 & o2 & s' & _ & Hs). cbn [multisig_step] in Hs.
        apply submit_ok in Hs as (ss & ws & sg & sig & _ & _ & _ & _ & _ & _ & _ & _ & _ & _ & ->). eauto 6.
    Qed.

    Notation tx_sign g e w id bytes := {| tx_gas := S (S g); tx_env := e; tx_sender := w; tx_sub := plain M (BSubmitSignature id bytes) |}.
    Lemma sign_tx g e w id bytes : dep !! w = None ->
      valid_rinit i -> Forall valid_rop (rewards_ops r H) -> in_blocks_from h0 (txs ++ [tx_sign g e w id bytes]) ->
      N.of_nat (length (rewards_ops r H)) + 1 < U64 ->
      (is_ok (sstep st (tx_sign g e w id bytes)) = true <-> is_ok (submit_signature crypto (mrun mops) (en_height e) w id bytes) = true) /\
      (forall s' out, submit_signature crypto (mrun mops) (en_height e) w id bytes = Ok (s', out) ->
       exists st' l, sstep st (tx_sign g e w id bytes) = Ok (st', l) /\ st' !! M = Some (CMultisig s') /\
         st' !! r = Some (CRewards (rrun i (rewards_ops r H ++ [Record_ (en_height e) M (dec id) w]))) /\
         (forall d, d <> M -> d <> r -> st' !! d = st !! d)).
    Proof.
      intros Hw Hi Hv Hb Hlen.
      assert (Hne : M <> r) by (intros E; rewrite E, HR in HM; discriminate HM).
      assert (Hsome : forall s' out, submit_signature crypto (mrun mops) (en_height e) w id bytes = Ok (s', out) ->
       exists st' l, sstep st (tx_sign g e w id bytes) = Ok (st', l) /\ st' !! M = Some (CMultisig s') /\
         st' !! r = Some (CRewards (rrun i (rewards_ops r H ++ [Record_ (en_height e) M (dec id) w]))) /\
         (forall d, d <> M -> d <> r -> st' !! d = st !! d)).
      { intros s' out Hs. pose proof Hs as Hs'.
        apply submit_ok in Hs as (ss & ws & sg & sig & _ & _ & _ & _ & _ & _ & _ & _ & _ & _ & Eo).
        assert (Er : m_rewards (mrun mops) = r) by (destruct (inv1_run wsid crypto gm r nn mops) as (_ & E & _); done).
        destruct (recording_tx keccak wshash sec1 crypto dep txs r g0 d0 p0 h0 HR g e w (plain M (BSubmitSignature id bytes))
          (CMultisig s') [(r, dec id, w)] (multisig_data out) Hw Hne Hi Hv Hb) as (st' & l & E1 & E2 & E3 & E4).
        - cbn [length]. lia.
        - by constructor.
        - unfold receive. change (sb_to (plain M (BSubmitSignature id bytes))) with M.
          change (sb_body (plain M (BSubmitSignature id bytes))) with (BSubmitSignature id bytes). rewrite a_multisig.
          cbn [multisig_op of_option rbind multisig_step]. rewrite Hs'. cbn [map_err rbind]. rewrite Eo. cbn [multisig_subs fst snd multisig_data fmap list_fmap].
          by rewrite Er.
        - exists st', l. split; [done|]. split; [done|]. split; [exact E3|]. exact E4. }
      split; [|done]. split.
      - intros Hok. destruct (submit_signature crypto (mrun mops) (en_height e) w id bytes) as [[s' out]| |] eqn:Es; [done| |].
        all: exfalso; unfold system_step in Hok; cbn [tx_gas tx_env tx_sender tx_sub] in Hok.
        all: destruct (ensure _ _) as [[]| |]; cbn [rbind is_ok] in Hok; try discriminate Hok.
        all: remember (S g) as g1; cbn [exec_call] in Hok; unfold receive in Hok; change (sb_to (plain M (BSubmitSignature id bytes))) with M in Hok;
          change (sb_body (plain M (BSubmitSignature id bytes))) with (BSubmitSignature id bytes) in Hok;
          rewrite a_multisig in Hok; cbn [multisig_op of_option rbind multisig_step] in Hok; rewrite Es in Hok; cbn [map_err rbind is_ok] in Hok; discriminate Hok.
      - intros Hok. destruct (submit_signature crypto (mrun mops) (en_height e) w id bytes) as [[s' out]| |] eqn:Es; try discriminate Hok.
        destruct (Hsome _ _ eq_refl) as (st' & l & -> & _). done.
    Qed.

    Lemma apart_no_collision : hashes_apart wshash M H -> MultisigSpec.no_collision wsid mops.
    Proof.
      intros Ha a ws a' ws' H1 H2 E. apply ops_elem in H1 as (k & Hk & Ht & Ho). apply ops_elem in H2 as (k' & Hk' & Ht' & Ho').
      destruct (sb_body (k_sub k)) eqn:Eb; try discriminate Ho. cbn in Ho. injection Ho as _ ->.
      destruct (sb_body (k_sub k')) eqn:Eb'; try discriminate Ho'. cbn in Ho'. injection Ho' as _ ->.
      eapply (Ha k k'); try done. by apply to_hex_inj.
    Qed.
    Lemma total_weight ws : msum (fun a _ => weight_in ws a) (ws_signers ws) = lsum sg_weight (members ws).
    Proof.
      transitivity (msum (fun _ sg => sg_weight sg) (ws_signers ws)).
      - apply msum_ext. intros a sg Ha. unfold weight_in. by rewrite Ha.
      - rewrite msum_map_to_list. unfold members. rewrite lsum_fmap. done.
    Qed.

    Lemma c94_signature g e w id bytes msg ws : dep !! w = None ->
      valid_rinit i -> Forall valid_rop (rewards_ops r H) -> in_blocks_from h0 (txs ++ [tx_sign g e w id bytes]) ->
      N.of_nat (length (rewards_ops r H)) + 1 < U64 ->
      hashes_apart wshash M H -> started_with wsid (mlog mops) id msg ws -> lsum sg_weight (members ws) < U256 ->
      exists mu, get_multisig (mrun mops) id = Ok mu /\
      (is_ok (sstep st (tx_sign g e w id bytes)) = true <->
       (exists sg sig, ws_signers ws !! w = Some sg /\ signature_try_from (pk_type (sg_key sg)) bytes = Some sig /\
          good_signature crypto sig msg (sg_key sg)) /\
       w ∉ submitters M H id /\
       (forall c, mu_state mu = MCompleted c -> c + nn < U64 /\ en_height e <= c + nn)).
    Proof.
      intros Hw Hi Hv Hb Hlen Ha Hst Htot. pose proof (apart_no_collision Ha) as Hnc.
      destruct (c22_completes _ _ _ _ _ _ _ _ _ Hnc Hst) as (_ & mu & Hmu & _). exists mu. split; [done|].
      rewrite (proj1 (sign_tx g e w id bytes Hw Hi Hv Hb Hlen)), <- submitters_signed.
      apply (c25_accepted wsid crypto gm r nn mops id msg ws mu _ _ _ Hnc Hst Hmu). by rewrite total_weight.
    Qed.
  End OneMultisig.
End Signatures.

Section Completion.
  Context (keccak : string -> string) (wshash : worker_set -> string)
          (sec1 : string -> option string) (recover : string -> string -> string -> option N)
          (crypto : key_type -> string -> string -> string -> option bool).
  Notation sysrun := (sysrun keccak wshash sec1 crypto).
  Notation history := (history keccak wshash sec1 crypto).
  Context (dep : gmap addr deployed) (txs : list tx) (P : addr) (c : pconfig) (g r : addr) (n : N).
  Context (HP : dep !! P = Some (DProver c)) (HM : dep !! pc_multisig c = Some (DMultisig g r n)).
  Notation sops := (signing_ops keccak P c).
  Notation srun := (srun keccak wshash sec1 crypto c P g r n).
  Notation slog := (slog keccak wshash sec1 crypto c P g r n).
  Notation H := (history dep txs).
  Notation st := (sysrun dep txs).
  Notation wsid := (worker_set_id wshash).
  Notation mops := (multisig_ops (pc_multisig c) H).

  Lemma signed_weight_le (l : list (signer * option signature)) : weight_of (signed l) <= lsum (fun x => sg_weight x.1) l.
  Proof.
    induction l as [|[sg [sig|]] l IH]; [done| |]; unfold weight_of, signed in *; cbn [omap list_omap snd fst]; rewrite ?lsum_cons; cbn [fst]; lia.
  Qed.

  (** The session as the multisig keeps it. *)
  Lemma session_state k1 e k2 id cur b s :
    hashes_apart wshash (pc_multisig c) H ->
    prover_trace (slog (sops H)) = k1 ++ e :: k2 -> session_start keccak wshash sec1 c k1 e id cur b ->
    pair_state st P c s ->
    exists bid mu digest, session_batch (plog keccak wshash sec1 c (prover_trace (slog (sops H))).*1) id = Some bid /\
      sy_prover s = prun keccak wshash sec1 c (prover_trace (slog (sops H))).*1 /\
      sessions_of (sy_multisig s) id = Some mu /\ mu_quorum mu = ws_threshold cur /\
      mu_signers mu = (fun '(a, sg) => (sg, submitted (mlog wsid crypto g r n mops) id a)) <$> btree_iter (ws_signers cur) /\
      started_with wsid (mlog wsid crypto g r n mops) id digest cur /\ msg_digest keccak b = Ok digest /\
      ((exists ct, mu_state mu = MCompleted ct) <-> reached cur (submitters (pc_multisig c) H id)).
  Proof.
    intros Ha Hk Hs [Hs1 Hs2].
    destruct (pair_run keccak wshash sec1 crypto dep txs P c g r n HP HM) as [[E1 E2] _].
    assert (Es : s = srun (sops H)).
    { rewrite Hs1 in E1. rewrite Hs2 in E2. destruct s as [sp sm]. destruct (srun (sops H)). cbn in *. injection E1 as ->. by injection E2 as ->. }
    subst s. clear Hs1 Hs2 E1 E2.
    destruct (sinv_run keccak wshash sec1 crypto c P g r n (sops H)) as [H1 H2 H3 H4 H5 H6].
    pose proof (pair_multisig keccak wshash sec1 crypto dep txs P c g r n HP HM) as Hp. rewrite Hp in H1, H2.
    destruct Hs as ((next & Hsets) & (dg & Hd1 & Hd2 & Hd3) & Hb).
    destruct (H6 _ _ _ _ _ Hk Hd3) as (cur' & b' & Hb' & ((next' & Hsets') & (dg' & Hd1' & Hd2' & Hd3') & Hb2) & digest & Hdg & Hsw).
    destruct (sets_after_functional _ _ _ _ _ _ _ Hsets _ _ Hsets') as [[= <-] _].
    rewrite Hd2 in Hd2'. injection Hd2' as <-.
    assert (digest = dg) as -> by congruence.
    assert (Hbid : exists bid, session_batch (prover_trace (slog (sops H))) id = Some bid).
    { unfold session_batch. rewrite Hk, omap_app.
      cbn [omap list_omap]. rewrite Hd3, N.eqb_refl.
      match goal with |- exists bid, last (?l1 ++ ?x :: ?l2) = _ => destruct (last (l1 ++ x :: l2)) eqn:El; [eauto|] end.
      apply last_None in El. by destruct (omap _ k1). }
    destruct Hbid as [bid Hbid]. rewrite <- H2 in Hsw.
    pose proof (apart_no_collision keccak wshash sec1 crypto dep txs (pc_multisig c) Ha) as Hnc.
    destruct (c22_completes _ _ _ _ _ _ _ _ _ Hnc Hsw) as (_ & mu & Hmu & Hq & Hc).
    destruct (c24_stored _ _ _ _ _ _ _ _ _ Hnc Hsw) as (mu' & Hmu' & Hsig). rewrite Hmu in Hmu'. injection Hmu' as <-.
    exists bid, mu, dg. rewrite H4. split; [done|]. split; [done|]. split.
    { unfold sessions_of. by rewrite H1, Hmu. }
    split; [done|]. split; [done|]. split; [done|]. split; [done|].
    rewrite Hc. by rewrite (submitters_signed keccak wshash sec1 crypto dep txs r (pc_multisig c) g n HM).
  Qed.

  Lemma signers_weight_total cur (f : addr -> option signature) :
    weight_of (signed ((fun '(a, sg) => (sg, f a)) <$> btree_iter (ws_signers cur))) <= lsum sg_weight (members cur).
  Proof.
    etrans; [apply signed_weight_le|]. rewrite lsum_fmap.
    rewrite (lsum_ext _ (fun x : addr * signer => sg_weight x.2)); [|by intros []].
    rewrite (lsum_btree_iter (fun _ sg => sg_weight sg)), msum_map_to_list. unfold members. rewrite lsum_fmap. reflexivity.
  Qed.
  Lemma signers_forall cur (f : addr -> option signature) (Q : signer -> Prop) :
    Forall (fun x => Q x.1) ((fun '(a, sg) => (sg, f a)) <$> btree_iter (ws_signers cur)) <-> Forall Q (members cur).
  Proof.
    rewrite Forall_fmap, !Forall_forall. unfold members. split.
    - intros Hx sg ([a sg'] & -> & Hin)%elem_of_list_fmap. cbn. apply elem_of_map_to_list in Hin. apply elem_of_btree_iter in Hin.
      by apply Hx in Hin.
    - intros Hx [a sg] Hin. cbn. apply elem_of_btree_iter in Hin. apply Hx, elem_of_list_fmap. exists (a, sg). split; [done|]. by apply elem_of_map_to_list.
  Qed.

  Lemma c94_pending k1 e k2 id cur b s :
    hashes_apart wshash (pc_multisig c) H ->
    prover_trace (slog (sops H)) = k1 ++ e :: k2 -> session_start keccak wshash sec1 c k1 e id cur b ->
    pair_state st P c s ->
    ~ reached cur (submitters (pc_multisig c) H id) ->
    exists resp, system_proof keccak sec1 recover c s id = Ok resp /\ pr_status resp = PfPending.
  Proof.
    intros Ha Hk Hs Hp Hn. destruct (session_state _ _ _ _ _ _ _ Ha Hk Hs Hp) as (bid & mu & dg & Hb & Hr & Hm & Hq & Hsg & Hst & Hd & Hc).
    destruct (mu_state mu) as [|ct] eqn:Em; [|exfalso; apply Hn, Hc; eauto].
    unfold system_proof. rewrite Hr. eapply c89_pending; eauto.
  Qed.

  Lemma c94_abi k1 e k2 id cur b s :
    (forall x, String.length (keccak x) = 32%nat) -> pc_encoder c = Abi ->
    hashes_apart wshash (pc_multisig c) H ->
    prover_trace (slog (sops H)) = k1 ++ e :: k2 -> session_start keccak wshash sec1 c k1 e id cur b ->
    lsum sg_weight (members cur) < U256 -> pair_state st P c s ->
    (exists resp d, system_proof keccak sec1 recover c s id = Ok resp /\ pr_status resp = PfCompleted d) <->
    reached cur (submitters (pc_multisig c) H id) /\ Forall (fun sg => is_Some (sec1 (pk_bytes (sg_key sg)))) (members cur).
  Proof.
    intros Hkec He Ha Hk Hs Hw Hp. destruct (session_state _ _ _ _ _ _ _ Ha Hk Hs Hp) as (bid & mu & dg & Hb & Hr & Hm & Hq & Hsg & Hst & Hd & Hc).
    unfold system_proof. rewrite Hr. destruct (mu_state mu) as [|ct] eqn:Em.
    - split.
      + intros (resp & d & E1 & E2). destruct (c89_pending keccak wshash sec1 recover c _ _ _ _ _ Hb Hm Em) as (resp' & E3 & E4). congruence.
      + intros [Hre _]. apply Hc in Hre as [ct Hct]. congruence.
    - rewrite (c89_abi keccak wshash sec1 recover c _ _ _ _ _ _ Hkec He Hb Hm Em).
      2: { rewrite Hsg. eapply N.le_lt_trans; [apply signers_weight_total|done]. }
      rewrite Hsg, (signers_forall cur (submitted (mlog wsid crypto g r n mops) id) (fun sg => is_Some (sec1 (pk_bytes (sg_key sg))))). split; [|by intros [_ ?]]. intros Hf. split; [|done]. apply Hc. eauto.
  Qed.

  Lemma c94_bcs k1 e k2 id cur b s :
    pc_encoder c = Bcs ->
    hashes_apart wshash (pc_multisig c) H ->
    prover_trace (slog (sops H)) = k1 ++ e :: k2 -> session_start keccak wshash sec1 c k1 e id cur b ->
    lsum sg_weight (members cur) < U256 -> ws_threshold cur < U128 ->
    Forall (fun sg => sg_weight sg < U128 /\ slen (pk_bytes (sg_key sg)) <= 65) (members cur) ->
    N.of_nat (length (members cur)) <= 2 ^ 20 -> pair_state st P c s ->
    (forall bt enc, pv_batches (sy_prover s) !! b_id bt = Some bt -> bcs_encode (b_data bt) = Ok enc -> slen enc <= BCS_MAX) ->
    reached cur (submitters (pc_multisig c) H id) ->
    exists resp d, system_proof keccak sec1 recover c s id = Ok resp /\ pr_status resp = PfCompleted d.
  Proof.
    intros He Ha Hk Hs Hw Hq128 Hmem Hlen Hp Hsz Hre.
    destruct (session_state _ _ _ _ _ _ _ Ha Hk Hs Hp) as (bid & mu & dg & Hb & Hr & Hm & Hq & Hsg & Hst & Hd & Hc).
    apply Hc in Hre as [ct Hct]. rewrite Hr in Hsz. unfold system_proof. rewrite Hr.
    eapply c89_bcs; [done|exact Hb|exact Hm|exact Hct| | | | | |].
    - rewrite Hsg. eapply N.le_lt_trans; [apply signers_weight_total|done].
    - by rewrite Hq.
    - rewrite Hsg. apply (signers_forall cur _ (fun sg => sg_weight sg < U128)). eapply Forall_impl; [exact Hmem|]. by intros ? [].
    - rewrite Hsg, fmap_length. unfold members in Hlen. rewrite fmap_length in Hlen.
      unfold btree_iter; rewrite (Permutation_length (isort_perm _ (map_to_list (ws_signers cur)))). done.
    - rewrite Hsg. apply Forall_fmap, Forall_forall. intros [a sg] Hin. cbn [fst snd compose].
      apply elem_of_btree_iter in Hin. split.
      + rewrite Forall_forall in Hmem. apply Hmem. unfold members. apply elem_of_list_fmap. exists (a, sg). split; [done|]. by apply elem_of_map_to_list.
      + intros sig Hsub. unfold submitted in Hsub. apply elem_of_list_to_map_2 in Hsub. unfold submissions in Hsub.
        apply elem_of_list_omap in Hsub as ([op out] & Hop & Hx). destruct op as [|h a' j bytes| | |]; try discriminate Hx.
        destruct out as [|? ? ? sg' ?| | |]; try discriminate Hx. destruct (j =? id); [|discriminate Hx]. injection Hx as -> ->.
        unfold MultisigSpec.mlog in Hop. apply log_elem in Hop as (o1 & o2 & s' & _ & Hstep). cbn [multisig_step] in Hstep.
        apply submit_ok in Hstep as (ss & ws & sg1 & sig1 & _ & _ & _ & Htry & _ & _ & _ & _ & _ & _ & [= _ _ _ Hsig _]).
        subst sig. apply signature_try_from_some in Htry as (Hl & _ & ->). unfold slen, sig_length_ok in *. destruct (pk_type _); lia.
    - intros r0 enc Hg Hen. unfold get_proof in Hg. apply rbind_ok in Hg as (bid' & _ & Hg). apply rbind_ok in Hg as (bt & Hbt & Hg).
      apply of_option_ok in Hbt. destruct (negb _); [discriminate Hg|]. cbn in Hg. injection Hg as <-. cbn [pr_data] in Hen.
      eapply (Hsz bt); [|done]. destruct (pi_made _ _ _ _ _ _ (pinv_run keccak wshash sec1 c _) _ _ Hbt) as [-> _]. done.
  Qed.
End Completion.
