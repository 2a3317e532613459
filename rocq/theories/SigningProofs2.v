(** C62: what backs a completed proof. *)
From stdpp Require Import sorting.
From Verif Require Import Base BaseLemmas MapLemmas Text StdModel StdSpec StdProofs RegistryTypes RouterTypes
  MultisigTypes OperatorsModel MultisigModel MultisigSpec MultisigProofs MultisigProofs2 MultisigProofs3
  EncodingModel EncodingSpec EncodingProofs4 EncodingProofs5 TextLemmas ProverModel ProverSpec ProverProofs ProverProofs2
  ProverProofs3 ProverProofs4 SigningModel SigningSpec SigningProofs.

Lemma NoDup_omap_inj {A B} (f : A -> option B) l : NoDup l ->
  (forall x y z, x ∈ l -> y ∈ l -> f x = Some z -> f y = Some z -> x = y) -> NoDup (omap f l).
Proof.
  induction l as [|x l IH]; intros Hn Hf; [by constructor|]. apply NoDup_cons in Hn as [Hx Hn].
  change (omap f (x :: l)) with (match f x with Some y => y :: omap f l | None => omap f l end).
  assert (NoDup (omap f l)) as Hl.
  { apply IH; [done|]. intros a b z Ha Hb. apply Hf; by right. }
  destruct (f x) as [y|] eqn:E; [|done]. constructor; [|done].
  intros (x' & Hx' & E')%elem_of_list_omap. destruct Hx. by rewrite (Hf x x' y); [| left|right| |].
Qed.

Section C62.
  Context (keccak : string -> string) (wshash : worker_set -> string)
          (sec1 : string -> option string) (recover : string -> string -> string -> option N)
          (crypto : key_type -> string -> string -> string -> option bool).
  Context (c : pconfig) (me g r : addr) (p : N) (ops : list sop).
  Notation s := (srun keccak wshash sec1 crypto c me g r p ops).
  Notation l := (slog keccak wshash sec1 crypto c me g r p ops).
  Notation wsid := (worker_set_id wshash).

  Lemma session_entry k id bid : session_batch k id = Some bid ->
    exists k1 e k2, k = k1 ++ e :: k2 /\ px_event e.2 = Some (bid, id).
  Proof.
    intros H%last_Some. destruct H as [t Ht].
    assert (bid ∈ omap (fun e : pop * pout => match px_event e.2 with
                       | Some (bid, i) => if i =? id then Some bid else None
                       | None => None
                       end) k) as Hin.
    { rewrite Ht. apply elem_of_app. right. by left. }
    apply elem_of_list_omap in Hin as (e & He & Hb). apply elem_of_list_split in He as (k1 & k2 & ->).
    exists k1, e, k2. split; [done|]. destruct (px_event e.2) as [[b' i]|]; [|done].
    destruct (N.eqb_spec i id) as [E|]; congruence.
  Qed.

  Lemma sets_distinct : distinct_sets wshash l -> MultisigSpec.no_collision wsid (multisig_trace l).*1.
  Proof. intros H a1 w1 a2 w2 H1 H2 Hw. eapply H; eauto. by apply to_hex_inj. Qed.

  (** signatures of the session's members *)
  Lemma signed_fmap (f : addr -> option signature) (m : gmap addr signer) :
    signed ((fun '(a, sg) => (sg, f a)) <$> btree_iter m) =
    omap (fun x => match f x.1 with Some sig => Some (x.2, sig) | None => None end) (btree_iter m).
  Proof.
    unfold signed. generalize (btree_iter m). intros k. induction k as [|[a sg] k IH]; [done|]. rewrite fmap_cons. cbn.
    destruct (f a); cbn; [|done]. by f_equal.
  Qed.

  Lemma omap_sum {A B} (g1 : A -> option B) (h : B -> N) (w : A -> N) l0 :
    (forall x, w x = match g1 x with Some y => h y | None => 0 end) -> lsum h (omap g1 l0) = lsum w l0.
  Proof.
    intros Hw. induction l0 as [|x l0 IH]; [done|]. rewrite lsum_cons, Hw. change (omap g1 (x :: l0)) with (match g1 x with Some y => y :: omap g1 l0 | None => omap g1 l0 end).
    destruct (g1 x); rewrite ?lsum_cons, IH; lia.
  Qed.

  Lemma weight_submitted (ml : list (mop * mout)) id ws :
    NoDup (signed_by ml id) -> (forall a, a ∈ signed_by ml id -> is_Some (ws_signers ws !! a)) ->
    weight_of (signed ((fun '(a, sg) => (sg, submitted ml id a)) <$> btree_iter (ws_signers ws))) =
    lsum (weight_in ws) (signed_by ml id).
  Proof.
    intros Hnd Hsub. rewrite signed_fmap. unfold weight_of.
    rewrite (omap_sum _ _ (fun x => match submitted ml id x.1 with Some _ => sg_weight x.2 | None => 0 end)).
    2: { intros [a sg]. cbn [fst snd]. by destruct (submitted ml id a). }
    rewrite (lsum_btree_iter (fun a sg => match submitted ml id a with Some _ => sg_weight sg | None => 0 end)).
    assert (forall a, is_Some (submitted ml id a) <-> a ∈ signed_by ml id) as HX.
    { intros a. unfold submitted, signed_by. rewrite <- elem_of_dom, dom_list_to_map_L. by rewrite elem_of_list_to_set. }
    rewrite (msum_dom_union _ _ (dom (ws_signers ws))) by done.
    destruct (submseteq_Permutation (signed_by ml id) (elements (dom (ws_signers ws)))) as [rest Hrest].
    { apply NoDup_submseteq; [done|]. intros a Ha. apply elem_of_elements, elem_of_dom. auto. }
    rewrite (lsum_perm _ _ _ Hrest), lsum_app.
    assert (NoDup (signed_by ml id ++ rest)) as Hnd'.
    { rewrite <- Hrest. apply NoDup_elements. }
    rewrite (lsum_ext _ (fun _ => 0) rest).
    2: { intros a Ha. destruct (ws_signers ws !! a); [|done]. destruct (submitted ml id a) eqn:E; [|done].
         apply NoDup_app in Hnd' as (_ & Hno & _). destruct (Hno a); [|done]. apply HX. by eexists. }
    rewrite lsum_const, N.mul_0_l, N.add_0_r. apply lsum_ext. intros a Ha. unfold weight_in.
    destruct (ws_signers ws !! a); [|done]. apply HX in Ha as [? ->]. done.
  Qed.

  Lemma members_signed (ml : list (mop * mout)) id ws digest x : keyed ws ->
    (forall a sig, submitted ml id a = Some sig ->
       exists sg, ws_signers ws !! a = Some sg /\ good_signature crypto sig digest (sg_key sg)) ->
    x ∈ signed ((fun '(a, sg) => (sg, submitted ml id a)) <$> btree_iter (ws_signers ws)) ->
    member_signed crypto ml id ws digest x.
  Proof.
    intros Hk Hs Hx. rewrite signed_fmap in Hx. apply elem_of_list_omap in Hx as ([a sg] & Ha & Hx). cbn [fst snd] in Hx.
    destruct (submitted ml id a) as [sig|] eqn:E; [|done]. injection Hx as <-.
    apply elem_of_btree_iter in Ha. destruct (Hs _ _ E) as (sg' & Hsg & Hg). rewrite Ha in Hsg. injection Hsg as <-.
    unfold member_signed. cbn. by rewrite (Hk _ _ Ha).
  Qed.

  Lemma submitted_good ml id msg ws a sig : MultisigSpec.no_collision wsid ml ->
    started_with wsid (mlog wsid crypto g r p ml) id msg ws ->
    submitted (mlog wsid crypto g r p ml) id a = Some sig ->
    exists sg, ws_signers ws !! a = Some sg /\ good_signature crypto sig msg (sg_key sg).
  Proof.
    intros Hnc Hst Hs. unfold submitted in Hs. apply elem_of_list_to_map_2 in Hs. unfold submissions in Hs.
    apply elem_of_list_omap in Hs as ([op out] & Hin & Hm).
    destruct op as [|h a' i b| | |]; try done. destruct out as [|rw i' a'' sg cm| | |]; try done.
    destruct (N.eqb_spec i id) as [->|]; [|done]. injection Hm as -> ->.
    destruct (c24_valid _ _ _ _ _ _ _ _ _ _ _ Hnc Hin) as (msg' & ws' & sg' & sig' & cc & Hst' & Hsg & _ & Hg & _ & Ho).
    injection Ho as ? ? ? ? ?. subst. destruct (started_unique _ _ _ _ _ _ _ _ _ _ _ Hnc Hst Hst') as [-> ->]. eauto.
  Qed.

  Lemma c62_backed id resp d :
    (forall x, String.length (keccak x) = 32%nat) -> (forall w, String.length (wshash w) = 32%nat) ->
    pc_chain_id c < U256 -> distinct_sets wshash l ->
    system_proof keccak sec1 recover c s id = Ok resp -> pr_status resp = PfCompleted d ->
    exists k1 e k2 cur b0 digest b sel,
      prover_trace l = k1 ++ e :: k2 /\ session_start keccak wshash sec1 c k1 e id cur b0 /\
      msg_digest keccak b0 = Ok digest /\ started_with wsid (multisig_trace l) id digest cur /\
      last_built keccak wshash sec1 c (prover_trace l) (b_id b0) b /\
      (not_rebuilt keccak wshash sec1 c (k1 ++ [e]) k2 (b_id b0) -> b = b0) /\
      b_encoder b = pc_encoder c /\ pr_data resp = b_data b /\ pr_ids resp = b_ids b /\
      Forall (member_signed crypto (multisig_trace l) id cur digest) (signed sel) /\
      NoDup (signed sel) /\ ws_threshold cur <= weight_of (signed sel) /\
      (forall s' x, signed sel = s' ++ [x] -> weight_of s' < ws_threshold cur) /\
      sel.*1 ≡ₚ members cur /\
      (set_ok cur -> fits (b_encoder b) d -> proof_shows keccak sec1 recover b (ws_threshold cur) sel d).
  Proof.
    intros Hk Hw Hc Hd%sets_distinct Hp Hst.
    destruct (sinv_run keccak wshash sec1 crypto c me g r p ops) as [H1 H2 H3 H4 H5 H6].
    unfold system_proof in Hp. rewrite H3 in Hp.
    destruct (c48_get_proof _ _ _ _ _ _ _ _ _ Hk Hw Hc Hp) as (m & bid & b & Hm & Hses & Hlast & He & Hid & Hids & Hdata & Hstat).
    rewrite H4 in Hses, Hlast.
    destruct (session_entry _ _ _ Hses) as (k1 & e & k2 & Hk12 & Hev).
    destruct (H6 _ _ _ _ _ Hk12 Hev) as (cur & b0 & Hb0 & Hstart & digest & Hdg & Hsw).
    rewrite <- H2 in Hsw.
    destruct (c22_completes _ _ _ _ _ _ _ _ _ Hd Hsw) as (Hnd & mu & Hmu & Hq & Hcomp).
    destruct (c24_stored _ _ _ _ _ _ _ _ _ Hd Hsw) as (mu' & Hmu' & Hsig). rewrite Hmu in Hmu'. injection Hmu' as <-.
    unfold sessions_of in Hm. rewrite H1, Hmu in Hm. injection Hm as <-.
    destruct (mu_state mu) as [|ct] eqn:Est; [congruence|].
    destruct Hstat as (sel & d' & Hs' & Hsel & Hshow). rewrite Hst in Hs'. injection Hs' as <-.
    assert (keyed cur) as Hkc.
    { destruct Hstart as ((next & Ha) & _). rewrite <- H4 in Hk12. destruct e as [op out].
      apply log_split in Hk12 as (ops1 & ops2 & s' & _ & <- & _ & _).
      destruct (sets_after_functional _ _ _ _ _ _ _ Ha _ _ (c46_history keccak wshash sec1 c ops1)) as [Hcur _].
      by apply (after_keyed keccak wshash sec1 c ops1). }
    rewrite Hq, Hsig in Hsel. destruct Hsel as [S1 S2 (rest & S3 & _) S4 S5 _].
    assert (forall x, x ∈ signed ((fun '(a, sg) => (sg, submitted (multisig_trace l) id a)) <$> btree_iter (ws_signers cur)) ->
      member_signed crypto (multisig_trace l) id cur digest x) as Hms.
    { intros x. apply members_signed; [done|]. intros a sig Hs. rewrite <- H2 in Hs.
      by apply (submitted_good (multisig_trace l).*1 id digest cur). }
    exists k1, e, k2, cur, b0, digest, b, sel. rewrite H2 in *. split_and!; try done.
    - by subst bid.
    - intros Hn. subst bid. destruct Hstart as (_ & _ & Hb).
      apply (last_built_unique keccak wshash sec1 c (prover_trace l) (b_id b0)); [done|].
      rewrite Hk12, (cons_middle e), app_assoc. by apply last_built_kept.
    - apply Forall_forall. intros x Hx. apply Hms. rewrite S3. apply elem_of_app. by left.
    - assert (NoDup (signed ((fun '(a, sg) => (sg, submitted (multisig_trace l) id a)) <$> btree_iter (ws_signers cur)))) as Hnn.
      { rewrite signed_fmap. apply NoDup_omap_inj; [apply (NoDup_fmap_1 fst), btree_iter_NoDup|].
        intros [a sg] [a' sg'] z Ha Ha' Hz Hz'. cbn [fst snd] in *. apply elem_of_btree_iter in Ha, Ha'.
        destruct (submitted _ id a); [|done]. destruct (submitted _ id a'); [|done]. simplify_eq.
        by rewrite <- (Hkc _ _ Ha), <- (Hkc _ _ Ha'). }
      rewrite S3 in Hnn. by apply NoDup_app in Hnn as [? _].
    - apply S4. rewrite weight_submitted; [|done|].
      + apply Hcomp. eauto.
      + intros a Ha. assert (is_Some (submitted (multisig_trace l) id a)) as [sig Hs].
        { unfold submitted, signed_by in *. rewrite <- elem_of_dom, dom_list_to_map_L. by rewrite elem_of_list_to_set. }
        rewrite <- H2 in Hs. destruct (submitted_good (multisig_trace l).*1 id digest cur a sig) as (sg & Hsg & _); [done| |done|by eexists].
        by rewrite H2.
    - rewrite S1, <- list_fmap_compose. unfold members. transitivity (snd <$> btree_iter (ws_signers cur)).
      + erewrite list_fmap_ext; [reflexivity|]. by intros ? [].
      + apply fmap_Permutation, isort_perm.
    - intros [Ho1 Ho2] Hf. rewrite Hq in Hshow. apply Hshow; [done| |done]. rewrite Hsig.
      apply Forall_fmap, Forall_forall. intros [a sg] Ha. cbn. apply elem_of_btree_iter in Ha.
      eapply Forall_forall in Ho2; [done|]. unfold members. apply elem_of_list_fmap. exists (a, sg).
      split; [done|]. by apply elem_of_map_to_list.
  Qed.
End C62.
