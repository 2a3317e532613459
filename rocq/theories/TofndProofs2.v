(** Reading signatures in DER, and what is submitted. *)
From Verif Require Import Base BaseLemmas Text TextLemmas StdModel RouterTypes OperatorsModel MultisigTypes EncodingModel EncodingSpec EncodingProofs EncodingProofs2
  EventsModel HandlersModel HandlersSpec HandlersProofs2 DaemonModel TofndModel TofndSpec TofndProofs.

Lemma ascii_eqb_N c n : n < 256 -> N_of_ascii c = n <-> c = ascii_of_N n.
Proof.
  intros Hn. split; [intros <-; by rewrite ascii_N_embedding|intros ->; by apply N_ascii_embedding].
Qed.
Lemma tagged_cons t b : tagged t b = String (ascii_of_N t) (String (ascii_of_N (N.of_nat (String.length b))) b).
Proof. done. Qed.
Lemma tagged_length t b : String.length (tagged t b) = S (S (String.length b)).
Proof. done. Qed.

Lemma der_uint_iff s n rest :
  der_uint s = Some (n, rest) <-> s = tagged 2 (int_bytes n) +:+ rest /\ (String.length (int_bytes n) < 128)%nat.
Proof.
  rewrite tagged_cons. split.
  - destruct s as [|t [|l r]]; try done. cbn [der_uint]. set (k := N.to_nat (N_of_ascii l)).
    destruct (N.eqb_spec (N_of_ascii t) 2) as [Ht|]; [|done]. destruct (N.ltb_spec (N_of_ascii l) 128) as [Hl|]; [|done].
    destruct (Nat.leb_spec k (String.length r)) as [Hr|]; [|done]. destruct (shortest (stake k r)) eqn:Hs; [|done].
    cbn [andb]. intros [= <- <-]. apply shortest_iff in Hs. rewrite <- Hs. rewrite stake_length by done.
    split; [|unfold k in *; lia]. apply ascii_eqb_N in Ht as ->; [|done]. unfold k at 1. rewrite N2Nat.id, ascii_N_embedding.
    cbn [String.append]. by rewrite stake_drop.
  - intros [-> Hl]. cbn [String.append der_uint]. rewrite !N_ascii_embedding by lia. rewrite Nat2N.id, stake_app, sdrop_app.
    rewrite int_bytes_shortest, int_bytes_val. rewrite app_length_str.
    rewrite (proj2 (N.ltb_lt _ _)) by lia. rewrite (proj2 (Nat.leb_le _ _)) by lia. done.
Qed.

Lemma group_length n : in_group n -> (String.length (int_bytes n) <= 33)%nat.
Proof.
  intros [_ H]. rewrite int_bytes_length. assert (Hn : n < 2 ^ 256) by (eapply N.lt_trans; [exact H|vm_compute; reflexivity]).
  apply size_lt in Hn. assert (N.size n / 8 <= 256 / 8) by (apply N.div_le_mono; lia). change (256 / 8) with 32 in *. lia.
Qed.
Lemma scalar_iff n : scalar n = true <-> in_group n.
Proof. unfold scalar, in_group. rewrite andb_true_iff, !N.ltb_lt, order. done. Qed.

Lemma from_der_iff x y : from_der x = Some y <->
  exists r s, in_group r /\ in_group s /\ x = der_signature r s /\ y = fixed_signature r s.
Proof.
  unfold der_signature, fixed_signature. split.
  - destruct x as [|t [|l body]]; try done. cbn [from_der].
    destruct (N.eqb_spec (N_of_ascii t) 48) as [Ht|]; [|done]. destruct (N.ltb_spec (N_of_ascii l) 128) as [Hl|]; [|done].
    destruct (N.eqb_spec (slen body) (N_of_ascii l)) as [Hb|]; [|done]. cbn [andb].
    destruct (der_uint body) as [[r rest]|] eqn:E1; [|done]. destruct (der_uint rest) as [[v [|]]|] eqn:E2; try done.
    destruct (scalar r) eqn:Hr; [|done]. destruct (scalar v) eqn:Hv; [|done]. cbn [andb]. intros Hy. apply (inj Some) in Hy. subst y.
    apply scalar_iff in Hr, Hv. apply der_uint_iff in E1 as [-> _]. apply der_uint_iff in E2 as [-> _].
    rewrite app_nil_str in *. exists r, v. split; [done|]. split; [done|]. split; [|done].
    rewrite (tagged_cons 48). apply ascii_eqb_N in Ht as ->; [|done]. unfold slen in Hb. rewrite Hb. by rewrite ascii_N_embedding.
  - intros (r & v & Hr & Hv & -> & ->). rewrite (tagged_cons 48). pose proof (group_length _ Hr) as L1. pose proof (group_length _ Hv) as L2.
    set (body := tagged 2 (int_bytes r) +:+ tagged 2 (int_bytes v)).
    assert (Hl : (String.length body <= 70)%nat) by (unfold body; rewrite app_length_str, !tagged_length; lia).
    cbn [from_der]. rewrite !N_ascii_embedding by lia. unfold slen. rewrite !N.eqb_refl.
    rewrite (proj2 (N.ltb_lt _ _)) by lia. cbn [andb].
    assert (E1 : der_uint body = Some (r, tagged 2 (int_bytes v))) by (apply der_uint_iff; split; [done|lia]).
    assert (E2 : der_uint (tagged 2 (int_bytes v)) = Some (v, EmptyString)) by (apply der_uint_iff; rewrite app_nil_str; split; [done|lia]).
    rewrite E1, E2. apply scalar_iff in Hr, Hv. rewrite Hr, Hv. cbn [andb]. reflexivity.
Qed.

Lemma group_bound n : in_group n -> n < 256 ^ N.of_nat 32.
Proof. intros [_ H]. eapply N.lt_trans; [exact H|vm_compute; reflexivity]. Qed.
Lemma fixed_inj r s r' s' : in_group r -> in_group s -> in_group r' -> in_group s' ->
  fixed_signature r s = fixed_signature r' s' -> r = r' /\ s = s'.
Proof.
  intros H1 H2 H3 H4 H. unfold fixed_signature in H. apply app_inj_len_str in H as [Ha Hb]; [|by rewrite !be_bytes_length].
  apply be_bytes_inj in Ha; [|by apply group_bound..]. apply be_bytes_inj in Hb; [|by apply group_bound..]. done.
Qed.
Lemma c110_one x x' y : from_der x = Some y -> from_der x' = Some y -> x = x'.
Proof.
  intros (r & s & H1 & H2 & -> & ->)%from_der_iff (r' & s' & H3 & H4 & -> & He)%from_der_iff.
  by destruct (fixed_inj _ _ _ _ H1 H2 H3 H4 He) as [-> ->].
Qed.
Lemma fixed_length r s : String.length (fixed_signature r s) = 64%nat.
Proof. unfold fixed_signature. by rewrite app_length_str, !be_bytes_length. Qed.

Lemma client_sign_ok ask party key msg pk sig :
  client_sign ask party key msg pk = Ok sig <->
  exists r s, in_group r /\ in_group s /\ sig = fixed_signature r s /\
    ask {| sq_key := key; sq_msg := msg; sq_party := party; sq_pub_key := pk |} = Answer (der_signature r s).
Proof.
  unfold client_sign. split.
  - destruct (ask _) as [| |b|]; try done. intros H%of_option_ok. apply from_der_iff in H as (r & s & H1 & H2 & -> & ->).
    by exists r, s.
  - intros (r & s & H1 & H2 & -> & ->). unfold of_option. by rewrite (proj2 (from_der_iff _ _) (ex_intro _ r (ex_intro _ s (conj H1 (conj H2 (conj eq_refl eq_refl)))))).
Qed.

Lemma c110_submitted read_key ask_keygen ask party acc de_key cfg open ev tx :
  multisig_handler acc de_key cfg open (tf_sign (client read_key ask_keygen ask party)) ev = Ok (Some tx) ->
  exists session l v pk x digest r s,
    has_attr ev "wasm-signing_started" "session_id" (JNum session) /\
    has_attr ev "wasm-signing_started" "pub_keys" (JObj l) /\ (hc_worker cfg, v) ∈ l /\ de_key v = Some pk /\
    has_attr ev "wasm-signing_started" "msg" (JStr x) /\ of_hex x = Some digest /\
    ask {| sq_key := hc_contract cfg; sq_msg := digest; sq_party := party; sq_pub_key := pk |} = Answer (der_signature r s) /\
    in_group r /\ in_group s /\
    wt_body tx = BodySignature session (fixed_signature r s) /\
    signature_try_from KEcdsa (fixed_signature r s) = Some (SigEcdsa (fixed_signature r s)).
Proof.
  intros H. apply multisig_submits in H as (session & l & v & pk & x & digest & sig & _ & H1 & H2 & H3 & H4 & H5 & H6 & _ & Hs & ->).
  cbn [tf_sign client] in Hs. destruct (client_sign ask party (hc_contract cfg) digest pk) as [y| |] eqn:E; try done.
  injection Hs as ->. apply client_sign_ok in E as (r & s & Hr & Hv & -> & Ha).
  exists session, l, v, pk, x, digest, r, s. repeat (split; [done|]). unfold signature_try_from. by rewrite fixed_length.
Qed.

Lemma c110_told ask party key msg pk :
  match ask {| sq_key := key; sq_msg := msg; sq_party := party; sq_pub_key := pk |} with
  | CallFailed | NoAnswer => client_sign ask party key msg pk = Err Grpc
  | Refusal t => client_sign ask party key msg pk = Err (SignFailed t)
  | Answer b => (forall r s, in_group r -> in_group s -> b <> der_signature r s) -> client_sign ask party key msg pk = Err ParsingFailed
  end.
Proof.
  unfold client_sign. destruct (ask _) as [| |b|]; try done. intros H. destruct (from_der b) as [y|] eqn:E; [|done].
  apply from_der_iff in E as (r & s & Hr & Hv & -> & _). by destruct (H r s Hr Hv).
Qed.

(** A handler that asks and gets no signature ends with an error. *)
Lemma c110_refused read_key ask_keygen ask party acc de_key cfg open s attrs pk :
  de_signing acc de_key attrs = Some s -> sg_contract s = hc_contract cfg -> key_of (sg_keys s) (hc_worker cfg) = Some pk ->
  (forall y, client_sign ask party (hc_contract cfg) (sg_msg s) pk <> Ok y) ->
  multisig_handler acc de_key cfg open (tf_sign (client read_key ask_keygen ask party)) (Abci "wasm-signing_started" attrs) = Err SignError.
Proof.
  intros Hd Hc Hk Hn. unfold multisig_handler, typed. rewrite String.eqb_refl, Hd, Hc, String.eqb_refl, Hk. cbn [tf_sign client].
  destruct (client_sign ask party (hc_contract cfg) (sg_msg s) pk) as [y| |] eqn:E; [by destruct (Hn y)|done..].
Qed.

Lemma c110_keygen read_key ask_keygen ask party saved cf k :
  worker_key saved (client read_key ask_keygen ask party) cf = Ok k <->
  saved = Some k \/
  (saved = None /\ exists b, ask_keygen {| kr_key := cf_key_uid cf; kr_party := party |} = Answer b /\ read_key b = Some k).
Proof.
  unfold worker_key. destruct saved as [k'|].
  - split; [intros [= ->]; auto|]. intros [[= ->]|[? _]]; done.
  - cbn [tf_keygen client]. unfold client_keygen. split.
    + intros H%of_option_ok. right. split; [done|]. destruct (ask_keygen _) as [| |b|]; try done. exists b. split; [done|].
      destruct (read_key b); [|done]. by injection H as ->.
    + intros [?|(_ & b & -> & Hb)]; [done|]. rewrite Hb. done.
Qed.
