(** The operators data a Sui worker looks for is what the prover signed. *)
From Verif Require Import Base Text TextLemmas BaseLemmas MapLemmas StdModel StdSpec RouterTypes RegistryTypes MultisigTypes
  OperatorsModel EncodingModel VerifierModel VerifierSpec EventsModel HandlersModel HandlersSpec WorkersSpec SuiWorkersSpec SuiWorkersProofs.

Lemma u128_ok n m : u256_to_u128 n = Ok m -> m = n /\ n < U256.
Proof.
  unfold u256_to_u128. intros H. apply expect_ok in H. destruct (N.ltb_spec n U128) as [Hn|Hn].
  - rewrite parse_uint_dec in H by done. injection H as ->. split; [done|]. change U128 with (2 ^ 128) in Hn. change U256 with (2 ^ 256). lia.
  - exfalso. unfold parse_uint in H.
    assert (Hd : match dec n with String c s' => if Ascii.eqb c "+" then s' else dec n | EmptyString => dec n end = dec n).
    { pose proof (dec_digits n) as Hd. destruct (dec n) as [|c s']; [done|].
      destruct (Ascii.eqb_spec c "+") as [->|]; [|done]. cbn in Hd. done. }
    rewrite Hd in H. destruct (is_empty (dec n)); [done|]. rewrite undec_dec in H.
    destruct (N.ltb_spec n U128); [lia|done].
Qed.
Lemma sui_transfer_data keccak sec1 ws o d :
  make_operators keccak sec1 Bcs ws = Ok o -> bcs_transfer_params ws = Ok d ->
  sui_operators (o_weights o) (o_threshold o) = Some d /\ Forall (fun p => p.2 < U256) (o_weights o) /\ o_threshold o < U256.
Proof.
  unfold make_operators, bcs_transfer_params. intros [= <-] Hd. cbn [operators_new o_weights o_threshold].
  change (isort _ (bcs_operator_list ws)) with (sort_by_addr (bcs_operator_list ws)).
  set (l := sort_by_addr (bcs_operator_list ws)) in *. clearbody l.
  apply rbind_ok in Hd as (weights & Hw & Hd). apply rbind_ok in Hd as (q & Hq & Hd). apply of_option_ok in Hd.
  apply u128_ok in Hq as [-> Hq]. apply try_map_ok in Hw.
  assert (weights = l.*2 /\ Forall (fun p => p.2 < U256) l) as [-> Hl].
  { clear -Hw. induction Hw as [|x y k k' H _ [-> IH]]; [done|]. apply u128_ok in H as [-> H]. split; [done|]. by constructor. }
  done.
Qed.

Lemma sui_transfer_seen keccak sec1 ws d acc b58 json contract chain (nodes : sui_rpc -> Prop) k c ops trusted o :
  valid_vconfig c -> json (vc_gateway c) = None ->
  Forall (follows_ampd_sui acc b58 json contract chain nodes (vlog k c ops)) trusted ->
  mostly_trusted c (vlog k c ops) trusted ->
  make_operators keccak sec1 Bcs ws = Ok o -> bcs_transfer_params ws = Ok d ->
  worker_set_status k (vrun k c ops) o = Ok Verified ->
  exists a rpc b t i gw e, a ∈ trusted /\ nodes rpc /\ hex_bytes 32 (vc_gateway c) gw /\ sui_answer rpc b /\
    sui_seen b gw t i "validators" "OperatorshipTransferred" e /\ se_transfer e = Some d.
Proof.
  intros Hc Hj Hf Hm Ho Hd Hv. destruct (sui_transfer_data _ _ _ _ _ Ho Hd) as (Hs & Hw & Ht).
  destruct (sui_operators_seen _ _ _ _ _ _ _ _ _ _ _ Hc Hj Hw Ht Hf Hm Hv)
    as (h & reg & mid & out & a & rpc & _ & Ha & Hn & b & t & i & gw & e & d' & _ & Hg & Hb & Hse & He & Hd').
  rewrite Hs in Hd'. injection Hd' as <-. exists a, rpc, b, t, i, gw, e. done.
Qed.
