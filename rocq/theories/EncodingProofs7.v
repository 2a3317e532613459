(** The signatures in executable proofs; the six-field reading of parameters. *)
From Verif Require Import Base BaseLemmas MapLemmas Text TextLemmas StdModel StdProofs RouterTypes MultisigTypes OperatorsModel
  EncodingModel EncodingSpec EncodingProofs EncodingProofs2 EncodingProofs3 EncodingProofs4 RegistryProofs.

Section Sigs.
  Context (keccak : string -> string) (sec1 : string -> option string)
    (recover : string -> string -> string -> option N).

  Lemma convert_dest e digest (l : list (signer * option signature)) :
    (fun y => (y.1, convert_sig recover e digest y.1 y.2)) <$> l = dest_sig recover e digest <$> l.
  Proof.
    apply list_fmap_ext. intros _ [sg sig] _. unfold dest_sig, convert_sig. cbn [fst snd].
    destruct sig as [[b|b|b]|]; try done. destruct (recover _ _ _) as [r|]; [|done].
    destruct e; cbn [transform]; [|done]. by rewrite (N.add_comm 27).
  Qed.
  Lemma signers_ok_dest q e digest l : signers_ok q l -> signers_ok q (dest_sig recover e digest <$> l).
  Proof. intros [Hq Hl]. split; [done|]. apply Forall_fmap. by eapply Forall_impl. Qed.

  Lemma execute_signatures b q signers s : (forall x, String.length (keccak x) = 32%nat) -> signers_ok q signers ->
    encode_execute_data keccak sec1 recover b q signers = Ok s -> fits (b_encoder b) s ->
    exists digest x p ops, msg_digest keccak b = Ok digest /\ decode_execute (b_encoder b) s = Some (x, p) /\
      decode_proof (b_encoder b) p =
        Some (op_addr <$> ops, op_weight <$> ops, q, omap (fun o => sig_bytes <$> op_sig o) ops) /\
      Some <$> ops ≡ₚ dest_operator keccak sec1 (b_encoder b) <$> (dest_sig recover (b_encoder b) digest <$> signers) /\
      ascending (op_addr <$> ops).
  Proof.
    intros Hk Hs H Hf. destruct (execute_view keccak sec1 recover b q signers s Hk H Hf) as (dg & x & p & H1 & H2 & _ & _ & H4 & H5 & _).
    rewrite convert_dest in H4.
    destruct (proof_view keccak sec1 _ _ _ _ (signers_ok_dest q (b_encoder b) dg _ Hs) H4 H5) as (ops & H6 & H7 & H8).
    exists dg, x, p, ops. done.
  Qed.

  Lemma command_six m c : make_command keccak Abi m = Ok c -> String.length (m_hash m) = 32%nat -> slen (c_params c) < 2 ^ 32 ->
    exists d, dest_bytes Abi (m_daddr m) = Some d /\
      abi_decode_params6 (c_params c) = Some (cc_chain (m_cc m), m_src m, d, m_hash m, zeros 32, slen (cc_chain (m_cc m))).
  Proof.
    unfold make_command. intros H Hh Hf. res_inv. subst c. cbn [c_params] in *.
    destruct (abi_params_view _ _ _ _ _ Hv Hh Hf) as (d & H1 & H2 & H3 & H4).
    exists d. split; [done|]. unfold abi_decode_params6, a_pair. by rewrite H2, H3, H4.
  Qed.
End Sigs.
