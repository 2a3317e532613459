(** Vocabulary of the C62 statements. *)
From Verif Require Import Base Text StdModel RegistryTypes RouterTypes MultisigTypes OperatorsModel MultisigModel
  MultisigSpec EncodingModel EncodingSpec ProverModel ProverSpec SigningModel.

(** What the two contracts saw. *)
Definition multisig_trace (l : list (sop * sout)) : list (mop * mout) := (fun e => (so_mop e.2, so_mout e.2)) <$> l.
Definition prover_trace (l : list (sop * sout)) : list (pop * pout) := omap (fun e => so_prover e.2) l.

Section Spec.
  Context (keccak : string -> string) (wshash : worker_set -> string)
          (sec1 : string -> option string)
          (crypto : key_type -> string -> string -> string -> option bool).
  Definition srun (c : pconfig) (me g r : addr) (p : N) (ops : list sop) : ssys :=
    run (signing_step keccak wshash sec1 crypto c me) (signing_init g r p) ops.
  Definition slog (c : pconfig) (me g r : addr) (p : N) (ops : list sop) : list (sop * sout) :=
    log (signing_step keccak wshash sec1 crypto c me) (signing_init g r p) ops.

  (** No two different worker sets registered in the history have the same
      hash. *)
  Definition distinct_sets (l : list (sop * sout)) : Prop :=
    forall a ws a' ws', RegisterWorkerSet a ws ∈ (multisig_trace l).*1 -> RegisterWorkerSet a' ws' ∈ (multisig_trace l).*1 ->
      wshash ws = wshash ws' -> ws = ws'.

  (** Entry [e] of the prover's trace, after [k1], starts session [id]: worker
      set [cur], the current one, is asked to sign batch [b], the batch last
      made under its id. *)
  Definition session_start (c : pconfig) (k1 : list (pop * pout)) (e : pop * pout) (id : N)
      (cur : worker_set) (b : batch) : Prop :=
    (exists next, sets_after keccak wshash sec1 c k1 (Some cur) next) /\
    asks_to_sign keccak wshash c e.2 cur b id /\
    last_built keccak wshash sec1 c (k1 ++ [e]) (b_id b) b.

  (** No call of [k2], made after [k1], makes another batch with this id. *)
  Definition not_rebuilt (c : pconfig) (k1 k2 : list (pop * pout)) (bid : string) : Prop :=
    forall ka op out kb b, k2 = ka ++ (op, out) :: kb -> builds keccak wshash sec1 c (k1 ++ ka) op b -> b_id b <> bid.

  (** Member [sg] of [ws] submitted [sig] to session [id], and it is good for
      [digest] under the member's key. *)
  Definition member_signed (l : list (mop * mout)) (id : N) (ws : worker_set) (digest : string)
      (x : signer * signature) : Prop :=
    ws_signers ws !! sg_addr x.1 = Some x.1 /\ submitted l id (sg_addr x.1) = Some x.2 /\
    good_signature crypto x.2 digest (sg_key x.1).

  (** The signature of an operator of a proof, if any, is the form the
      destination chain expects of one submitted by the member whose key has
      that operator's address, and the weights are the same. *)
  Definition op_backed (recover : string -> string -> string -> option N) (e : encoder)
      (l : list (mop * mout)) (id : N) (ws : worker_set) (digest : string) (o : operator) : Prop :=
    forall s, op_sig o = Some s -> exists sg sig,
      member_signed l id ws digest (sg, sig) /\
      dest_addr keccak sec1 e (pk_bytes (sg_key sg)) = Some (op_addr o) /\ op_weight o = sg_weight sg /\
      convert_sig recover e digest sg (Some sig) = Some s.

  (** A good ECDSA signature has a recovery id. *)
  Definition recoverable (recover : string -> string -> string -> option N) : Prop :=
    forall digest sig pk, crypto KEcdsa digest sig pk = Some true -> is_Some (recover digest pk sig).

  (** The ids of the messages a call asks a batch for. *)
  Definition asked (op : pop) : list ccid :=
    match po_call op with ConstructProof ids => ids | _ => [] end.
  (** In this history: the gateway answers with the messages asked for; ids
      have an event index after the last colon; and the hash does not confuse
      the key of a batch with those messages and no worker set with the key
      of another batch. *)
  Definition plain_history (c : pconfig) (k : list (pop * pout)) (ids : list ccid) : Prop :=
    Forall event_id ids /\
    forall op out new, (op, out) ∈ k -> may_carry c (po_env op) new ->
      Forall event_id (asked op) /\
      (forall ms, pe_messages (po_env op) (pc_gateway c) (asked op) = Some ms -> m_cc <$> ms = asked op) /\
      EncodingSpec.no_collision keccak [batch_id_preimage wshash ids None; batch_id_preimage wshash (asked op) new].
End Spec.

(** Weight of the operators of a proof that come with a signature. *)
Definition proof_weight (ops : list operator) : N :=
  lsum (fun o => match op_sig o with Some _ => op_weight o | None => 0 end) ops.
