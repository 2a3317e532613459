(** Vocabulary of the C22-C27 statements about the multisig contract. *)
From Verif Require Import Base Text StdModel MultisigTypes MultisigModel.

Section Spec.
  Context (wsid : worker_set -> string) (crypto : key_type -> string -> string -> string -> option bool).

  (** State and log of a history from instantiation with governance account
      [g], rewards contract [r] and grace period [p]. *)
  Definition mrun (g r : addr) (p : N) (ops : list mop) : mstate :=
    run (multisig_step wsid crypto) (multisig_init g r p) ops.
  Definition mlog (g r : addr) (p : N) (ops : list mop) : list (mop * mout) :=
    log (multisig_step wsid crypto) (multisig_init g r p) ops.

  (** No two different worker sets of the history have the same identifier
      (the identifier is a keccak hash). *)
  Definition no_collision (ops : list mop) : Prop :=
    forall a1 ws1 a2 ws2,
      RegisterWorkerSet a1 ws1 ∈ ops -> RegisterWorkerSet a2 ws2 ∈ ops ->
      wsid ws1 = wsid ws2 -> ws1 = ws2.

  (** Session [id] was started, for message [msg] and worker set [ws]. *)
  Definition started_with (l : list (mop * mout)) (id : N) (msg : string) (ws : worker_set) : Prop :=
    exists a chain keys b,
      (StartSession a (wsid ws) msg chain, OutStarted id (wsid ws) keys msg chain) ∈ l /\
      (RegisterWorkerSet b ws, OutNone) ∈ l.

  (** A signature is good for a message and a key. *)
  Definition good_signature (sg : signature) (msg : string) (pk : public_key) : Prop :=
    sig_type sg = pk_type pk /\
    crypto (pk_type pk) msg (sig_bytes sg) (pk_bytes pk) = Some true.
End Spec.

(** Accepted submissions to session [id]: sender and recorded signature. *)
Definition submissions (l : list (mop * mout)) (id : N) : list (addr * signature) :=
  omap (fun e => match e with
                 | (SubmitSignature _ a i _, OutSigned _ _ _ sg _) =>
                     if i =? id then Some (a, sg) else None
                 | _ => None
                 end) l.
Definition signed_by (l : list (mop * mout)) (id : N) : list addr := (submissions l id).*1.

(** The signature an account submitted to session [id], if any. *)
Definition submitted (l : list (mop * mout)) (id : N) (a : addr) : option signature :=
  (list_to_map (submissions l id) : gmap addr signature) !! a.

(** Weight of an account in a worker set. *)
Definition weight_in (ws : worker_set) (a : addr) : N :=
  match ws_signers ws !! a with Some sg => sg_weight sg | None => 0 end.

(** Enough weight has signed: somebody signed and the distinct signers' total
    weight is at least the threshold. *)
Definition reached (ws : worker_set) (signers : list addr) : Prop :=
  signers <> [] /\ ws_threshold ws <= lsum (weight_in ws) signers.

(** Heights announced by the completion events of session [id]. *)
Definition completions (l : list (mop * mout)) (id : N) : list N :=
  omap (fun e => match e with
                 | (_, OutSigned _ i _ _ (Some c)) => if i =? id then Some c else None
                 | _ => None
                 end) l.

(** Ids returned by the calls that started a session. *)
Definition started_ids (l : list (mop * mout)) : list N :=
  omap (fun e => match e.2 with OutStarted id _ _ _ _ => Some id | _ => None end) l.

(** The last accepted authorization or withdrawal for [a] granted access. *)
Definition authorized (l : list (mop * mout)) (a : addr) : Prop :=
  last (omap (fun e => match e.1 with
                       | SetCaller _ auth c => if bool_decide (c = a) then Some auth else None
                       | _ => None
                       end) l) = Some true.

(** The last key of type [t] that [a] registered. *)
Definition last_key (l : list (mop * mout)) (a : addr) (t : key_type) : option string :=
  last (omap (fun e => match e.1 with
                       | RegisterPublicKey a' t' b =>
                           if bool_decide (a' = a /\ t' = t) then Some b else None
                       | _ => None
                       end) l).

(** Lengths allowed for keys and signatures. *)
Definition key_length_ok (t : key_type) (n : nat) : Prop :=
  match t with KEcdsa => n = 33%nat \/ n = 65%nat | KEd25519 => n = 32%nat end.
Definition sig_length_ok (t : key_type) (n : nat) : Prop :=
  match t with KEcdsa => n = 64%nat \/ n = 65%nat | KEd25519 => n = 64%nat end.
