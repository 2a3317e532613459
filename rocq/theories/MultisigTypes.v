(** Types of contracts/multisig/src shared with the prover: keys,
    signatures, worker sets, messages to sign. *)
From Verif Require Import Base StdModel.

(** key.rs:9-14 [KeyType] *)
Inductive key_type := KEcdsa | KEd25519.
Global Instance key_type_eq_dec : EqDecision key_type.
Proof. solve_decision. Defined.
Global Instance key_type_countable : Countable key_type.
Proof.
  refine (inj_countable' (fun t => match t with KEcdsa => true | KEd25519 => false end)
                         (fun b : bool => if b then KEcdsa else KEd25519) _).
  by intros [].
Defined.

(** key.rs:110-118 [PublicKey]: kind and bytes *)
Record public_key := { pk_type : key_type; pk_bytes : string }.
Global Instance public_key_eq_dec : EqDecision public_key.
Proof. solve_decision. Defined.

(** key.rs:16-22 [Signature]: kind and bytes; the two ECDSA variants differ
    in the length of their bytes only (key.rs:24-108). *)
Inductive signature := SigEcdsa (b : string) | SigEcdsaRecoverable (b : string) | SigEd25519 (b : string).
Global Instance signature_eq_dec : EqDecision signature.
Proof. solve_decision. Defined.

(** key.rs:160-167 [KeyTyped for Signature], 273-281 [AsRef] *)
Definition sig_type (s : signature) : key_type :=
  match s with SigEcdsa _ | SigEcdsaRecoverable _ => KEcdsa | SigEd25519 _ => KEd25519 end.
Definition sig_bytes (s : signature) : string :=
  match s with SigEcdsa b | SigEcdsaRecoverable b | SigEd25519 b => b end.

(** key.rs:216-243 [TryFrom<(KeyType, HexBinary)> for PublicKey], also run by
    serde (key.rs:120-138) *)
Definition public_key_try_from (t : key_type) (b : string) : option public_key :=
  let n := String.length b in
  match t with
  | KEcdsa => if ((n =? 33) || (n =? 65))%nat then Some {| pk_type := t; pk_bytes := b |} else None
  | KEd25519 => if (n =? 32)%nat then Some {| pk_type := t; pk_bytes := b |} else None
  end.

(** key.rs:245-262 [TryFrom<(KeyType, HexBinary)> for Signature] *)
Definition signature_try_from (t : key_type) (b : string) : option signature :=
  let n := String.length b in
  match t with
  | KEcdsa => if (n =? 65)%nat then Some (SigEcdsaRecoverable b)
              else if (n =? 64)%nat then Some (SigEcdsa b) else None
  | KEd25519 => if (n =? 64)%nat then Some (SigEd25519 b) else None
  end.

(** types.rs:37-52 [TryFrom<HexBinary> for MsgToSign] *)
Definition msg_to_sign_of (b : string) : option string :=
  if (String.length b =? 32)%nat then Some b else None.

(** msg.rs:69-75 [Signer] *)
Record signer := { sg_addr : addr; sg_weight : N; sg_key : public_key }.
Global Instance signer_eq_dec : EqDecision signer.
Proof. solve_decision. Defined.

(** worker_set.rs:9-20 [WorkerSet] *)
Record worker_set := { ws_signers : gmap addr signer; ws_threshold : N; ws_created : N }.
Global Instance worker_set_eq_dec : EqDecision worker_set.
Proof. solve_decision. Defined.

(** worker_set.rs:23-47 [WorkerSet::new]; [collect] keeps the last entry of a
    repeated address. *)
Definition worker_set_new (l : list (participant * public_key)) (threshold height : N) : worker_set :=
  {| ws_signers :=
       fold_left (fun m '(p, k) =>
                    <[p_addr p := {| sg_addr := p_addr p; sg_weight := p_weight p; sg_key := k |}]> m) l ∅;
     ws_threshold := threshold; ws_created := height |}.

(** types.rs:27-33 [MultisigState] *)
Inductive ms_state := MPending | MCompleted (at_ : N).
Global Instance ms_state_eq_dec : EqDecision ms_state.
Proof. solve_decision. Defined.
