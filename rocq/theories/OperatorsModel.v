(** Model of packages/axelar-wasm-std/src/operators.rs. *)
From Verif Require Import Base Text.

(** operators.rs:8-12 [Operators]: (address bytes, weight) pairs. *)
Record operators := { o_weights : list (string * N); o_threshold : N }.
Global Instance operators_eq_dec : EqDecision operators.
Proof. solve_decision. Defined.

(** operators.rs:15-22 [Operators::new]; [sort_by_key] is stable and
    [HexBinary] compares its bytes lexicographically. *)
Definition operators_new (l : list (string * N)) (threshold : N) : operators :=
  {| o_weights := isort (fun a b => String.leb a.1 b.1) l; o_threshold := threshold |}.

(** [to_binary] (serde-json-wasm) of one (HexBinary, Uint256) pair: a JSON
    array of the lower-case hex string and the decimal string. *)
Definition json_quote (s : string) : string := String """" (s +:+ """").
Definition operator_json (p : string * N) : string :=
  "[" +:+ json_quote (to_hex p.1) +:+ "," +:+ json_quote (dec p.2) +:+ "]".

(** operators.rs:24-31: the bytes fed to Keccak-256 by [Operators::hash] *)
Definition operators_preimage (o : operators) : string :=
  "[" +:+ join "," (operator_json <$> o_weights o) +:+ "]" +:+ be_bytes 32 (o_threshold o).
