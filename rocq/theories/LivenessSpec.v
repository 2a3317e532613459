(** Vocabulary of the statements that something does happen (C88-): the
    heights of calls. *)
From stdpp Require Import sorting.
From Verif Require Import Base StdModel VerifierModel VerifierSpec.

(** The block height a call to the verifier is made at, and calls made in
    order of heights. *)
Definition at_height (op : vop) : N :=
  match op with
  | VerifyMessages h _ _ | VerifyWorkerSet h _ _ _ | Vote h _ _ _ | EndPoll h _ => h
  end.
Definition in_order (ops : list vop) : Prop := StronglySorted N.le (at_height <$> ops).
