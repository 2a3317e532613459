(** Vocabulary of the C54 statements. *)
From Verif Require Import Base Text RouterTypes AggregateModel.

(** What reading a cross-chain id guarantees. *)
Definition wf_ccid (c : ccid) : Prop := wf_chain (cc_chain c) /\ cc_id c <> "".

(** JSON values that spell a cross-chain id: two fields in any order; the
    chain has no separator and reads in lower case. *)
Definition spells_ccid (j : json) (c : ccid) : Prop :=
  exists chain, (j = JObj [("chain", JStr chain); ("id", JStr (cc_id c))] \/ j = JObj [("id", JStr (cc_id c)); ("chain", JStr chain)]) /\
    contains ID_SEPARATOR chain = false /\ chain <> "" /\ cc_chain c = lower chain /\ cc_id c <> "".
(** A payload that spells these statuses. *)
Definition spells (p : payload) (l : list (ccid * bool)) : Prop :=
  exists js, p = Json (JArr js) /\ Forall2 (fun j x => exists i, j = JArr [i; JBool x.2] /\ spells_ccid i x.1) js l.
