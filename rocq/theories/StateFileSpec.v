(** What C107 needs to be said, independently of the model. *)
From Verif Require Import Base EventsModel JsonSpec.

(** The library writes keys as JSON that it reads back, not as [null]. *)
Definition keys_read_back (e_key : string -> jval) (d_key : jval -> option string) : Prop :=
  forall k, readable 100 (e_key k) /\ e_key k <> JNull /\ d_key (e_key k) = Some k.

(** A JSON value that names handlers: an object with this member, or an array
    whose first of two elements it is. *)
Definition names_handlers (v : jval) (ms : list (string * jval)) : Prop :=
  (exists l, v = JObj l /\ ("handlers", JObj ms) ∈ l) \/ (exists k, v = JArr [JObj ms; k]).
