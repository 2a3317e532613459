(** Vocabulary of the C53 statements. *)
From Verif Require Import Base Text BatchingModel.

Section Spec.
  Context {S M : Type} (exec : S -> M -> res string (S * list event)).
  (** The calls succeed one after the other, from [s] to [s']. *)
  Inductive all_succeed : S -> list M -> S -> list event -> Prop :=
  | succeed_none s : all_succeed s [] s []
  | succeed_one s m s1 e1 l s2 e2 : exec s m = Ok (s1, e1) -> all_succeed s1 l s2 e2 ->
      all_succeed s (m :: l) s2 (e1 ++ e2).

  (** How a call failed. *)
  Definition fails (s : S) (m : M) (why : string) : Prop :=
    exec s m = Err why \/ (exec s m = Panic /\ why = "").

  (** The calls are tried one after the other, the first having index [i]; a
      failed one changes nothing and its index and error are reported, in
      place of its events. *)
  Definition failure (i : N) (why : string) : event :=
    {| ev_type := "failed_msg"; ev_attrs := [(dec i, why)] |}.
  Inductive all_tried : N -> S -> list M -> S -> list event -> Prop :=
  | tried_none i s : all_tried i s [] s []
  | tried_ok i s m s1 e1 l s2 e2 : exec s m = Ok (s1, e1) -> all_tried (i + 1) s1 l s2 e2 ->
      all_tried i s (m :: l) s2 (e1 ++ e1 ++ e2)
  | tried_fail i s m why l s2 e2 : fails s m why -> all_tried (i + 1) s l s2 e2 ->
      all_tried i s (m :: l) s2 (failure i why :: e2).
End Spec.
