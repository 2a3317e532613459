(** A clock beside the monitor: what height the chain really had. *)
From Verif Require Import Base MonitorModel.

(** What the monitor met, each with the height the chain had at that time, the
    first being the query of [connect]. *)
Definition timeline := list (N * turn).
(** The chain grows, and the node never answers with a height the chain has not reached. *)
Definition truthful (now : N) (l : timeline) : Prop :=
  (forall i j H t H' t', (i <= j)%nat -> l !! i = Some (H, t) -> l !! j = Some (H', t') -> H <= H') /\
  (forall H t, (H, t) ∈ l -> H <= now) /\
  (forall H h, (H, Tick (Some h)) ∈ l -> h <= H).
(** The task is still at work after [l]. *)
Definition at_work (l : list turn) : Prop := Forall (fun t => exists h, t = Tick (Some h)) l.
