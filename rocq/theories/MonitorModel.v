(** Model of ampd/src/block_height_monitor.rs: the task that asks the node for
    the height of the chain, and the height it shows to the handlers. *)
From Verif Require Import Base.

(** block_height_monitor.rs:21-25 *)
Inductive monitor_error := LatestBlock.
(** block_height_monitor.rs:52-66, one turn of the loop's [select!]: the clock
    ticked and the node answered ([None]: the query failed), or the token is
    cancelled *)
Inductive turn := Tick (answer : option N) | TokenCancelled.

(** block_height_monitor.rs:28-41 [connect]: the height shown at first. What
    the handlers are given (lib.rs:205, 220, 243, 256) are receivers of the
    same channel; they read the value sent last (evm_verify_msg.rs:182). *)
Definition connect (answer : option N) : res monitor_error N := of_option LatestBlock answer.

(** block_height_monitor.rs:49-68 [run]: the height shown after the turns, and
    how the task ended, if it did. Simplification: [send] does not fail; the
    monitor holds a receiver itself. *)
Fixpoint monitor (shown : N) (l : list turn) : N * option (res monitor_error unit) :=
  match l with
  | [] => (shown, None)
  | Tick (Some h) :: l' => monitor h l'
  | Tick None :: _ => (shown, Some (Err LatestBlock))
  | TokenCancelled :: _ => (shown, Some (Ok tt))
  end.
