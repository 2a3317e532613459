(** Types of contracts/service-registry/src/state.rs that other contracts
    receive in query answers. *)
From Verif Require Import Base StdModel.

(** state.rs:60-73 [BondingState]; timestamps are nanoseconds. *)
Inductive bonding_state :=
| Bonded (amount : N)
| RequestedUnbonding (amount : N)
| Unbonding (amount : N) (unbonded_at : N)
| Unbonded.
Global Instance bonding_state_eq_dec : EqDecision bonding_state.
Proof. solve_decision. Defined.

(** state.rs:125-129 [AuthorizationState] *)
Inductive auth_state := NotAuthorized | Authorized.
Global Instance auth_state_eq_dec : EqDecision auth_state.
Proof. solve_decision. Defined.

(** state.rs:32-38 [Worker] *)
Record worker := {
  w_addr : addr;
  w_bond : bonding_state;
  w_auth : auth_state;
  w_service : string;
}.

(** state.rs:40-58 [TryFrom<Worker> for Participant] *)
Definition worker_participant {E} (e : E) (w : worker) : res E participant :=
  match w_bond w with
  | Bonded _ => Ok {| p_addr := w_addr w; p_weight := 1 |}
  | _ => Err e
  end.
