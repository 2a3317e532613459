(** Concrete batches. *)
From Verif Require Import Base Text BatchingModel BatchingSpec BatchingProofs.

(** A host state that lists what happened; a call fails if its number is
    odd, and panics if it is 7. *)
Definition ex_call (s : list N) (m : N) : res string (list N * list event) :=
  if m =? 7 then Panic
  else if N.odd m then Err ("odd " +:+ dec m)
  else Ok (m :: s, [{| ev_type := "execute"; ev_attrs := [("_contract_address", dec m)] |}]).

(** The rule of wasmd: attribute keys that start with an underscore are
    reserved for the host. *)
Definition unreserved (l : list event) : bool :=
  forallb (fun e => forallb (fun a => match a.1 with String "_" _ => false | _ => true end) (ev_attrs e)) l.

Definition ex_batch : batch_msg N := {| bm_must := [2; 4]; bm_can := [6; 1; 8; 7; 3] |}.
Definition ex_executed (m : N) : event := {| ev_type := "execute"; ev_attrs := [("_contract_address", dec m)] |}.
Example ex_batch_runs : host_batch ex_call always [] ex_batch =
  Ok ([8; 6; 4; 2],
      [ex_executed 2; ex_executed 4; ex_executed 6; ex_executed 6; failure 1 "odd 1"; ex_executed 8; ex_executed 8;
       failure 3 ""; failure 4 "odd 3"]).
Proof. vm_compute. reflexivity. Qed.
Example ex_batch_aborts : host_batch ex_call always [] {| bm_must := [2; 3; 4]; bm_can := [6] |} = Err "odd 3".
Proof. vm_compute. reflexivity. Qed.
(** a host with that rule aborts the batch because an optional call
    succeeded; without that call it goes through *)
Example ex_batch_reserved : host_batch ex_call unreserved [] {| bm_must := [2]; bm_can := [1; 4] |} = Err "invalid event" /\
  host_batch ex_call unreserved [] {| bm_must := [2]; bm_can := [1; 3] |} =
    Ok ([2], [ex_executed 2; failure 0 "odd 1"; failure 1 "odd 3"]).
Proof. split; vm_compute; reflexivity. Qed.

Lemma c53_success_aborts : exists (S M : Type) (exec : S -> M -> res string (S * list event)) s must m s1 e1 s2 e2,
  all_succeed exec s must s1 e1 /\ exec s1 m = Ok (s2, e2) /\
  is_ok (host_batch exec unreserved s {| bm_must := must; bm_can := [m] |}) = false.
Proof.
  exists (list N), N, ex_call, [], [2], 4, [2], [ex_executed 2], [4; 2], [ex_executed 4].
  split; [|split; vm_compute; reflexivity].
  apply (succeed_one ex_call [] 2 [2] [ex_executed 2] [] [2] []); [vm_compute; reflexivity|constructor].
Qed.
