(** Runs of the client against a node with given answers. *)
From Verif Require Import Base Text QueueModel QueueSpec BroadcasterModel BroadcasterSpec.

(** The answers to [get_tx] still to be given. *)
Definition ex_world : Type := list tx_answer.
Definition ex_simulate (w : ex_world) (_ : tx N) : ex_world * option (option N) := (w, Some (Some 100)).
Definition ex_sign (w : ex_world) (_ : tx N) : ex_world * bool := (w, true).
Definition ex_broadcast_tx (w : ex_world) (_ : tx N) : ex_world * option string := (w, Some "hash").
Definition ex_get_tx (w : ex_world) (_ : string) : ex_world * tx_answer :=
  match w with [] => ([], TUnavailable) | a :: w => (w, a) end.
Definition ex_cfg : bconfig :=
  {| bc_chain := "axelar-dojo-1"; bc_acc := 7; bc_max_retries := 2; bc_fee := fun g => {| f_amount := 1; f_gas := g |} |}.
Definition ex_client (w : ex_world) : client (W:=ex_world) (M:=N) := {| cl_seq := 11; cl_world := w; cl_log := [] |}.
Definition ex_tx (ms : list N) (s : N) : tx N :=
  {| tx_msgs := ms; tx_fee := {| f_amount := 1; f_gas := 100 |}; tx_seq := s; tx_chain := "axelar-dojo-1"; tx_acc := 7 |}.

Notation ex_bc := (client_broadcast ex_simulate ex_sign ex_broadcast_tx ex_get_tx ex_cfg).
Notation ex_reqs := (requests ex_simulate ex_sign ex_broadcast_tx ex_get_tx ex_cfg).
Notation ex_queue := (qrun (queue_estimate ex_simulate ex_cfg)
  (queue_broadcast ex_simulate ex_sign ex_broadcast_tx ex_get_tx ex_cfg) 150).

Lemma ex_bc_ok : ex_bc (ex_client [TUnavailable; TMissing; TCode 0]) [1] =
  ({| cl_seq := 12; cl_world := [];
      cl_log := [RSimulate (dummy_tx [1] 11) (Some (Some 100)); RSign (ex_tx [1] 11) true;
                 RBroadcast (ex_tx [1] 11) (Some "hash"); RGetTx "hash" TUnavailable; RGetTx "hash" TMissing;
                 RGetTx "hash" (TCode 0)] |}, Ok tt).
Proof. vm_compute. reflexivity. Qed.

Lemma ex_bc_retries : exists c, ex_bc (ex_client [TMissing; TMissing; TMissing; TCode 0]) [1] = (c, Err BTxConfirmation) /\
  cl_seq c = 11 /\ cl_world c = [TCode 0].
Proof. eexists. split; [vm_compute; reflexivity|]. split; reflexivity. Qed.

Lemma ex_bc_execution : exists c, ex_bc (ex_client [TMissing; TCode 5; TCode 0]) [1] = (c, Err (BExecution 5)) /\
  cl_seq c = 11 /\ cl_world c = [TCode 0].
Proof. eexists. split; [vm_compute; reflexivity|]. split; reflexivity. Qed.

(** Used on after a failure, the client uses the number again. *)
Lemma c57_reused : exists (W M : Type) simulate sign broadcast_tx get_tx cfg (c : client (W:=W) (M:=M)) rs c' t1 t2 l1 l2 l3,
  requests simulate sign broadcast_tx get_tx cfg c rs = (c', true) /\
  txs (cl_log c') = l1 ++ t1 :: l2 ++ t2 :: l3 /\ tx_seq t1 = tx_seq t2 /\ tx_msgs t1 <> tx_msgs t2.
Proof.
  exists ex_world, N, ex_simulate, ex_sign, ex_broadcast_tx, ex_get_tx, ex_cfg, (ex_client [TCode 5; TCode 0]),
    [ReqBroadcast [1]; ReqBroadcast [2]]. eexists _, (ex_tx [1] 11), (ex_tx [2] 11), [], [], [].
  split; [vm_compute; reflexivity|]. split; [vm_compute; reflexivity|]. split; [reflexivity|]. vm_compute. discriminate.
Qed.

Lemma ex_queue_runs : exists c calls, ex_queue (ex_client [TCode 0; TUnavailable; TCode 0])
    [QMsg 1; QMsg 2; QMsg 3; QClose] = (c, calls, Stopped EBroadcast) /\
  txs (cl_log c) = [ex_tx [1] 11; ex_tx [2] 12; ex_tx [3] 13].
Proof. eexists _, _. split; vm_compute; reflexivity. Qed.
Lemma ex_queue_finishes : exists c calls, ex_queue (ex_client [TCode 0; TUnavailable; TCode 0; TCode 0])
    [QMsg 1; QMsg 2; QMsg 3; QClose] = (c, calls, Finished) /\
  txs (cl_log c) = [ex_tx [1] 11; ex_tx [2] 12; ex_tx [3] 13] /\ cl_seq c = 14.
Proof. eexists _, _. split; [|split]; vm_compute; reflexivity. Qed.
