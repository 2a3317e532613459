(** What is asked of the broadcasting client, in terms of the calls it makes. *)
From Verif Require Import Base Text QueueModel BroadcasterModel.

(** The transactions handed to the node. *)
Definition txs {M} (log : list (rpc M)) : list (tx M) :=
  omap (fun r => match r with RBroadcast t _ => Some t | _ => None end) log.

(** How many transactions were seen confirmed with code 0. *)
Definition confirmations {M} (log : list (rpc M)) : N :=
  N.of_nat (length (omap (fun r => match r with RGetTx _ (TCode 0) => Some tt | _ => None end) log)).

(** Answers after which to ask again. *)
Definition retriable (a : tx_answer) : Prop := a = TUnavailable \/ a = TMissing.

(** The answers asked for and what is made of them: ask until the first
    definitive one, at most [max] + 1 times. *)
Definition concludes (max : N) (answers : list tx_answer) (r : res berr unit) : Prop :=
  exists retries, Forall retriable retries /\
    ((exists code, answers = retries ++ [TCode code] /\ N.of_nat (length retries) <= max /\
        r = if code =? 0 then Ok tt else Err (BExecution code)) \/
     (answers = retries /\ N.of_nat (length retries) = max + 1 /\ r = Err BTxConfirmation)).

(** The calls of one broadcast that reaches the node and what comes of it. *)
Definition broadcast_calls {M} (cfg : bconfig) (seq : N) (ms : list M) (calls : list (rpc M)) (r : res berr unit) : Prop :=
  (exists answer, calls = [RSimulate (dummy_tx ms seq) answer] /\ r = Err BGasEstimation /\
     forall g, answer <> Some (Some g)) \/
  (exists g, let t := {| tx_msgs := ms; tx_fee := bc_fee cfg g; tx_seq := seq; tx_chain := bc_chain cfg; tx_acc := bc_acc cfg |} in
     let sim := RSimulate (dummy_tx ms seq) (Some (Some g)) in
     (calls = [sim; RSign t false] /\ r = Err BTxBuilding) \/
     (calls = [sim; RSign t true; RBroadcast t None] /\ r = Err BBroadcastFailed) \/
     (exists hash answers, calls = [sim; RSign t true; RBroadcast t (Some hash)] ++ (RGetTx hash <$> answers) /\
        concludes (bc_max_retries cfg) answers r)).

(** The numbers [s], [s + 1], ... *)
Definition consecutive (s : N) (l : list N) : Prop := l = (fun k => s + N.of_nat k) <$> seq 0 (length l).
