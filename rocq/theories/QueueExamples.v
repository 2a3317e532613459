(** Runs of the broadcast queue against a broadcaster with given answers. *)
From Verif Require Import Base Text QueueModel QueueSpec QueueProofs QueueProofs2.

(** The answers still to be given: to estimates, to broadcasts. *)
Definition answers : Type := list (option N) * list bool.
Definition ex_estimate (b : answers) (_ : list N) : answers * option N :=
  match b.1 with [] => (b, None) | a :: l => ((l, b.2), a) end.
Definition ex_broadcast (b : answers) (_ : list N) : answers * bool :=
  match b.2 with [] => (b, true) | a :: l => ((b.1, l), a) end.

Definition ex_run := qrun ex_estimate ex_broadcast 100.

(** Messages 1 to 5 with a tick and a close; 3 does not fit any more, 4 alone is over the limit. *)
Definition ex_ins : list (input N) := [QTick; QMsg 1; QMsg 2; QMsg 3; QForce; QMsg 4; QMsg 5; QClose; QMsg 6].
Definition ex_answers : answers := ([Some 40; Some 50; Some 10; Some 200; Some 1], []).

Lemma ex_finishes : ex_run ex_answers ex_ins =
  (([], []), [CEstimate [1] (Some 40); CEstimate [2] (Some 50); CEstimate [3] (Some 10); CBroadcast [1; 2] true;
              CBroadcast [3] true; CEstimate [4] (Some 200); CEstimate [5] (Some 1); CBroadcast [4] true;
              CBroadcast [5] true], Finished).
Proof. vm_compute. reflexivity. Qed.

Lemma ex_goes_on : exists b calls q, ex_run ex_answers (take 3 ex_ins) = (b, calls, Running q) /\ mq_msgs q = [1; 2].
Proof. eexists _, _, _. split; vm_compute; reflexivity. Qed.

(** A broadcast that fails when message 3 arrives loses 3 as well. *)
Lemma ex_broadcast_fails : ex_run ([Some 40; Some 50; Some 10], [false]) [QMsg 1; QMsg 2; QMsg 3] =
  (([], []), [CEstimate [1] (Some 40); CEstimate [2] (Some 50); CEstimate [3] (Some 10); CBroadcast [1; 2] false],
   Stopped EBroadcast).
Proof. vm_compute. reflexivity. Qed.

(** An estimate that fails loses everything queued. *)
Lemma ex_estimate_fails : ex_run ([Some 40; Some 50; None], []) [QMsg 1; QMsg 2; QMsg 3] =
  (([], []), [CEstimate [1] (Some 40); CEstimate [2] (Some 50); CEstimate [3] None], Stopped EEstimateFee).
Proof. vm_compute. reflexivity. Qed.

Lemma ex_crashes : ex_run ([Some (2 ^ 64 - 1); Some 1], []) [QMsg 1; QMsg 2] =
  (([], []), [CEstimate [1] (Some (2 ^ 64 - 1)); CEstimate [2] (Some 1)], Crashed).
Proof. vm_compute. reflexivity. Qed.

Lemma c55_lost_only_batch_refuted : exists (B M : Type) (estimate : B -> list M -> B * option N)
    (broadcast : B -> list M -> B * bool) limit b ins b' calls calls' batch,
  qrun estimate broadcast limit b ins = (b', calls, Stopped EBroadcast) /\ calls = calls' ++ [CBroadcast batch false] /\
  received ins <> delivered calls ++ batch.
Proof.
  exists answers, N, ex_estimate, ex_broadcast, 100, ([Some 40; Some 50; Some 10], [false]), [QMsg 1; QMsg 2; QMsg 3].
  eexists _, _, [CEstimate [1] (Some 40); CEstimate [2] (Some 50); CEstimate [3] (Some 10)], [1; 2].
  split; [exact ex_broadcast_fails|]. split; [reflexivity|]. vm_compute. discriminate.
Qed.

Lemma c55_estimate_drops_queue : exists (B M : Type) (estimate : B -> list M -> B * option N)
    (broadcast : B -> list M -> B * bool) limit b ins b' calls,
  qrun estimate broadcast limit b ins = (b', calls, Stopped EEstimateFee) /\
  all_ok calls /\ sent calls = [] /\ (2 < length (received ins))%nat.
Proof.
  exists answers, N, ex_estimate, ex_broadcast, 100, ([Some 40; Some 50; None], []), [QMsg 1; QMsg 2; QMsg 3].
  eexists _, _. split; [exact ex_estimate_fails|]. split; [by apply Forall_nil|]. split; [reflexivity|]. cbn. lia.
Qed.

(** A single message above the limit is broadcast, alone. *)
Lemma c56_single_above : exists (B M : Type) (estimate : B -> list M -> B * option N)
    (broadcast : B -> list M -> B * bool) limit b ins b' calls m g,
  qrun estimate broadcast limit b ins = (b', calls, Finished) /\ limit < g /\ ([m], [(m, g)]) ∈ priced [] calls.
Proof.
  exists answers, N, ex_estimate, ex_broadcast, 100, ex_answers, ex_ins. eexists _, _, 4, 200.
  split; [exact ex_finishes|]. split; [lia|].
  apply (bool_decide_eq_true_1 _). vm_compute. reflexivity.
Qed.
