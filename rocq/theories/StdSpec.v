(** Vocabulary of the C01-C06 statements: what thresholds, quorums and poll
    outcomes should be, without reference to how the code computes them. *)
From Verif Require Import Base StdModel.

(** Total weight of a participant list. *)
Definition total_weight (l : list participant) : N := lsum p_weight l.

(** [q] is the least integer that is at least [num/den] of [total]. *)
Definition least_share (q total num den : N) : Prop :=
  total * num <= q * den /\ forall q', total * num <= q' * den -> q <= q'.

(** The ballot that counts for voter [a] in a history of calls: the first
    one of the right length sent before the poll expired. *)
Fixpoint first_ballot (expires : N) (size : nat) (ops : list poll_op) (a : addr)
  : option (list vote) :=
  match ops with
  | [] => None
  | PVote h b vs :: ops' =>
      if bool_decide (b = a) && (h <? expires) && (length vs =? size)%nat
      then Some vs else first_ballot expires size ops' a
  | PFinish _ :: ops' => first_ballot expires size ops' a
  end.

(** Weight of the eligible voters ([weights]: voter to weight) whose counting
    ballot chose option [v] for message [i]. *)
Definition weight_for (weights : gmap addr N) (expires : N) (size : nat)
    (ops : list poll_op) (i : nat) (v : vote) : N :=
  msum (fun a w =>
          match first_ballot expires size ops a with
          | Some b => if bool_decide (b !! i = Some v) then w else 0
          | None => 0
          end) weights.

(** A finish call at or after the expiry was made. *)
Fixpoint finish_called (expires : N) (ops : list poll_op) : bool :=
  match ops with
  | [] => false
  | PFinish h :: ops' => (expires <=? h) || finish_called expires ops'
  | _ :: ops' => finish_called expires ops'
  end.

(** The tally of option [v] stored for message [i]. *)
Definition stored_tally (p : poll) (i : nat) (v : vote) : option N :=
  poll_tallies p !! i ≫= (fun t => snd <$> find (fun '(v', _) => bool_decide (v = v')) t).

(** The ballot stored for participant [a]. *)
Definition stored_ballot (p : poll) (a : addr) : option (list vote) :=
  poll_participation p !! a ≫= pt_vote.

(** A poll created over snapshot [s] and then driven by an arbitrary history. *)
Definition poll_after (s : snapshot) (id expires : N) (size : nat) (ops : list poll_op) : poll :=
  run poll_step (poll_new id s expires size) ops.

(** Snapshots the code can build with a majority threshold. *)
Definition majority_snapshot (s : snapshot) (l : list participant) : Prop :=
  exists num den t t',
    threshold_try_from num den = Ok t /\ majority_try_from t = Ok t' /\
    snapshot_new (E := unit) t' l = Ok s.
