(** C01-C06: thresholds, snapshots, polls. Vocabulary: StdSpec.v. *)
From Verif Require Import Base StdModel StdSpec StdProofs.

(** C01. A threshold exists exactly for fractions in (0,1]; a majority
    threshold exactly for those above one half; comparison is exact. *)
Theorem C01_threshold_interval : forall num den t,
  threshold_try_from num den = Ok t <->
  0 < num <= den /\ t_num t = num /\ t_den t = den.
Proof. exact c01_interval. Qed.
Print Assumptions C01_threshold_interval.

Theorem C01_threshold_majority : forall t t',
  majority_try_from t = Ok t' <-> t_den t < 2 * t_num t /\ t' = t.
Proof. exact majority_try_from_ok. Qed.
Print Assumptions C01_threshold_majority.

Theorem C01_threshold_order : forall a b,
  (threshold_cmp a b = Lt <-> t_num a * t_den b < t_num b * t_den a) /\
  (threshold_cmp a b = Eq <-> t_num a * t_den b = t_num b * t_den a) /\
  (threshold_cmp a b = Gt <-> t_num b * t_den a < t_num a * t_den b).
Proof. exact threshold_cmp_spec. Qed.
Print Assumptions C01_threshold_order.

(** Finding: [inv] leaves the interval, so [Fraction::inv] breaks C01. *)
Theorem C01_inverse_refuted : exists num den t t',
  threshold_try_from num den = Ok t /\ threshold_inv t = Some t' /\
  ~ (0 < t_num t' <= t_den t').
Proof. exact c01_inverse. Qed.
Print Assumptions C01_inverse_refuted.

Example C01_nonvacuous :
  threshold_try_from 2 3 = Ok {| t_num := 2; t_den := 3 |} /\
  majority_try_from {| t_num := 2; t_den := 3 |} = Ok {| t_num := 2; t_den := 3 |} /\
  majority_try_from {| t_num := 1; t_den := 2 |} = Err NoMajority /\
  majority_try_from {| t_num := 2; t_den := 3 |} <> majority_try_from {| t_num := 1; t_den := 2 |} /\
  threshold_try_from 4 3 = Err OutOfInterval.
Proof. done. Qed.

(** C02. The snapshot exists unless the weights overflow; its quorum is the
    least integer at or above the threshold share of the total; it lies
    between 1 and the total; its voters are the listed ones. *)
Theorem C02_snapshot_exists : forall t l,
  0 < t_num t <= t_den t -> l <> [] -> Forall (fun p => 0 < p_weight p) l ->
  (total_weight l < U256 -> exists s, snapshot_new (E := unit) t l = Ok s) /\
  (U256 <= total_weight l -> snapshot_new (E := unit) t l = Panic).
Proof. exact c02_exists. Qed.
Print Assumptions C02_snapshot_exists.

Theorem C02_quorum : forall t l s,
  0 < t_num t <= t_den t -> snapshot_new (E := unit) t l = Ok s ->
  least_share (s_quorum s) (total_weight l) (t_num t) (t_den t) /\
  1 <= s_quorum s <= total_weight l.
Proof. exact c02_quorum. Qed.
Print Assumptions C02_quorum.

Theorem C02_participants : forall t l s,
  NoDup (p_addr <$> l) -> snapshot_new (E := unit) t l = Ok s ->
  (forall a w, s_participants s !! a = Some w <->
     exists p, p ∈ l /\ p_addr p = a /\ p_weight p = w) /\
  msum (fun _ w => w) (s_participants s) = total_weight l.
Proof. exact c02_participants. Qed.
Print Assumptions C02_participants.

(** Two disjoint groups of voters cannot both reach a majority quorum. *)
Theorem C02_majorities_intersect : forall s l (g1 g2 : gset addr),
  majority_snapshot s l -> g1 ## g2 ->
  let weight g := msum (fun a w => if bool_decide (a ∈ g) then w else 0) (s_participants s) in
  ~ (s_quorum s <= weight g1 /\ s_quorum s <= weight g2).
Proof. exact c02_intersect. Qed.
Print Assumptions C02_majorities_intersect.

(** C03. Tallies are the weights of the voters' counting ballots; only
    participants are recorded, each with its first valid ballot. *)
Theorem C03_tallies : forall t l s id expires size ops,
  snapshot_new (E := unit) t l = Ok s ->
  let p := poll_after s id expires size ops in
  length (poll_tallies p) = size /\
  (forall i v, (i < size)%nat ->
     stored_tally p i v = Some (weight_for (s_participants s) expires size ops i v)) /\
  (forall a, is_Some (s_participants s !! a) -> stored_ballot p a = first_ballot expires size ops a) /\
  (forall a, s_participants s !! a = None -> stored_ballot p a = None).
Proof. exact c03. Qed.
Print Assumptions C03_tallies.

(** C04. *)
Theorem C04_consensus_iff_quorum : forall l s id expires size ops i v,
  majority_snapshot s l -> (i < size)%nat ->
  poll_consensus (poll_after s id expires size ops) i = Ok (Some v) <->
  s_quorum s <= weight_for (s_participants s) expires size ops i v.
Proof. exact c04_iff. Qed.
Print Assumptions C04_consensus_iff_quorum.

Theorem C04_consensus_unique_and_final : forall l s id expires size ops i v,
  majority_snapshot s l ->
  poll_consensus (poll_after s id expires size ops) i = Ok (Some v) ->
  (forall v', s_quorum s <= weight_for (s_participants s) expires size ops i v' -> v' = v) /\
  (forall ops', poll_consensus (poll_after s id expires size (ops ++ ops')) i = Ok (Some v)).
Proof. exact c04. Qed.
Print Assumptions C04_consensus_unique_and_final.

(** C05. *)
Theorem C05_vote_iff : forall t l s id expires size ops h a vs,
  snapshot_new (E := unit) t l = Ok s ->
  is_ok (poll_cast_vote (poll_after s id expires size ops) h a vs) = true <->
  is_Some (s_participants s !! a) /\ h < expires /\ length vs = size /\
  first_ballot expires size ops a = None.
Proof. exact c05_vote. Qed.
Print Assumptions C05_vote_iff.

Theorem C05_vote_errors : forall t l s id expires size ops h a vs e,
  snapshot_new (E := unit) t l = Ok s ->
  poll_cast_vote (poll_after s id expires size ops) h a vs = Err e ->
  (e = NotParticipant /\ s_participants s !! a = None) \/
  (e = PollExpired /\ is_Some (s_participants s !! a) /\ expires <= h) \/
  (e = InvalidVoteSize /\ is_Some (s_participants s !! a) /\ h < expires /\ length vs <> size) \/
  (e = AlreadyVoted /\ is_Some (s_participants s !! a) /\ h < expires /\ length vs = size /\
     is_Some (first_ballot expires size ops a)).
Proof. exact c05_vote_errors. Qed.
Print Assumptions C05_vote_errors.

Theorem C05_vote_never_aborts : forall t l s id expires size ops h a vs,
  snapshot_new (E := unit) t l = Ok s ->
  poll_cast_vote (poll_after s id expires size ops) h a vs <> Panic.
Proof. exact c05_no_panic. Qed.
Print Assumptions C05_vote_never_aborts.

Theorem C05_finish_iff : forall t l s id expires size ops h,
  snapshot_new (E := unit) t l = Ok s ->
  is_ok (poll_finish (poll_after s id expires size ops) h) = true <->
  poll_status_ (poll_after s id expires size ops) <> Finished /\ expires <= h.
Proof. exact c05_finish. Qed.
Print Assumptions C05_finish_iff.

(** Once finished at height [h], no vote at a height from [h] on is accepted,
    whatever happened in between. *)
Theorem C05_no_vote_after_finish : forall t l s id expires size ops h ops' h' a vs,
  snapshot_new (E := unit) t l = Ok s ->
  is_ok (poll_finish (poll_after s id expires size ops) h) = true -> h <= h' ->
  exists e, poll_cast_vote (poll_after s id expires size (ops ++ PFinish h :: ops')) h' a vs = Err e.
Proof. exact c05_after_finish. Qed.
Print Assumptions C05_no_vote_after_finish.

(** C06. *)
Theorem C06_consensus_participants : forall t l s id expires size ops,
  snapshot_new (E := unit) t l = Ok s ->
  let p := poll_after s id expires size ops in
  let ps := poll_state_of p in
  NoDup (ps_consensus_participants ps) /\
  (forall a, a ∈ ps_consensus_participants ps <->
     is_Some (s_participants s !! a) /\
     exists b, first_ballot expires size ops a = Some b /\
       forall i v, poll_consensus p i = Ok (Some v) -> b !! i = Some v) /\
  ps_poll_id ps = id /\
  length (ps_results ps) = size /\
  (forall i r, ps_results ps !! i = Some r <-> poll_consensus p i = Ok r).
Proof. exact (@c06 unit). Qed.
Print Assumptions C06_consensus_participants.

(** A concrete poll meeting the hypotheses above: three voters, threshold
    2/3, two messages; one message reaches consensus, one does not, and a
    late, a repeated and a foreign ballot are ignored. *)
Definition ex_participants : list participant :=
  [ {| p_addr := "w1"; p_weight := 40 |}; {| p_addr := "w2"; p_weight := 30 |};
    {| p_addr := "w3"; p_weight := 30 |} ].
Definition ex_threshold := {| t_num := 2; t_den := 3 |}.
Definition ex_ops : list poll_op :=
  [ PVote 1 "w1" [SucceededOnChain; NotFound];
    PVote 1 "w1" [NotFound; NotFound];
    PVote 2 "w4" [NotFound; NotFound];
    PVote 3 "w2" [SucceededOnChain; FailedOnChain];
    PVote 10 "w3" [NotFound; NotFound];
    PFinish 10 ].
Definition ex_snapshot : snapshot :=
  match snapshot_new (E := unit) ex_threshold ex_participants with
  | Ok s => s | _ => {| s_quorum := 0; s_participants := ∅ |} end.
Example polls_nonvacuous :
  majority_snapshot ex_snapshot ex_participants /\
  s_quorum ex_snapshot = 67 /\
  let p := poll_after ex_snapshot 7 10 2 ex_ops in
  poll_consensus p 0 = Ok (Some SucceededOnChain) /\
  poll_consensus p 1 = Ok None /\
  ps_consensus_participants (poll_state_of p) = ["w1"; "w2"] /\
  is_ok (poll_finish (poll_after ex_snapshot 7 10 2 (take 5 ex_ops)) 10) = true.
Proof.
  split.
  - exists 2, 3, ex_threshold, ex_threshold. split_and!; by vm_compute.
  - split_and!; by vm_compute.
Qed.
