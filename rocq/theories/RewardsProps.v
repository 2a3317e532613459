(** C14-C21: the rewards contract. Vocabulary: RewardsSpec.v. *)
From Verif Require Import Base BaseLemmas StdModel StdSpec RewardsModel RewardsSpec
  RewardsProofs RewardsProofs2 RewardsProofs3 RewardsExamples.

(** C14. *)
Theorem C14_epoch_of_height : forall i ops h,
  valid_rinit i -> Forall valid_rop ops -> h < U64 ->
  let s := rrun i ops in
  let u := r_updated s in
  let d := rp_duration (r_params s) in
  (h < e_start u -> current_epoch s h = Err BlockHeightInPast) /\
  (e_start u <= h -> exists e, current_epoch s h = Ok e /\
     e_num e = e_num u + (h - e_start u) / d /\
     e_start e = e_start u + (e_num e - e_num u) * d /\
     e_start e <= h < e_start e + d).
Proof. exact c14_formula. Qed.
Print Assumptions C14_epoch_of_height.

Theorem C14_monotone_in_height : forall s h h' e e',
  current_epoch s h = Ok e -> current_epoch s h' = Ok e' -> h <= h' ->
  e_num e <= e_num e' <= e_num e + (h' - h) /\ e_start e <= e_start e'.
Proof. exact c14_monotone. Qed.
Print Assumptions C14_monotone_in_height.

(** An update starts a fresh epoch exactly if the new duration has elapsed. *)
Theorem C14_update : forall i ops h g p s',
  valid_rinit i -> Forall valid_rop ops -> h < U64 -> valid_rparams p ->
  let s := rrun i ops in
  update_params s p h g = Ok s' ->
  exists e, current_epoch s h = Ok e /\
    current_epoch s' h =
      Ok (if e_start e + rp_duration p <=? h then {| e_num := e_num e + 1; e_start := h |} else e).
Proof. exact c14_update. Qed.
Print Assumptions C14_update.

(** Along a history whose block heights do not decrease, with any parameter
    updates, the epoch number does not decrease (and always exists). *)
Theorem C14_monotone_in_history : forall i ops ops' h h' e,
  valid_rinit i -> Forall valid_rop (ops ++ ops') -> h' < U64 ->
  current_epoch (rrun i ops) h = Ok e -> StronglySorted N.le (h :: heights ops' ++ [h']) ->
  exists e', current_epoch (rrun i (ops ++ ops')) h' = Ok e' /\ e_num e <= e_num e'.
Proof. exact c14_history_reach. Qed.
Print Assumptions C14_monotone_in_history.

(** C15. The events counted for an epoch are exactly those first seen in it,
    each once; a worker's participation is the number of accepted records of
    those events, whenever they were made. *)
Theorem C15_counts : forall i ops c n,
  valid_rinit i -> Forall valid_rop ops ->
  exists evs,
    NoDup evs /\ (forall ev, ev ∈ evs <-> first_seen i ops c ev n) /\
    event_count (rrun i ops) c n = N.of_nat (length evs) /\
    forall w, participated (rrun i ops) c n w =
      count (fun '(c', ev, w') => bool_decide (c' = c /\ w' = w /\ ev ∈ evs)) (records (rlog i ops)).
Proof. exact c15_counts. Qed.
Print Assumptions C15_counts.

Theorem C15_one_epoch : forall i ops c ev n n',
  valid_rinit i -> Forall valid_rop ops ->
  first_seen i ops c ev n -> first_seen i ops c ev n' -> n = n'.
Proof. exact first_seen_unique. Qed.
Print Assumptions C15_one_epoch.

(** C16 is false: recording a participation a second time can take the
    worker's reward away. *)
Theorem C16_idempotent_refuted :
  exists i ops rec h c w,
    valid_rinit i /\ Forall valid_rop (ops ++ [rec; rec; Distribute h c None]) /\
    (exists h' ev, rec = Record_ h' c ev w) /\
    (exists s1 s2, rewards_step (rrun i (ops ++ [rec])) (Distribute h c None) = Ok (s1, [(w, 100)]) /\
                   rewards_step (rrun i (ops ++ [rec; rec])) (Distribute h c None) = Ok (s2, [])).
Proof. exact c16_refuted. Qed.
Print Assumptions C16_idempotent_refuted.

(** Without repeated records of the contract, participation is the number of distinct events
    attended. *)
Theorem C16_without_repeats : forall i ops c n w,
  valid_rinit i -> Forall valid_rop ops -> NoDup (pool_records c (rlog i ops)) ->
  exists evs, NoDup evs /\
    (forall ev, ev ∈ evs <-> first_seen i ops c ev n /\ (c, ev, w) ∈ records (rlog i ops)) /\
    participated (rrun i ops) c n w = N.of_nat (length evs) /\
    participated (rrun i ops) c n w <= event_count (rrun i ops) c n.
Proof. exact c15_no_dup. Qed.
Print Assumptions C16_without_repeats.

(** C17. *)
Theorem C17_shares : forall t,
  exists qs, NoDup qs /\ (forall w, w ∈ qs <-> qualifies t w) /\
    (forall w v, rewards_by_worker t !! w = Some v <->
       qualifies t w /\ v = rp_rewards (ty_params t) / N.of_nat (length qs) /\ 0 < v) /\
    msum (fun _ v => v) (rewards_by_worker t) <= rp_rewards (ty_params t).
Proof. exact c17_shares. Qed.
Print Assumptions C17_shares.

(** A worker qualifies iff the share of the epoch's events they were
    recorded for reaches the threshold. *)
Theorem C17_qualifies_by_attendance : forall i ops c n w,
  valid_rinit i -> Forall valid_rop ops -> NoDup (pool_records c (rlog i ops)) ->
  exists all mine,
    NoDup all /\ (forall ev, ev ∈ all <-> first_seen i ops c ev n) /\
    NoDup mine /\
    (forall ev, ev ∈ mine <-> first_seen i ops c ev n /\ (c, ev, w) ∈ records (rlog i ops)) /\
    forall t, r_tallies (rrun i ops) !! (c, n) = Some t ->
      (qualifies t w <->
       0 < N.of_nat (length mine) /\
       t_num (rp_threshold (ty_params t)) * N.of_nat (length all) <=
       N.of_nat (length mine) * t_den (rp_threshold (ty_params t))).
Proof. exact c17_attended. Qed.
Print Assumptions C17_qualifies_by_attendance.

(** C18. One distribution pays exactly what the due epochs owe. *)
Theorem C18_one_distribution : forall i ops h c limit s' out,
  valid_rinit i -> Forall valid_rop ops ->
  let s := rrun i ops in
  rewards_step s (Distribute h c limit) = Ok (s', out) ->
  exists e,
    current_epoch s h = Ok e /\
    next_epoch s c < next_epoch s' c /\
    between (next_epoch s c) (next_epoch s' c) = due_epochs s c limit (e_num e) /\
    (forall n, n < next_epoch s' c -> n + 2 <= e_num e) /\
    NoDup out.*1 /\
    (forall w a, (w, a) ∈ out <->
       0 < a /\ a = lsum (fun n => owed s c n w) (between (next_epoch s c) (next_epoch s' c))) /\
    (forall c', c' <> c -> r_pools s' !! c' = r_pools s !! c' /\ r_marks s' !! c' = r_marks s !! c') /\
    r_tallies s' = r_tallies s /\ r_events s' = r_events s /\ r_params s' = r_params s /\
    r_updated s' = r_updated s.
Proof. exact c18_call_reach. Qed.
Print Assumptions C18_one_distribution.

(** Over a history the epochs paid are 0, 1, 2, ... without gap or repeat. *)
Theorem C18_epochs_in_order : forall i ops c,
  valid_rinit i -> Forall valid_rop ops ->
  paid_epochs (rstart i) ops c = between 0 (next_epoch (rrun i ops) c).
Proof. exact c18_epochs. Qed.
Print Assumptions C18_epochs_in_order.

Theorem C18_paid_once : forall i ops1 ops2 c n,
  valid_rinit i -> Forall valid_rop (ops1 ++ ops2) ->
  n < next_epoch (rrun i ops1) c -> n ∉ paid_epochs (rrun i ops1) ops2 c.
Proof. exact c18_paid_once. Qed.
Print Assumptions C18_paid_once.

(** C19. *)
Theorem C19_conservation : forall i ops c,
  valid_rinit i -> Forall valid_rop ops ->
  deposited c (rlog i ops) = pool_balance (rrun i ops) c + withdrawn c (rlog i ops).
Proof. exact c19_conserve. Qed.
Print Assumptions C19_conservation.

Theorem C19_uncovered_fails : forall i ops h c limit e,
  valid_rinit i -> Forall valid_rop ops ->
  let s := rrun i ops in
  current_epoch s h = Ok e ->
  next_epoch s c + limit_of limit < U64 -> 1 <= limit_of limit -> next_epoch s c + 2 <= e_num e ->
  pool_balance s c < lsum (owed_total s c) (due_epochs s c limit (e_num e)) < U128 ->
  rewards_step s (Distribute h c limit) = Err PoolBalanceInsufficient.
Proof. exact c19_insufficient_reach. Qed.
Print Assumptions C19_uncovered_fails.

(** C20 is false at both ends. *)
Theorem C20_limit_zero_refuted :
  exists i ops h c s' out, valid_rinit i /\ Forall valid_rop ops /\ h < U64 /\
    rewards_step (rrun i ops) (Distribute h c (Some 0)) = Ok (s', out) /\
    next_epoch s' c = next_epoch (rrun i ops) c + 1 /\ out = [("w1", 100)].
Proof. exact c20_refuted_zero. Qed.
Print Assumptions C20_limit_zero_refuted.

Theorem C20_large_limit_refuted :
  exists i ops h c, valid_rinit i /\ Forall valid_rop ops /\ h < U64 /\
    rewards_step (rrun i ops) (Distribute h c (Some (U64 - 1))) = Panic /\
    is_ok (rewards_step (rrun i ops) (Distribute h c (Some 10))) = true.
Proof. exact c20_refuted_large. Qed.
Print Assumptions C20_large_limit_refuted.

Theorem C20_bounded_work : forall i ops h c limit s' out,
  valid_rinit i -> Forall valid_rop ops -> 1 <= limit_of limit ->
  let s := rrun i ops in
  rewards_step s (Distribute h c limit) = Ok (s', out) ->
  next_epoch s' c - next_epoch s c <= limit_of limit.
Proof. exact c20_bound. Qed.
Print Assumptions C20_bounded_work.

(** When a distribution is accepted, and when it cannot abort. *)
Theorem C20_accepted_iff : forall i ops h c limit,
  valid_rinit i -> Forall valid_rop ops ->
  let s := rrun i ops in
  is_ok (rewards_step s (Distribute h c limit)) = true <->
  exists e, current_epoch s h = Ok e /\
    next_epoch s c + limit_of limit < U64 /\
    (1 <= limit_of limit \/ next_epoch s c = 0) /\ next_epoch s c + 2 <= e_num e /\
    lsum (owed_total s c) (due_epochs s c limit (e_num e)) <= pool_balance s c.
Proof. exact c20_accepts_reach. Qed.
Print Assumptions C20_accepted_iff.

Theorem C20_no_abort : forall i ops h c limit,
  valid_rinit i -> Forall valid_rop ops -> h < U64 ->
  let s := rrun i ops in
  next_epoch s c + limit_of limit < U64 ->
  (forall e, current_epoch s h = Ok e -> lsum (owed_total s c) (due_epochs s c limit (e_num e)) < U128) ->
  rewards_step s (Distribute h c limit) <> Panic.
Proof. exact c20_no_abort. Qed.
Print Assumptions C20_no_abort.

(** C21. *)
Theorem C21_first_event_fixes_params : forall i ops c n t,
  valid_rinit i -> Forall valid_rop ops ->
  r_tallies (rrun i ops) !! (c, n) = Some t ->
  exists ops1 h ev w ops2,
    ops = ops1 ++ Record_ h c ev w :: ops2 /\
    event_count (rrun i ops1) c n = 0 /\
    is_ok (rewards_step (rrun i ops1) (Record_ h c ev w)) = true /\
    current_epoch (rrun i ops1) h = Ok (ty_epoch t) /\ e_num (ty_epoch t) = n /\
    ty_params t = r_params (rrun i ops1).
Proof. exact c21_origin. Qed.
Print Assumptions C21_first_event_fixes_params.

Theorem C21_params_never_change : forall i ops ops' c n t,
  valid_rinit i -> Forall valid_rop (ops ++ ops') ->
  r_tallies (rrun i ops) !! (c, n) = Some t ->
  exists t', r_tallies (rrun i (ops ++ ops')) !! (c, n) = Some t' /\ tally_fixed t' = tally_fixed t /\
    ty_count t <= ty_count t' /\ forall w, default 0 (ty_part t !! w) <= default 0 (ty_part t' !! w).
Proof. exact c21_fixed. Qed.
Print Assumptions C21_params_never_change.

Theorem C21_only_governance : forall i ops h g p s' out,
  rewards_step (rrun i ops) (UpdateParams h g p) = Ok (s', out) -> g = ri_gov i.
Proof. exact c21_governance. Qed.
Print Assumptions C21_only_governance.

(** A history with three events, four records and an update meets the
    hypotheses; its first epoch qualifies both workers. *)
Example rewards_nonvacuous :
  valid_rinit exr_init /\ Forall valid_rop exr_ops /\ length (rlog exr_init exr_ops) = 8%nat /\
  NoDup (pool_records "pool" (rlog exr_init exr_ops)) /\
  event_count (rrun exr_init exr_ops) "pool" 0 = 2 /\ event_count (rrun exr_init exr_ops) "pool" 1 = 1 /\
  participated (rrun exr_init exr_ops) "pool" 0 "w2" = 2 /\
  paid (rrun exr_init exr_ops) (Distribute 60 "pool" (Some 2)) = [("w1", 100); ("w2", 50); ("w3", 50)].
Proof.
  split; [apply exr_valid|]. split; [apply exr_valid|]. split; [vm_compute; reflexivity|].
  split; [apply (bool_decide_eq_true_1 _); vm_compute; reflexivity|].
  repeat split; vm_compute; reflexivity.
Qed.
