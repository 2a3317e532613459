(** C53: the batching contract. *)
From Verif Require Import Base Text BatchingModel BatchingSpec BatchingProofs BatchingExamples.

(** A batch goes through exactly if all mandatory calls succeed, in order;
    then the optional calls are tried, in order; a failed one changes nothing
    and is reported with its index and error. *)
Theorem C53_batch : forall S M (exec : S -> M -> res string (S * list event)) s b s' evs,
  host_batch exec always s b = Ok (s', evs) <->
  exists s1 e1 e2, all_succeed exec s (bm_must b) s1 e1 /\ all_tried exec 0 s1 (bm_can b) s' e2 /\ evs = e1 ++ e2.
Proof. exact @c53_batch. Qed.
Print Assumptions C53_batch.

(** Whether it goes through does not depend on the optional calls. *)
Theorem C53_optional_cannot_abort : forall S M (exec : S -> M -> res string (S * list event)) s must can,
  is_ok (host_batch exec always s {| bm_must := must; bm_can := can |}) = true <->
  exists s1 e1, all_succeed exec s must s1 e1.
Proof. exact @c53_optional. Qed.
Print Assumptions C53_optional_cannot_abort.

(** A mandatory call that fails when it is its turn aborts the batch, on
    every host. *)
Theorem C53_mandatory_aborts : forall S M (exec : S -> M -> res string (S * list event)) accepts s l1 m l2 can s1 e1 why,
  all_succeed exec s l1 s1 e1 -> fails exec s1 m why ->
  is_ok (host_batch exec accepts s {| bm_must := l1 ++ m :: l2; bm_can := can |}) = false.
Proof. exact @c53_mandatory. Qed.
Print Assumptions C53_mandatory_aborts.

(** The [k]-th optional call runs in the state its predecessors left; its
    failure is reported under number [k], and its events if it succeeds. *)
Theorem C53_reported : forall S M (exec : S -> M -> res string (S * list event)) s b s' evs k m,
  host_batch exec always s b = Ok (s', evs) -> bm_can b !! k = Some m ->
  exists s0 e0 s1 e1, all_succeed exec s (bm_must b) s0 e0 /\ all_tried exec 0 s0 (take k (bm_can b)) s1 e1 /\
    (forall why, fails exec s1 m why -> failure (N.of_nat k) why ∈ evs) /\
    (forall s2 e2, exec s1 m = Ok (s2, e2) -> e2 ⊆ evs).
Proof. exact @c53_reported. Qed.
Print Assumptions C53_reported.

(** The contract adds the events of a successful optional call to its own: a
    host that refuses them aborts the batch because the call succeeded. *)
Theorem C53_refused_events : forall S M (exec : S -> M -> res string (S * list event)) accepts s must l1 m l2 s1 e1 s2 e2 s3 e3,
  all_succeed exec s must s1 e1 -> all_tried exec 0 s1 l1 s2 e2 ->
  exec s2 m = Ok (s3, e3) -> accepts e3 = false ->
  is_ok (host_batch exec accepts s {| bm_must := must; bm_can := l1 ++ m :: l2 |}) = false.
Proof. exact @c53_refused. Qed.
Print Assumptions C53_refused_events.

Theorem C53_success_aborts_refuted : exists (S M : Type) (exec : S -> M -> res string (S * list event)) s must m s1 e1 s2 e2,
  all_succeed exec s must s1 e1 /\ exec s1 m = Ok (s2, e2) /\
  is_ok (host_batch exec unreserved s {| bm_must := must; bm_can := [m] |}) = false.
Proof. exact c53_success_aborts. Qed.
Print Assumptions C53_success_aborts_refuted.

(** The hypotheses above are met by these values. *)
Example C53_runs : host_batch ex_call always [] ex_batch =
  Ok ([8; 6; 4; 2],
      [ex_executed 2; ex_executed 4; ex_executed 6; ex_executed 6; failure 1 "odd 1"; ex_executed 8; ex_executed 8;
       failure 3 ""; failure 4 "odd 3"]).
Proof. exact ex_batch_runs. Qed.
Example C53_aborts : host_batch ex_call always [] {| bm_must := [2; 3; 4]; bm_can := [6] |} = Err "odd 3".
Proof. exact ex_batch_aborts. Qed.
