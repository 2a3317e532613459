(** Concrete histories of the rewards contract. *)
From Verif Require Import Base StdModel RewardsModel RewardsSpec.

Definition exr_params := {| rp_duration := 10; rp_rewards := 100;
                            rp_threshold := {| t_num := 1; t_den := 2 |} |}.
Definition exr_init := {| ri_gov := "gov"; ri_denom := "uaxl"; ri_params := exr_params; ri_height := 5 |}.
Definition exr_ops : list rop :=
  [ AddRewards "pool" [("uaxl", 1000)];
    Record_ 6 "pool" "poll1" "w1"; Record_ 6 "pool" "poll1" "w2"; Record_ 7 "pool" "poll2" "w1";
    Record_ 16 "pool" "poll3" "w1"; Record_ 17 "pool" "poll2" "w2"; Record_ 18 "pool" "poll3" "w3";
    UpdateParams 19 "gov" {| rp_duration := 3; rp_rewards := 50; rp_threshold := {| t_num := 1; t_den := 1 |} |} ].

Lemma exr_valid : valid_rinit exr_init /\ Forall valid_rop exr_ops.
Proof.
  split.
  - split; cbn; [split; cbn; unfold U64; lia|unfold U64; lia].
  - repeat constructor; cbn; intros; simplify_eq; unfold U64; try lia.
Qed.

Definition paid (s : rstate) (op : rop) : list (addr * N) :=
  match rewards_step s op with Ok (_, l) => l | _ => [] end.

(** C16: recorded once, the worker is paid; recorded twice, not. *)
Definition once : list rop := [ AddRewards "pool" [("uaxl", 1000)]; Record_ 6 "pool" "poll1" "w1" ].
Definition twice : list rop := once ++ [ Record_ 6 "pool" "poll1" "w1" ].
Lemma c16_refuted :
  exists i ops rec h c w,
    valid_rinit i /\ Forall valid_rop (ops ++ [rec; rec; Distribute h c None]) /\
    (exists h' ev, rec = Record_ h' c ev w) /\
    (exists s1 s2, rewards_step (rrun i (ops ++ [rec])) (Distribute h c None) = Ok (s1, [(w, 100)]) /\
                   rewards_step (rrun i (ops ++ [rec; rec])) (Distribute h c None) = Ok (s2, [])).
Proof.
  exists exr_init, [ AddRewards "pool" [("uaxl", 1000)] ], (Record_ 6 "pool" "poll1" "w1"), 26, "pool", "w1".
  split; [apply exr_valid|]. split.
  { repeat constructor; cbn; intros; simplify_eq; unfold U64; lia. }
  split; [by eexists _, _|]. eexists _, _. split; vm_compute; reflexivity.
Qed.

(** C20: asking for no epoch pays one; asking for very many aborts. *)
Lemma c20_refuted_zero :
  exists i ops h c s' out, valid_rinit i /\ Forall valid_rop ops /\ h < U64 /\
    rewards_step (rrun i ops) (Distribute h c (Some 0)) = Ok (s', out) /\
    next_epoch s' c = next_epoch (rrun i ops) c + 1 /\ out = [("w1", 100)].
Proof.
  exists exr_init, once, 26, "pool". eexists _, _. split; [apply exr_valid|]. split.
  { repeat constructor; cbn; intros; simplify_eq; unfold U64; lia. }
  split; [unfold U64; lia|]. split; [vm_compute; reflexivity|]. split; vm_compute; reflexivity.
Qed.
Lemma c20_refuted_large :
  exists i ops h c, valid_rinit i /\ Forall valid_rop ops /\ h < U64 /\
    rewards_step (rrun i ops) (Distribute h c (Some (U64 - 1))) = Panic /\
    is_ok (rewards_step (rrun i ops) (Distribute h c (Some 10))) = true.
Proof.
  exists exr_init, (once ++ [Distribute 26 "pool" None]), 40, "pool". split; [apply exr_valid|]. split.
  { repeat constructor; cbn; intros; simplify_eq; unfold U64; lia. }
  split; [unfold U64; lia|]. split; vm_compute; reflexivity.
Qed.
