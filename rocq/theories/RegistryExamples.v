(** Concrete histories of the service registry, and the refutation of C45. *)
From Verif Require Import Base Text StdModel RegistryTypes RegistryModel RegistrySpec.
Local Open Scope string_scope.
Local Open Scope N_scope.

Definition ex_sv : service :=
  {| sv_name := "amplifier"; sv_contract := "svc"; sv_min_workers := 1; sv_max_workers := None;
     sv_min_bond := 100; sv_denom := "uaxl"; sv_unbonding_days := 7; sv_description := "" |}.
Definition day : N := 86400000000000.
(** Two workers bond; one attaches a foreign coin too; one is not authorised;
    the first unbonds, bonds again, unbonds and claims. *)
Definition ex_ops : list srop :=
  [ RegisterService "gov" ex_sv;
    AuthorizeWorkers "gov" ["w1"; "w2"] "amplifier";
    BondWorker "w1" [("uaxl", 60)] "amplifier";
    BondWorker "w1" [("uaxl", 60)] "amplifier";
    BondWorker "w2" [("uatom", 5); ("uaxl", 100)] "amplifier";
    BondWorker "w3" [("uaxl", 500)] "amplifier";
    DeclareChainSupport "w1" "amplifier" ["ethereum"; "avalanche"];
    DeclareChainSupport "w2" "amplifier" ["ethereum"];
    DeclareChainSupport "w3" "amplifier" ["ethereum"];
    UnbondWorker (10 * day) "w1" "amplifier";
    ClaimStake (16 * day) "w1" "amplifier";
    BondWorker "w1" [("uaxl", 1)] "amplifier" ].
Definition ex_more : list srop :=
  ex_ops ++ [ UnbondWorker (20 * day) "w1" "amplifier"; ClaimStake (27 * day) "w1" "amplifier";
              ClaimStake (27 * day) "w1" "amplifier" ].

Example ex_valid : Forall valid_funds ex_more.
Proof.
  repeat constructor; cbn; try (apply (bool_decide_eq_true_1 _); vm_compute; reflexivity).
Qed.
Example ex_active :
  w_addr <$> match get_active_workers (srrun "gov" ex_ops) "amplifier" "ethereum" with Ok l => l | _ => [] end
    = ["w1"; "w2"] /\
  owes (srrun "gov" ex_ops) "amplifier" "w1" = 121 /\
  w_addr <$> match get_active_workers (srrun "gov" ex_more) "amplifier" "ethereum" with Ok l => l | _ => [] end
    = ["w2"].
Proof. vm_compute. done. Qed.
(** The early claim and the second claim are rejected. *)
Example ex_claims :
  length (srlog "gov" ex_ops) = 11%nat /\ length (srlog "gov" ex_more) = 13%nat /\
  last (srlog "gov" ex_more) = Some (ClaimStake (27 * day) "w1" "amplifier", [("w1", ("uaxl", 121))]) /\
  bonded_total (srlog "gov" ex_more) "amplifier" "w1" "uaxl" = 121 /\
  claimed_total (srlog "gov" ex_more) "amplifier" "w1" = 121 /\
  received (srlog "gov" ex_more) "uatom" = 5 /\ stray (srrun "gov" ex_more) (srlog "gov" ex_more) "uatom" = 5 /\
  owed_in (srrun "gov" ex_more) "uaxl" = 600.
Proof. vm_compute. done. Qed.

(** C45 fails: the worker is stored but not found. *)
Lemma c45_refuted :
  exists g ops svc a w, record (srrun g ops) svc a = Some w /\ w_addr w = a /\ w_service w = svc /\
    get_worker (srrun g ops) svc a = Err WorkerNotFound.
Proof.
  exists "gov", ex_ops, "amplifier", "w2".
  exists {| w_addr := "w2"; w_bond := Bonded 100; w_auth := Authorized; w_service := "amplifier" |}.
  vm_compute. done.
Qed.
(** A record can even be returned for the wrong worker and service. *)
Lemma c45_wrong :
  exists g ops svc a w, get_worker (srrun g ops) svc a = Ok w /\ w_addr w <> a /\ w_service w <> svc /\
    record (srrun g ops) svc a = None.
Proof.
  exists "gov", [ RegisterService "gov" ex_sv; BondWorker "w1" [] "amplifier" ], "w1", "amplifier".
  exists {| w_addr := "w1"; w_bond := Bonded 0; w_auth := NotAuthorized; w_service := "amplifier" |}.
  vm_compute. done.
Qed.
(** A first bond without funds is accepted and makes the worker bonded. *)
Lemma c42_zero_bond :
  exists g ops svc a, record (srrun g ops) svc a = None /\
    bond_of (exec registry_step (srrun g ops) (BondWorker a [] svc)) svc a = Bonded 0 /\
    bond_of (srrun g ops) svc a = Unbonded.
Proof. exists "gov", [ RegisterService "gov" ex_sv ], "amplifier", "w1". vm_compute. done. Qed.
