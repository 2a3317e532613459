(** Properties C41-C45 of the service registry. *)
From Verif Require Import Base Text StdModel RegistryTypes RegistryModel RegistrySpec RegistryProofs
  RegistryExamples.

(** C41. *)
Theorem C41_owed : forall g ops svc sv a,
  Forall valid_funds ops -> sr_services (srrun g ops) !! svc = Some sv ->
  owes (srrun g ops) svc a + claimed_total (srlog g ops) svc a =
  bonded_total (srlog g ops) svc a (sv_denom sv).
Proof. exact c41_owed. Qed.
Print Assumptions C41_owed.

Theorem C41_claim_pays : forall s t a svc s' out,
  registry_step s (ClaimStake t a svc) = Ok (s', out) ->
  exists sv, sr_services s !! svc = Some sv /\ out = [(a, (sv_denom sv, owes s svc a))] /\
    bond_of s' svc a = Unbonded /\
    forall svc' b, (svc', b) <> (svc, a) -> record s' svc' b = record s svc' b.
Proof. exact c41_claim. Qed.
Print Assumptions C41_claim_pays.

Theorem C41_only_claims_pay : forall s op s' out,
  registry_step s op = Ok (s', out) -> out <> [] -> exists t a svc, op = ClaimStake t a svc.
Proof. exact c41_only_claims. Qed.
Print Assumptions C41_only_claims_pay.

Theorem C41_paid_once : forall g ops svc a l1 l2 l3 t1 o1 t2 o2,
  srlog g ops = l1 ++ (ClaimStake t1 a svc, o1) :: l2 ++ (ClaimStake t2 a svc, o2) :: l3 ->
  exists funds o, (BondWorker a funds svc, o) ∈ l2.
Proof. exact c41_claims_apart. Qed.
Print Assumptions C41_paid_once.

Theorem C41_balance : forall g ops d,
  Forall valid_funds ops ->
  owed_in (srrun g ops) d + sent (srlog g ops) d + stray (srrun g ops) (srlog g ops) d = received (srlog g ops) d.
Proof. exact c41_balance. Qed.
Print Assumptions C41_balance.

(** C42. *)
Theorem C42_claim_iff : forall g ops t a svc,
  t < U64 ->
  is_ok (registry_step (srrun g ops) (ClaimStake t a svc)) = true <->
  exists sv t0, get_service (srrun g ops) svc = Ok sv /\
    last_call (srlog g ops) svc a = Some (CUnbond t0) /\ t0 + period sv <= t.
Proof. exact c42_claim. Qed.
Print Assumptions C42_claim_iff.

Theorem C42_unbond_iff : forall g ops t a svc,
  is_ok (registry_step (srrun g ops) (UnbondWorker t a svc)) = true <->
  is_ok (get_service (srrun g ops) svc) = true /\ last_call (srlog g ops) svc a = Some CBond.
Proof. exact c42_unbond. Qed.
Print Assumptions C42_unbond_iff.

Theorem C42_bond_iff : forall g ops a funds svc,
  valid_funds (BondWorker a funds svc) ->
  is_ok (registry_step (srrun g ops) (BondWorker a funds svc)) = true <->
  exists sv, get_service (srrun g ops) svc = Ok sv /\ (funds = [] \/ sv_denom sv ∈ funds.*1) /\
    owes (srrun g ops) svc a + amount_of (sv_denom sv) funds < U128 /\
    (owes (srrun g ops) svc a + amount_of (sv_denom sv) funds = 0 -> record (srrun g ops) svc a = None).
Proof. exact c42_bond. Qed.
Print Assumptions C42_bond_iff.

Theorem C42_rebond : forall s a funds svc s' out,
  valid_funds (BondWorker a funds svc) ->
  registry_step s (BondWorker a funds svc) = Ok (s', out) ->
  exists sv, get_service s svc = Ok sv /\ out = [] /\
    bond_of s' svc a = Bonded (owes s svc a + amount_of (sv_denom sv) funds).
Proof. exact c42_rebond. Qed.
Print Assumptions C42_rebond.

Theorem C42_zero_bond : exists g ops svc a, record (srrun g ops) svc a = None /\
  bond_of (exec registry_step (srrun g ops) (BondWorker a [] svc)) svc a = Bonded 0 /\
  bond_of (srrun g ops) svc a = Unbonded.
Proof. exact c42_zero_bond. Qed.
Print Assumptions C42_zero_bond.

(** C43. *)
Theorem C43_active_workers : forall g ops svc c sv,
  get_service (srrun g ops) svc = Ok sv ->
  exists ws, get_active_workers (srrun g ops) svc c = Ok ws /\
    NoDup (w_addr <$> ws) /\ Sorted (fun x y => String.leb x y = true) (w_addr <$> ws) /\
    forall w, w ∈ ws <->
      record (srrun g ops) svc (w_addr w) = Some w /\
      declared (srlog g ops) svc c (w_addr w) /\ authorised (srlog g ops) svc (w_addr w) /\
      last_call (srlog g ops) svc (w_addr w) = Some CBond /\ sv_min_bond sv <= owes (srrun g ops) svc (w_addr w).
Proof. exact c43. Qed.
Print Assumptions C43_active_workers.

Theorem C43_unknown_service : forall s svc c,
  is_ok (get_service s svc) = false -> get_active_workers s svc c = Err ServiceNotFound.
Proof. exact c43_unknown. Qed.
Print Assumptions C43_unknown_service.

(** C44. *)
Theorem C44_governance_calls : forall g ops op,
  match op with RegisterService _ _ | AuthorizeWorkers _ _ _ | UnauthorizeWorkers _ _ _ => True | _ => False end ->
  is_ok (registry_step (srrun g ops) op) = true <->
  sender_of op = g /\
  match op with
  | RegisterService _ sv => is_ok (get_service (srrun g ops) (sv_name sv)) = false
  | AuthorizeWorkers _ _ svc | UnauthorizeWorkers _ _ svc => is_ok (get_service (srrun g ops) svc) = true
  | _ => False
  end.
Proof. exact c44_governance. Qed.
Print Assumptions C44_governance_calls.

Theorem C44_authorization : forall s op s' out svc a,
  registry_step s op = Ok (s', out) -> auth_of s' svc a <> auth_of s svc a ->
  sender_of op = sr_governance s /\
  exists ws, a ∈ ws /\ (op = AuthorizeWorkers (sender_of op) ws svc \/ op = UnauthorizeWorkers (sender_of op) ws svc).
Proof. exact c44_authorization. Qed.
Print Assumptions C44_authorization.

Theorem C44_own_calls : forall s op s' out svc a,
  registry_step s op = Ok (s', out) -> sender_of op <> a ->
  bond_of s' svc a = bond_of s svc a /\ forall c, declares s' svc c a <-> declares s svc c a.
Proof. exact c44_own_calls. Qed.
Print Assumptions C44_own_calls.

Theorem C44_service_immutable : forall g ops1 ops2 svc sv,
  get_service (srrun g ops1) svc = Ok sv -> get_service (srrun g (ops1 ++ ops2)) svc = Ok sv.
Proof. exact c44_immutable. Qed.
Print Assumptions C44_service_immutable.

Theorem C44_declared_forever : forall g ops1 ops2 svc c a,
  declares (srrun g ops1) svc c a -> declares (srrun g (ops1 ++ ops2)) svc c a.
Proof. exact c44_declared_forever. Qed.
Print Assumptions C44_declared_forever.

(** C45 is false of the code: the two arguments are swapped. *)
Theorem C45_lookup_refuted : exists g ops svc a w,
  record (srrun g ops) svc a = Some w /\ w_addr w = a /\ w_service w = svc /\
  get_worker (srrun g ops) svc a = Err WorkerNotFound.
Proof. exact c45_refuted. Qed.
Print Assumptions C45_lookup_refuted.

Theorem C45_wrong_record_refuted : exists g ops svc a w,
  get_worker (srrun g ops) svc a = Ok w /\ w_addr w <> a /\ w_service w <> svc /\
  record (srrun g ops) svc a = None.
Proof. exact c45_wrong. Qed.
Print Assumptions C45_wrong_record_refuted.

Theorem C45_swapped : forall s svc a, get_worker s svc a = of_option WorkerNotFound (record s a svc).
Proof. exact c45_swapped. Qed.
Print Assumptions C45_swapped.

(** The examples of RegistryExamples.v meet the hypotheses. *)
Example registry_nonvacuous :
  Forall valid_funds ex_more /\
  is_ok (registry_step (srrun "gov" (ex_ops ++ [UnbondWorker (20 * day) "w1" "amplifier"]))
           (ClaimStake (27 * day) "w1" "amplifier")) = true /\
  is_ok (registry_step (srrun "gov" (ex_ops ++ [UnbondWorker (20 * day) "w1" "amplifier"]))
           (ClaimStake (27 * day - 1) "w1" "amplifier")) = false /\
  bond_of (srrun "gov" (take 10 ex_ops)) "amplifier" "w1" = Unbonding 120 (10 * day) /\
  bond_of (srrun "gov" ex_ops) "amplifier" "w1" = Bonded 121.
Proof. split; [exact ex_valid|]. vm_compute. done. Qed.
