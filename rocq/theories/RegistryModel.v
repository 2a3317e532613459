(** Model of contracts/service-registry/src/contract.rs and state.rs.
    Left out: address validation (every address is accepted) and storage
    failures. The receipt of the attached funds is done by the chain before
    the call and belongs to the call. *)
From Verif Require Import Base Text StdModel RegistryTypes.

(** state.rs:20-30 [Service]; the fields the contract only stores are kept
    too *)
Record service := {
  sv_name : string;
  sv_contract : addr;
  sv_min_workers : N;
  sv_max_workers : option N;
  sv_min_bond : N;
  sv_denom : string;
  sv_unbonding_days : N;
  sv_description : string;
}.

(** state.rs:9-14 [CONFIG], 131-136 [SERVICES], [WORKERS_PER_CHAIN] (per
    service and chain, the declared addresses), [WORKERS] *)
Record srstate := {
  sr_governance : addr;
  sr_services : gmap string service;
  sr_chains : gmap (string * string) (gmap addr unit);
  sr_workers : gmap (string * addr) worker;
}.

(** error.rs:9-30 *)
Inductive srerror :=
| SrUnauthorized | ServiceAlreadyExists | ServiceNotFound | WrongDenom | WorkerNotFound
| InvalidBondingState (b : bonding_state) | SrStdError.

(** Coins: denomination and amount. *)
Definition coin : Type := string * N.

(** Responses: the bank messages sent. *)
Definition srout : Type := list (addr * coin).

(** contract.rs:19-33 [instantiate] *)
Definition registry_init (governance : addr) : srstate :=
  {| sr_governance := governance; sr_services := ∅; sr_chains := ∅; sr_workers := ∅ |}.

(** state.rs:76-91 [add_bond]; [Uint128] addition panics on overflow *)
Definition add_bond (b : bonding_state) (to_add : N) : res srerror bonding_state :=
  let? amount := match b with
                 | Bonded n | RequestedUnbonding n | Unbonding n _ => add_u128 n to_add
                 | Unbonded => Ok to_add
                 end in
  if amount =? 0 then Err (InvalidBondingState b) else Ok (Bonded amount).

(** state.rs:93-107 [unbond] *)
Definition unbond (b : bonding_state) (can_unbond : bool) (time : N) : res srerror bonding_state :=
  match b with
  | Bonded n | RequestedUnbonding n =>
      if can_unbond then Ok (Unbonding n time) else Ok (RequestedUnbonding n)
  | _ => Err (InvalidBondingState b)
  end.

(** [Timestamp::plus_days]: nanoseconds, panics on overflow *)
Definition NANOS_PER_DAY : N := 24 * 60 * 60 * 1000000000.
Definition plus_days (t days : N) : res srerror N :=
  let? d := checked U64 (days * NANOS_PER_DAY) in add_u64 t d.

(** state.rs:108-122 [claim_stake] *)
Definition claim_bond (b : bonding_state) (time days : N) : res srerror (bonding_state * N) :=
  match b with
  | Unbonding n t0 =>
      let? due := plus_days t0 days in
      if due <=? time then Ok (Unbonded, n) else Err (InvalidBondingState b)
  | _ => Err (InvalidBondingState b)
  end.

Definition set_workers (s : srstate) (m : gmap (string * addr) worker) : srstate :=
  {| sr_governance := sr_governance s; sr_services := sr_services s; sr_chains := sr_chains s;
     sr_workers := m |}.

(** contract.rs:128-163 [register_service] *)
Definition register_service (s : srstate) (sv : service) : res srerror (srstate * srout) :=
  let? _ := ensure (bool_decide (sr_services s !! sv_name sv = None)) ServiceAlreadyExists in
  Ok ({| sr_governance := sr_governance s; sr_services := <[sv_name sv := sv]> (sr_services s);
         sr_chains := sr_chains s; sr_workers := sr_workers s |}, []).

(** contract.rs:165-197 [update_worker_authorization_status] *)
Definition authorize_one (svc : string) (st : auth_state) (m : gmap (string * addr) worker) (a : addr)
  : gmap (string * addr) worker :=
  <[(svc, a) := match m !! (svc, a) with
                | Some w => {| w_addr := w_addr w; w_bond := w_bond w; w_auth := st; w_service := w_service w |}
                | None => {| w_addr := a; w_bond := Unbonded; w_auth := st; w_service := svc |}
                end]> m.
Definition update_authorization (s : srstate) (workers : list addr) (svc : string) (st : auth_state)
  : res srerror (srstate * srout) :=
  let? _ := of_option ServiceNotFound (sr_services s !! svc) in
  Ok (set_workers s (foldl (authorize_one svc st) (sr_workers s) workers), []).

(** contract.rs:199-238 [bond_worker] *)
Definition bond_worker (s : srstate) (sender : addr) (funds : list coin) (svc : string)
  : res srerror (srstate * srout) :=
  let? sv := of_option ServiceNotFound (sr_services s !! svc) in
  let? bond := match funds with
               | [] => Ok 0
               | _ => let? c := of_option WrongDenom
                                  (List.find (fun c => String.eqb c.1 (sv_denom sv)) funds) in Ok c.2
               end in
  let? w := match sr_workers s !! (svc, sender) with
            | Some w => let? b := add_bond (w_bond w) bond in
                        Ok {| w_addr := w_addr w; w_bond := b; w_auth := w_auth w; w_service := w_service w |}
            | None => Ok {| w_addr := sender; w_bond := Bonded bond; w_auth := NotAuthorized; w_service := svc |}
            end in
  Ok (set_workers s (<[(svc, sender) := w]> (sr_workers s)), []).

(** contract.rs:240-259 [declare_chains_support] *)
Definition declare_chains (s : srstate) (sender : addr) (svc : string) (chains : list string)
  : res srerror (srstate * srout) :=
  let? _ := of_option ServiceNotFound (sr_services s !! svc) in
  let? _ := of_option WorkerNotFound (sr_workers s !! (svc, sender)) in
  Ok ({| sr_governance := sr_governance s; sr_services := sr_services s;
         sr_chains := foldl (fun m c => <[(svc, c) := <[sender := tt]> (default ∅ (m !! (svc, c)))]> m)
                        (sr_chains s) chains;
         sr_workers := sr_workers s |}, []).

(** contract.rs:261-289 [unbond_worker]; [can_unbond] is the constant [true] *)
Definition unbond_worker (s : srstate) (time : N) (sender : addr) (svc : string)
  : res srerror (srstate * srout) :=
  let? _ := of_option ServiceNotFound (sr_services s !! svc) in
  let? w := of_option WorkerNotFound (sr_workers s !! (svc, sender)) in
  let? b := unbond (w_bond w) true time in
  Ok (set_workers s (<[(svc, sender) := {| w_addr := w_addr w; w_bond := b; w_auth := w_auth w;
                                           w_service := w_service w |}]> (sr_workers s)), []).

(** contract.rs:291-326 [claim_stake] *)
Definition claim_stake (s : srstate) (time : N) (sender : addr) (svc : string)
  : res srerror (srstate * srout) :=
  let? sv := of_option ServiceNotFound (sr_services s !! svc) in
  let? w := of_option WorkerNotFound (sr_workers s !! (svc, sender)) in
  let? r := claim_bond (w_bond w) time (sv_unbonding_days sv) in
  Ok (set_workers s (<[(svc, sender) := {| w_addr := w_addr w; w_bond := r.1; w_auth := w_auth w;
                                           w_service := w_service w |}]> (sr_workers s)),
      [(sender, (sv_denom sv, r.2))]).

(** contract.rs:35-110 [execute]; 119-125 [require_governance] *)
Inductive srop :=
| RegisterService (sender : addr) (sv : service)
| AuthorizeWorkers (sender : addr) (workers : list addr) (svc : string)
| UnauthorizeWorkers (sender : addr) (workers : list addr) (svc : string)
| DeclareChainSupport (sender : addr) (svc : string) (chains : list string)
| BondWorker (sender : addr) (funds : list coin) (svc : string)
| UnbondWorker (time : N) (sender : addr) (svc : string)
| ClaimStake (time : N) (sender : addr) (svc : string).

Definition registry_step (s : srstate) (op : srop) : res srerror (srstate * srout) :=
  match op with
  | RegisterService a sv =>
      let? _ := ensure (bool_decide (sr_governance s = a)) SrUnauthorized in register_service s sv
  | AuthorizeWorkers a ws svc =>
      let? _ := ensure (bool_decide (sr_governance s = a)) SrUnauthorized in
      update_authorization s ws svc Authorized
  | UnauthorizeWorkers a ws svc =>
      let? _ := ensure (bool_decide (sr_governance s = a)) SrUnauthorized in
      update_authorization s ws svc NotAuthorized
  | DeclareChainSupport a svc cs => declare_chains s a svc cs
  | BondWorker a funds svc => bond_worker s a funds svc
  | UnbondWorker t a svc => unbond_worker s t a svc
  | ClaimStake t a svc => claim_stake s t a svc
  end.

(** contract.rs:354-377 [get_active_workers] *)
Definition get_active_workers (s : srstate) (svc chain : string) : res srerror (list worker) :=
  let? sv := of_option ServiceNotFound (sr_services s !! svc) in
  let? ws := try_map (fun x => of_option SrStdError (sr_workers s !! (svc, x.1)))
               (btree_iter (default ∅ (sr_chains s !! (svc, chain)))) in
  Ok (filter (fun w => w_auth w = Authorized)
       (filter (fun w => match w_bond w with Bonded n => sv_min_bond sv <=? n | _ => false end = true) ws)).

(** contract.rs:379-390 [query::get_worker] *)
Definition query_get_worker (s : srstate) (service_name worker_name : string) : res srerror worker :=
  of_option WorkerNotFound (sr_workers s !! (service_name, worker_name)).

(** contract.rs:330-345 [query], the [GetWorker] case: the arguments are
    passed in the order worker, service. *)
Definition get_worker (s : srstate) (service_name worker_name : string) : res srerror worker :=
  query_get_worker s worker_name service_name.

(** contract.rs:392-396 [get_service] *)
Definition get_service (s : srstate) (svc : string) : res srerror service :=
  of_option ServiceNotFound (sr_services s !! svc).
