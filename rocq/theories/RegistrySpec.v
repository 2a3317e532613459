(** Vocabulary of the C41-C45 statements about the service registry. *)
From Verif Require Import Base Text StdModel RegistryTypes RegistryModel.

Definition srrun (g : addr) (ops : list srop) : srstate := run registry_step (registry_init g) ops.
Definition srlog (g : addr) (ops : list srop) : list (srop * srout) := log registry_step (registry_init g) ops.

(** What the contract owes for a bonding state. *)
Definition owed (b : bonding_state) : N :=
  match b with Bonded n | RequestedUnbonding n | Unbonding n _ => n | Unbonded => 0 end.
(** The stored record of a worker of a service. *)
Definition record (s : srstate) (svc : string) (a : addr) : option worker := sr_workers s !! (svc, a).
Definition owes (s : srstate) (svc : string) (a : addr) : N :=
  match record s svc a with Some w => owed (w_bond w) | None => 0 end.

(** Amount of a denomination in a list of coins. *)
Definition amount_of (denom : string) (coins : list coin) : N :=
  lsum (fun c => if bool_decide (c.1 = denom) then c.2 else 0) coins.
(** Attached funds name each denomination at most once, with 128-bit amounts
    (the chain guarantees it). *)
Definition valid_funds (op : srop) : Prop :=
  match op with
  | BondWorker _ funds _ => NoDup funds.*1 /\ Forall (fun c => c.2 < U128) funds
  | _ => True
  end.

(** Sum of what a worker bonded, in the denomination. *)
Definition bonded_total (l : list (srop * srout)) (svc : string) (a : addr) (denom : string) : N :=
  lsum (fun e => match e.1 with
                 | BondWorker b funds svc' =>
                     if bool_decide (b = a /\ svc' = svc) then amount_of denom funds else 0
                 | _ => 0
                 end) l.
(** Sum of what claims for the service paid to a worker. *)
Definition claimed_total (l : list (srop * srout)) (svc : string) (a : addr) : N :=
  lsum (fun e => match e.1 with
                 | ClaimStake _ b svc' =>
                     if bool_decide (b = a /\ svc' = svc) then lsum (fun x => x.2.2) e.2 else 0
                 | _ => 0
                 end) l.

(** The contract's balance of a denomination: attached funds received, bank
    messages sent. *)
Definition received (l : list (srop * srout)) (denom : string) : N :=
  lsum (fun e => match e.1 with BondWorker _ funds _ => amount_of denom funds | _ => 0 end) l.
Definition sent (l : list (srop * srout)) (denom : string) : N :=
  lsum (fun e => amount_of denom e.2.*2) l.

(** Owed in the denomination to all workers of all services together. *)
Definition owed_in (s : srstate) (denom : string) : N :=
  msum (fun k w => match sr_services s !! k.1 with
                   | Some sv => if bool_decide (sv_denom sv = denom) then owed (w_bond w) else 0
                   | None => 0
                   end) (sr_workers s).
(** Coins of the denomination attached to bonds of services that use another
    one. *)
Definition stray (s : srstate) (l : list (srop * srout)) (denom : string) : N :=
  lsum (fun e => match e.1 with
                 | BondWorker _ funds svc =>
                     match sr_services s !! svc with
                     | Some sv => if bool_decide (sv_denom sv = denom) then 0 else amount_of denom funds
                     | None => 0
                     end
                 | _ => 0
                 end) l.

(** The last accepted bonding call of a worker. *)
Inductive bond_call := CBond | CUnbond (time : N) | CClaim.
Definition last_call (l : list (srop * srout)) (svc : string) (a : addr) : option bond_call :=
  last (omap (fun e => match e.1 with
                       | BondWorker b _ svc' => if bool_decide (b = a /\ svc' = svc) then Some CBond else None
                       | UnbondWorker t b svc' => if bool_decide (b = a /\ svc' = svc) then Some (CUnbond t) else None
                       | ClaimStake _ b svc' => if bool_decide (b = a /\ svc' = svc) then Some CClaim else None
                       | _ => None
                       end) l).

(** The last accepted authorisation call naming the worker authorised it. *)
Definition authorised (l : list (srop * srout)) (svc : string) (a : addr) : Prop :=
  last (omap (fun e => match e.1 with
                       | AuthorizeWorkers _ ws svc' => if bool_decide (a ∈ ws /\ svc' = svc) then Some true else None
                       | UnauthorizeWorkers _ ws svc' => if bool_decide (a ∈ ws /\ svc' = svc) then Some false else None
                       | _ => None
                       end) l) = Some true.
(** The worker declared the chain. *)
Definition declared (l : list (srop * srout)) (svc chain : string) (a : addr) : Prop :=
  exists cs out, (DeclareChainSupport a svc cs, out) ∈ l /\ chain ∈ cs.

(** The unbonding period in nanoseconds. *)
Definition period (sv : service) : N := sv_unbonding_days sv * (24 * 60 * 60 * 1000000000).

(** Who made a call. *)
Definition sender_of (op : srop) : addr :=
  match op with
  | RegisterService a _ | AuthorizeWorkers a _ _ | UnauthorizeWorkers a _ _ | DeclareChainSupport a _ _
  | BondWorker a _ _ | UnbondWorker _ a _ | ClaimStake _ a _ => a
  end.
(** Bonding state of a worker; an unknown worker has nothing bonded. *)
Definition bond_of (s : srstate) (svc : string) (a : addr) : bonding_state :=
  match record s svc a with Some w => w_bond w | None => Unbonded end.
Definition auth_of (s : srstate) (svc : string) (a : addr) : auth_state :=
  match record s svc a with Some w => w_auth w | None => NotAuthorized end.
Definition declares (s : srstate) (svc chain : string) (a : addr) : Prop :=
  default ∅ (sr_chains s !! (svc, chain)) !! a = Some tt.
