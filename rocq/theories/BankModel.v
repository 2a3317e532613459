(** The coins of the chain the contracts of SystemModel run on: coins attached
    to a call go to the contract called before it runs; the coins a contract
    pays ([BankMsg::Send]) go to the receivers after it; if any of this cannot
    be paid the whole transaction fails.

    This is not code of the repository but the bank of the host chain, as far
    as the contracts rely on it (cosmos-sdk's bank: coins have a positive
    amount, a list of coins names each denomination once, nobody pays more
    than they have). Whether paying zero coins is an error is a parameter
    [zero] ([false]: it is, as in cosmos-sdk and in the test framework the
    repository uses).

    The contracts never ask the bank, so which calls are made does not depend
    on the coins, and the payments are carried out along the calls a
    transaction consists of, in their order. The paying contracts (rewards,
    registry) send no other messages, so their payments come right after their
    call. What accounts and other contracts pay each other is arbitrary. Sums
    above the bank's 256 bits are left out. *)
From Verif Require Import Base Text StdModel RouterTypes RegistryTypes OperatorsModel MultisigTypes
  RouterModel GatewayModel NexusModel RewardsModel RegistryModel VerifierModel MultisigModel EncodingModel ProverModel SystemModel.

Notation bank := (gmap (addr * string) N) (only parsing).
Definition balance (b : bank) (a : addr) (d : string) : N := default 0 (b !! (a, d)).
Record move := { mv_from : addr; mv_to : addr; mv_denom : string; mv_amount : N }.

Inductive berror :=
| Uncovered (a : addr) (d : string)  (* [a] does not have that much of [d] *)
| BadCoins                           (* attached coins that are no coins *)
| ZeroPaid (a : addr)                (* the contract [a] pays zero coins *)
| NotTheirs.                         (* a modelled contract does not pay like that *)

Definition transfer (b : bank) (m : move) : res berror bank :=
  let? _ := ensure (mv_amount m <=? balance b (mv_from m) (mv_denom m)) (Uncovered (mv_from m) (mv_denom m)) in
  let b1 : bank := <[(mv_from m, mv_denom m) := balance b (mv_from m) (mv_denom m) - mv_amount m]> b in
  Ok (<[(mv_to m, mv_denom m) := balance b1 (mv_to m) (mv_denom m) + mv_amount m]> b1).
Definition transfers (b : bank) (l : list move) : res berror bank :=
  fold_left (fun acc m => let? b := acc in transfer b m) l (Ok b).

(** What the call makes the contract pay: rewards' contract.rs:95-106,
    service-registry's contract.rs:317-324. *)
Definition payments (k : call) : list move :=
  let me := sb_to (k_sub k) in
  match k_chain k !! me with
  | Some (CRewards s) =>
      match rewards_op (en_height (k_env k)) (k_sender k) (sb_funds (k_sub k)) (sb_body (k_sub k)) with
      | Some op =>
          match rewards_step s op with
          | Ok (_, l) => (fun x => {| mv_from := me; mv_to := x.1; mv_denom := r_denom s; mv_amount := x.2 |}) <$> l
          | _ => []
          end
      | None => []
      end
  | Some (CRegistry s) =>
      match registry_op (en_time (k_env k)) (k_sender k) (sb_funds (k_sub k)) (sb_body (k_sub k)) with
      | Some op =>
          match registry_step s op with
          | Ok (_, l) => (fun x => {| mv_from := me; mv_to := x.1; mv_denom := x.2.1; mv_amount := x.2.2 |}) <$> l
          | _ => []
          end
      | None => []
      end
  | _ => []
  end.
Definition attached (k : call) : list move :=
  (fun c => {| mv_from := k_sender k; mv_to := sb_to (k_sub k); mv_denom := c.1; mv_amount := c.2 |}) <$> sb_funds (k_sub k).
Definition good_coins (l : list (string * N)) : bool :=
  bool_decide (NoDup l.*1) && forallb (fun c => (0 <? c.2) && (c.2 <? U128)) l.

Section Bank.
  Context (zero : bool).
  (** The coins of one call. *)
  Definition pay_call (b : bank) (k : call) : res berror bank :=
    let? _ := ensure (good_coins (sb_funds (k_sub k))) BadCoins in
    let? b1 := transfers b (attached k) in
    let? _ := ensure (zero || forallb (fun m => negb (mv_amount m =? 0)) (payments k)) (ZeroPaid (sb_to (k_sub k))) in
    transfers b1 (payments k).

  (** What others pay each other just before the [n]-th call of the
      transaction and after the last one. *)
  Definition pay_others (st : chain) (b : bank) (l : list move) : res berror bank :=
    let? _ := ensure (forallb (fun m => bool_decide (st !! mv_from m = None)) l) NotTheirs in
    transfers b l.
  Fixpoint pay_calls (st : chain) (others : nat -> list move) (n : nat) (b : bank) (l : list call) : res berror bank :=
    let? b1 := pay_others st b (others n) in
    match l with
    | [] => Ok b1
    | k :: rest =>
        let? b2 := pay_call b1 k in
        pay_calls st others (S n) b2 rest
    end.
End Bank.

Record btx := { bt_tx : tx; bt_others : nat -> list move }.
Section Funded.
  Context (keccak : string -> string) (wshash : worker_set -> string)
          (sec1 : string -> option string)
          (crypto : key_type -> string -> string -> string -> option bool) (zero : bool).
  Definition funded_step (s : chain * bank) (t : btx) : res (syserror + berror) (chain * bank * list call) :=
    let? (st, calls) := map_err inl (system_step keccak wshash sec1 crypto s.1 (bt_tx t)) in
    let? b := map_err inr (pay_calls zero s.1 (bt_others t) 0 s.2 calls) in
    Ok (st, b, calls).
End Funded.
