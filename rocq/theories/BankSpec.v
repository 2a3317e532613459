(** Vocabulary of the statements about coins. *)
From Verif Require Import Base Text StdModel RouterTypes RegistryTypes OperatorsModel MultisigTypes
  RewardsModel RegistryModel MultisigModel EncodingModel ProverModel SystemModel SystemSpec BankModel.

Section Spec.
  Context (keccak : string -> string) (wshash : worker_set -> string)
          (sec1 : string -> option string)
          (crypto : key_type -> string -> string -> string -> option bool) (zero : bool).
  Notation step := (funded_step keccak wshash sec1 crypto zero).
  (** State and balances after the transactions, and all calls made. *)
  Definition funded_run (dep : gmap addr deployed) (b : bank) (ts : list btx) : chain * bank :=
    run step (system_init dep, b) ts.
  Definition funded_history (dep : gmap addr deployed) (b : bank) (ts : list btx) : list call :=
    log step (system_init dep, b) ts ≫= snd.
End Spec.

(** The sum of a rewards contract's pools. *)
Definition pooled (s : rstate) : N := msum (fun _ n => n) (r_pools s).
(** All coins of a denomination. *)
Definition supply (b : bank) (d : string) : N := msum (fun x n => if bool_decide (x.2 = d) then n else 0) b.
(** The amount of a denomination in payments. *)
Definition moved (d : string) (l : list move) : N :=
  lsum (fun m => if bool_decide (mv_denom m = d) then mv_amount m else 0) l.
(** All payments of a transaction, in order: what others pay before each call,
    the coins of the call, and what others pay at the end. *)
Fixpoint tx_moves (others : nat -> list move) (n : nat) (l : list call) : list move :=
  others n ++ match l with
  | [] => []
  | k :: rest => attached k ++ payments k ++ tx_moves others (S n) rest
  end.
(** A call claiming a bond of zero coins. *)
Definition zero_claim (k : call) : Prop := exists s svc sv w t,
  k_chain k !! k_to k = Some (CRegistry s) /\ sb_body (k_sub k) = BClaim svc /\
  sr_services s !! svc = Some sv /\ sr_workers s !! (svc, k_sender k) = Some w /\ w_bond w = Unbonding 0 t.
(** Nobody else pays anybody during the transaction. *)
Definition nobody_else (t : btx) : Prop := forall n, bt_others t n = [].
(** The transaction of an account calling one contract, without coins. *)
Definition simple (g : nat) (e : env) (w to : addr) (bd : body) : btx :=
  {| bt_tx := {| tx_gas := S g; tx_env := e; tx_sender := w; tx_sub := plain to bd |}; bt_others := fun _ => [] |}.
