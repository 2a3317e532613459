(** ampd/src/broadcaster.rs: the client that signs, broadcasts and confirms a
    worker's transactions. *)
From Verif Require Import Base Text QueueModel.

(** cosmrs [Fee]: amount of the fee coin and gas limit; the denomination and
    the unset payer and granter are left out *)
Record fee := { f_amount : N; f_gas : N }.

(** broadcaster/tx.rs:28-37 [Tx] with the chain id and the account number of
    the sign doc (tx.rs:58-89). The Protobuf encodings are left out: a
    transaction is what it encodes. *)
Record tx (M : Type) := { tx_msgs : list M; tx_fee : fee; tx_seq : N; tx_chain : string; tx_acc : N }.
Arguments tx_msgs {M}. Arguments tx_fee {M}. Arguments tx_seq {M}. Arguments tx_chain {M}. Arguments tx_acc {M}.
Arguments Build_tx {M}.

(** The answer to [get_tx] (broadcaster.rs:242-256): a status other than ok,
    no transaction, a transaction with its code. *)
Inductive tx_answer := TUnavailable | TMissing | TCode (code : N).

(** The calls to the node and the signer, with their answers. *)
Inductive rpc (M : Type) :=
| RSimulate (t : tx M) (answer : option (option N))   (** no answer, no gas info, gas used *)
| RSign (t : tx M) (ok : bool)
| RBroadcast (t : tx M) (hash : option string)
| RGetTx (hash : string) (answer : tx_answer).
Arguments RSimulate {M}. Arguments RSign {M}. Arguments RBroadcast {M}. Arguments RGetTx {M}.

(** broadcaster.rs:37-49 [Error] *)
Inductive berr := BTxBuilding | BGasEstimation | BBroadcastFailed | BTxConfirmation | BExecution (code : N).

(** broadcaster.rs:51-63 [Config], 87-98 [BroadcastClient]: what does not change.
    [bc_fee] is lines 170-178, from the gas used to the fee: floating point
    arithmetic with the configured adjustment and price, taken as any function. *)
Record bconfig := { bc_chain : string; bc_acc : N; bc_max_retries : N; bc_fee : N -> fee }.

Section Client.
  (** The node and the signer: their state [W] and their answers. *)
  Context {W M : Type}.
  Context (simulate : W -> tx M -> W * option (option N)).
  Context (sign : W -> tx M -> W * bool).
  Context (broadcast_tx : W -> tx M -> W * option string).
  Context (get_tx : W -> string -> W * tx_answer).
  Context (cfg : bconfig).

  (** The mutable part of [BroadcastClient]; [cl_log], all calls made so far,
      is not in the code. *)
  Record client := { cl_seq : N; cl_world : W; cl_log : list (rpc M) }.

  (** tx.rs:17-18, 43-51, 91-100 [zero_fee], [with_dummy_sig] *)
  Definition dummy_tx (ms : list M) (seq : N) : tx M :=
    {| tx_msgs := ms; tx_fee := {| f_amount := 0; f_gas := 0 |}; tx_seq := seq;
       tx_chain := "dummy_chain_id"; tx_acc := 0 |}.

  (** broadcaster.rs:155-199 [estimate_fee], [estimate_gas]. The errors of
      building a transaction are left out: the builder has all its fields. *)
  Definition estimate_fee (c : client) (ms : list M) : client * res berr fee :=
    let t := dummy_tx ms (cl_seq c) in
    let (w, answer) := simulate (cl_world c) t in
    ({| cl_seq := cl_seq c; cl_world := w; cl_log := cl_log c ++ [RSimulate t answer] |},
     match answer with
     | Some (Some gas) => Ok (bc_fee cfg gas)
     | _ => Err BGasEstimation
     end).

  (** broadcaster.rs:201-239 [confirm_tx]: at most [n] attempts. The sleep
      between two attempts is left out. *)
  Fixpoint confirm (n : nat) (c : client) (hash : string) : client * res berr unit :=
    match n with
    | O => (c, Err BTxConfirmation)
    | S n =>
        let (w, answer) := get_tx (cl_world c) hash in
        let c' := {| cl_seq := cl_seq c; cl_world := w; cl_log := cl_log c ++ [RGetTx hash answer] |} in
        match answer with
        | TCode 0 => (c', Ok tt)
        | TCode code => (c', Err (BExecution code))
        | TUnavailable | TMissing => confirm n c' hash
        end
    end.

  (** [tx_fetch_max_retries + 1] on u32 *)
  Definition confirm_tx (c : client) (hash : string) : client * res berr unit :=
    match checked (E:=berr) U32 (bc_max_retries cfg + 1) with
    | Ok n => confirm (N.to_nat n) c hash
    | _ => (c, Panic)
    end.

  (** broadcaster.rs:105-153 [broadcast]. The code of the answer to
      [broadcast_tx] is not looked at. *)
  Definition client_broadcast (c : client) (ms : list M) : client * res berr unit :=
    let (c1, f) := estimate_fee c ms in
    match f with
    | Err e => (c1, Err e)
    | Panic => (c1, Panic)
    | Ok f =>
        let t := {| tx_msgs := ms; tx_fee := f; tx_seq := cl_seq c1; tx_chain := bc_chain cfg; tx_acc := bc_acc cfg |} in
        let (w2, signed) := sign (cl_world c1) t in
        let c2 := {| cl_seq := cl_seq c1; cl_world := w2; cl_log := cl_log c1 ++ [RSign t signed] |} in
        if negb signed then (c2, Err BTxBuilding)
        else
          let (w3, answer) := broadcast_tx (cl_world c2) t in
          let c3 := {| cl_seq := cl_seq c2; cl_world := w3; cl_log := cl_log c2 ++ [RBroadcast t answer] |} in
          match answer with
          | None => (c3, Err BBroadcastFailed)
          | Some hash =>
              let (c4, r) := confirm_tx c3 hash in
              match r with
              | Ok _ =>
                  match add_u64 (E:=berr) (cl_seq c4) 1 with
                  | Ok s => ({| cl_seq := s; cl_world := cl_world c4; cl_log := cl_log c4 |}, Ok tt)
                  | _ => (c4, Panic)
                  end
              | Err e => (c4, Err e)
              | Panic => (c4, Panic)
              end
          end
    end.

  (** A user of the client: estimates and broadcasts, in any order, whatever
      the answers. *)
  Inductive request := ReqEstimate (ms : list M) | ReqBroadcast (ms : list M).

  (** Whether the client is still there: it is gone after a panic. *)
  Definition request_step (c : client) (r : request) : client * bool :=
    match r with
    | ReqEstimate ms => let (c', f) := estimate_fee c ms in (c', match f with Panic => false | _ => true end)
    | ReqBroadcast ms => let (c', x) := client_broadcast c ms in (c', match x with Panic => false | _ => true end)
    end.

  Fixpoint requests (c : client) (rs : list request) : client * bool :=
    match rs with
    | [] => (c, true)
    | r :: rs =>
        let (c1, alive) := request_step c r in
        if alive then requests c1 rs else (c1, false)
    end.

  (** The client as the queue's broadcaster (lib.rs:108-127). A panic in the
      client ends the queue's task like an error. *)
  Definition queue_estimate (c : client) (ms : list M) : client * option N :=
    let (c', f) := estimate_fee c ms in (c', match f with Ok f => Some (f_gas f) | _ => None end).
  Definition queue_broadcast (c : client) (ms : list M) : client * bool :=
    let (c', r) := client_broadcast c ms in (c', is_ok r).
End Client.
Arguments ReqEstimate {M}. Arguments ReqBroadcast {M}.
Arguments cl_seq {W M}. Arguments cl_world {W M}. Arguments cl_log {W M}. Arguments Build_client {W M}.
