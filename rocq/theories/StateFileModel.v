(** Model of the file in which the worker daemon keeps how far its handlers
    got and the key it signs with, and of the daemon started again and again
    over that file: ampd/src/state.rs, ampd/src/commands/daemon.rs. *)
From Verif Require Import Base Text StdModel EventsModel JsonModel WireModel HandlersModel SubscriptionModel QueueModel
  DaemonModel.

(** state.rs:25-29 [State] *)
Record dstate := { ds_handlers : heights; ds_key : option string }.

(** What reading the path gives (state.rs:94, [fs::read_to_string]): [NoText]
    stands for every error, whether there is no such file, it must not be read
    or it does not hold UTF-8. *)
Inductive file := NoText | Holds (s : string).

(** state.rs:15-23. Simplification: writing never fails before the file is
    touched because of the text itself. *)
Inductive state_error := InvalidState.

Section StateFile.
  (** cosmrs' JSON of a public key, which is not part of the repository *)
  Context (e_key : string -> jval) (d_key : jval -> option string).

  (** tendermint's [block::Height]: a decimal number of 64 bits in a string *)
  Definition d_state_fields (h k : option jval) : option dstate :=
    hs ← h ≫= d_map (d_uint U64);
    key ← match k with None => Some None | Some v => d_opt d_key v end;
    Some {| ds_handlers := hs; ds_key := key |}.
  (** state.rs:25 [Deserialize]: an object, whose other members are passed
      over, or an array of the two fields *)
  Definition d_state (v : jval) : option dstate :=
    match v with
    | JArr [h; k] => d_state_fields (Some h) (Some k)
    | _ => struct_open ["handlers"; "pub_key"]
             (fun l => d_state_fields (assoc "handlers" l) (assoc "pub_key" l)) v
    end.

  (** state.rs:91-101 [load] *)
  Definition load (f : file) : res state_error dstate :=
    match f with
    | NoText => Ok {| ds_handlers := ∅; ds_key := None |}
    | Holds s => of_option InvalidState (of_wire s ≫= d_state)
    end.

  (** state.rs:106: the text, the handlers being gone through in the order [l] *)
  Definition state_value (l : list (string * N)) (key : option string) : jval :=
    JObj [("handlers", JObj ((fun p => (p.1, e_uint p.2)) <$> l));
          ("pub_key", match key with Some k => e_key k | None => JNull end)].
  Definition state_text (l : list (string * N)) (key : option string) : string := to_json (state_value l key).

  (** A text of a state: a [HashMap] is gone through in any order. *)
  Definition text_of_state (s : dstate) (t : string) : Prop :=
    exists l, l ≡ₚ map_to_list (ds_handlers s) /\ Forall (fun p => p.2 < U64) l /\ t = state_text l (ds_key s).

  (** state.rs:103-114 [flush] on a path that held [f], [fs::write] emptying
      the file before it writes: [done] says whether the process gets to the
      end of it without an error. *)
  Inductive flushed (s : dstate) (f : file) : bool -> file -> Prop :=
  | flush_done t : text_of_state s t -> flushed s f true (Holds t)
  | flush_before : flushed s f false f
  | flush_amid t p q : text_of_state s t -> t = p +:+ q -> q <> "" -> flushed s f false (Holds p).

  Section Runs.
    Context (is_account : string -> bool) (base58 : string -> option string) (de_key : jval -> option string).
    Context (worker : addr).
    Context (decode : string -> option string) (json : string -> option jval).
    Context {B : Type} (estimate : B -> list wasm_tx -> B * option N) (broadcast : B -> list wasm_tx -> B * bool).
    Context (batch_gas_limit : N).

    (** lib.rs:86-98: the key of the state, otherwise the one [keygen] gives *)
    Definition key_used (saved : option string) (k : string) : Prop :=
      match saved with Some k' => k = k' | None => True end.

    (** commands/daemon.rs:9-27 over the file. What is recorded is the state
        the run started from, its inputs and what it left behind. *)
    Inductive started (f : file) (x : drun B) : file -> option (dstate * drun B * left_behind) -> Prop :=
    (** the file cannot be read as a state: commands/daemon.rs:10 *)
    | start_refused : load f = Err InvalidState -> started f x f None
    (** lib.rs:49-56: preparing fails; the state as it was loaded is written *)
    | start_unprepared s done f' : load f = Ok s -> flushed s f done f' -> started f x f' None
    (** the process ends in a panic *)
    | start_panic s : load f = Ok s -> is_ok (run_daemon is_account base58 de_key worker decode json estimate broadcast
        batch_gas_limit (ds_handlers s) x) = false -> started f x f None
    | start_ran s r k f' : load f = Ok s ->
        run_daemon is_account base58 de_key worker decode json estimate broadcast batch_gas_limit (ds_handlers s) x = Ok r ->
        key_used (ds_key s) k ->
        flushed {| ds_handlers := final_heights (ds_handlers s) (lb_outcomes r); ds_key := Some k |} f
          (negb (rn_killed x || negb (rn_flush x))) f' ->
        started f x f' (Some (s, x, r)).

    (** one start after the other *)
    Inductive starts : file -> list (drun B) -> file -> list (dstate * drun B * left_behind) -> Prop :=
    | starts_none f : starts f [] f []
    | starts_more f x f1 o xs f' log : started f x f1 o -> starts f1 xs f' log ->
        starts f (x :: xs) f' (option_list o ++ log).
  End Runs.
End StateFile.
