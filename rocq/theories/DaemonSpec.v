(** What is asked of a run of the daemon as a whole, and of a worker set up
    with the commands. *)
From Verif Require Import Base Text StdModel RouterTypes RegistryTypes MultisigTypes EventsModel HandlersModel HandlersSpec
  SubscriptionModel SubscriptionSpec QueueModel QueueSpec SystemModel DaemonModel.

(** [r] is made of the lists [ls], each in its order. *)
Inductive interleaved {A} : list (list A) -> list A -> Prop :=
| interleaved_nil ls : Forall (fun l => l = []) ls -> interleaved ls []
| interleaved_take l1 x l l2 r : interleaved (l1 ++ l :: l2) r -> interleaved (l1 ++ (x :: l) :: l2) (x :: r).

(** The transactions of each handler in a run. *)
Definition handed_over {B} (acc : string -> bool) (b58 : string -> option string) (de_key : jval -> option string)
    (worker : addr) (x : drun B) (r : left_behind) : list (list wasm_tx) :=
  zip_with (fun h o => submitted acc b58 de_key worker h.1 h.2 [] (ho_given o.2)) (rn_handlers x) (lb_outcomes r).

(** The channel between handlers and queue loses nothing: what the queue finds
    in it is what the handlers were told is accepted. *)
Definition channel_keeps {B} (acc : string -> bool) (b58 : string -> option string) (de_key : jval -> option string)
    (worker : addr) (x : drun B) (r : left_behind) : Prop :=
  interleaved (handed_over acc b58 de_key worker x r) (received (rn_queue x)).

(** No EVM chain is written "sui" if there is a Sui handler of the same kind. *)
Definition no_evm_sui (l : list handler_config) : Prop :=
  ~ (exists a b, EvmMsgVerifier a "sui" ∈ l /\ SuiMsgVerifier b ∈ l) /\
  ~ (exists a b, EvmWorkerSetVerifier a "sui" ∈ l /\ SuiWorkerSetVerifier b ∈ l).

(** Block [k] with events [evs] was given to the handler, which succeeded on
    each event, and every transaction it made for one of them is in [done]. *)
Definition block_served (acc : string -> bool) (b58 : string -> option string) (de_key : jval -> option string)
    (worker : addr) (c : handler_config) (t : task_env) (given : list event) (k : N) (evs : list event)
    (done : list wasm_tx) : Prop :=
  exists pre post, given = pre ++ frame (k, evs) ++ post /\
    forall p e q, frame (k, evs) = p ++ e :: q ->
      exists o, handle acc b58 de_key worker c (te_calls t (pre ++ p)) e = Ok o /\
        forall tx, o = Some tx -> tx ∈ done.

(** A run of handler [c]: the configuration was accepted, [c] reads from the
    published events and does not lag before the block after [r]. *)
Definition fair_daemon {B} (decode : string -> option string) (json : string -> option jval)
    (acc : string -> bool) (b58 : string -> option string) (de_key : jval -> option string) (worker : addr)
    (s : heights) (x : drun B) (c : handler_config) (t : task_env) : Prop :=
  accepted (rn_handlers x).*1 = true /\ no_evm_sui (rn_handlers x).*1 /\ (c, t) ∈ rn_handlers x /\
  exists pub, published decode json s (session_of acc b58 de_key worker x) = Ok pub /\ delivers pub (te_items t) /\
    forall r, s !! label c = Some r -> no_lag_before (r + 1) (te_items t).

(** ** The key daemon *)

(** tofnd as proto/tofnd/multisig.proto describes it: a key is derived from a
    mnemonic and a key id, the newest mnemonic makes new keys, and [pub_key]
    in a request only tells which mnemonic to take. *)
Definition derived_keys (pub : string -> string -> string) (sig : string -> string -> string -> string)
    (mnemonics : list string) (t : tofnd) : Prop :=
  (forall uid, tf_keygen t uid = (fun m => pub m uid) <$> head mnemonics) /\
  (forall uid d pk,
     match tf_sign t uid d pk with
     | Some s => exists m, m ∈ mnemonics /\ pub m uid = pk /\ s = sig m uid d
     | None => forall m, m ∈ mnemonics -> pub m uid <> pk
     end).
(** Keys of different ids are different. *)
Definition ids_apart (pub : string -> string -> string) : Prop :=
  forall m m' uid uid', pub m uid = pub m' uid' -> uid = uid'.

(** The event is a request of [contract] for signatures in which [worker]
    takes part with [key]. *)
Definition asks_to_sign (de_key : jval -> option string) (ev : event) (contract worker : addr) (key : string) : Prop :=
  has_attr ev "wasm-signing_started" "_contract_address" (JStr contract) /\
  exists l v, has_attr ev "wasm-signing_started" "pub_keys" (JObj l) /\
    NoDup l.*1 /\ (worker, v) ∈ l /\ de_key v = Some key.

(** ** Several runs *)

(** In that run the handler called [l] was given block [k], succeeded on all
    its events, and all its transactions for them were broadcast. *)
Definition served_in {B} (decode : string -> option string) (json : string -> option jval)
    (acc : string -> bool) (b58 : string -> option string) (de_key : jval -> option string) (worker : addr)
    (l : string) (k : N) (entry : heights * drun B * left_behind) : Prop :=
  let '(_, x, r) := entry in
  exists c t o evs, label c = l /\ (c, t) ∈ rn_handlers x /\ (l, o) ∈ lb_outcomes r /\
    answered decode json (rn_inputs x) k evs /\
    block_served acc b58 de_key worker c t (ho_given o) k evs (delivered (lb_calls r)).

(** A run in which the queue did not stop with an error, unless the whole
    process was killed; the handler called [l] may not be configured. *)
Definition orderly {B} (decode : string -> option string) (json : string -> option jval)
    (acc : string -> bool) (b58 : string -> option string) (de_key : jval -> option string) (worker : addr)
    (l : string) (entry : heights * drun B * left_behind) : Prop :=
  let '(s, x, r) := entry in
  l ∉ label <$> (rn_handlers x).*1 \/
  exists c t, label c = l /\ fair_daemon decode json acc b58 de_key worker s x c t /\
    channel_keeps acc b58 de_key worker x r /\ (rn_killed x = false -> lb_queue r = Finished).

(** The events given so far end inside block [k]. *)
Definition inside (k : N) (given : list event) : Prop :=
  exists pre p, given = pre ++ BlockBegin k :: p /\ BlockEnd k ∉ p.
