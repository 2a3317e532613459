(** Model of ampd's block subscription, event processor and recorded heights:
    ampd/src/event_sub.rs, event_processor.rs, handlers/end_block.rs,
    handlers/chain.rs, state.rs, and their wiring in lib.rs and
    commands/daemon.rs. *)
From Verif Require Import Base Text EventsModel.

(** tendermint [block::Height]: below 2^63, [increment] panics beyond *)
Definition HEIGHTS : N := 2 ^ 63.
Definition increment {E} (h : N) : res E N := if h + 1 <? HEIGHTS then Ok (h + 1) else Panic.

(** tendermint [abci::Event] and [block_results::Response], the parts used *)
Record abci_event := { ae_type : string; ae_attrs : list (string * string) }.
Record block_results := {
  br_begin : option (list abci_event);
  br_txs : option (list (list abci_event));
  br_end : option (list abci_event);
}.

(** ** event_sub.rs *)

(** The node's answers while one tick of the timer is served: the latest
    height and the results of each block ([None]: the request fails), and
    whether the token is found cancelled after a block. *)
Record tick := {
  tk_latest : option N;
  tk_block : N -> option block_results;
  tk_cancelled : N -> bool;
}.
(** what [select!] yields: the timer or the cancellation (event_sub.rs:67-78) *)
Inductive sub_input := Tick (t : tick) | Cancelled.
(** EventSubError *)
Inductive sub_error := SubRpc | SubPublish.

Section Subscription.
  Context (decode : string -> option string) (json : string -> option jval).
  (** whether the next [send] finds a receiver, after the given events were
      sent (event_sub.rs:126-128) *)
  Context (receivers : list event -> bool).

  (** event_sub.rs:133-154 [events] *)
  Definition block_events (r : block_results) : list abci_event :=
    default [] (br_begin r) ++ concat (default [] (br_txs r)) ++ default [] (br_end r).

  (** event_sub.rs:114-124, the events of a block: nothing is sent before all
      of them are decoded *)
  Definition block_frame (t : tick) (h : N) : res sub_error (list event) :=
    let? r := of_option SubRpc (tk_block t h) in
    let? evs := of_option SubPublish
                  (opt_map (fun e => event_of_abci decode json (ae_type e) (ae_attrs e)) (block_events r)) in
    Ok (BlockBegin h :: evs ++ [BlockEnd h]).

  (** event_sub.rs:126-130; [pub]: everything sent so far *)
  Fixpoint send_all (pub evs : list event) : list event * res sub_error unit :=
    match evs with
    | [] => (pub, Ok tt)
    | e :: evs' => if receivers pub then send_all (pub ++ [e]) evs' else (pub, Err SubPublish)
    end.
  Definition process_block (t : tick) (pub : list event) (h : N) : list event * res sub_error unit :=
    match block_frame t h with
    | Ok evs => send_all pub evs
    | Err e => (pub, Err e)
    | Panic => (pub, Panic)
    end.

  (** event_sub.rs:92-112 [process_blocks_from]; [n] bounds the iterations *)
  Fixpoint process_blocks (n : nat) (t : tick) (to : N) (pub : list event) (h : N)
    : list event * res sub_error N :=
    match n with
    | O => (pub, Ok to)
    | S n' =>
        if h <=? to then
          match process_block t pub h with
          | (pub', Ok _) =>
              if tk_cancelled t h then (pub', Ok h)
              else match increment h with
                   | Ok h' => process_blocks n' t to pub' h'
                   | Err e => (pub', Err e)
                   | Panic => (pub', Panic)
                   end
          | (pub', Err e) => (pub', Err e)
          | (pub', Panic) => (pub', Panic)
          end
        else (pub, Ok to)
    end.
  Definition process_blocks_from (t : tick) (pub : list event) (from : N) : list event * res sub_error N :=
    match tk_latest t with
    | None => (pub, Err SubRpc)
    | Some to => process_blocks (N.to_nat (to + 1 - from)) t to pub from
    end.

  (** how [run] ended, or the height it would go on with *)
  Inductive sub_end := SubAt (h : N) | SubStopped | SubFailed (e : sub_error) | SubPanicked.

  (** event_sub.rs:60-79 [run], the loop *)
  Fixpoint sub_loop (pub : list event) (curr : N) (ins : list sub_input) : list event * sub_end :=
    match ins with
    | [] => (pub, SubAt curr)
    | Cancelled :: _ => (pub, SubStopped)
    | Tick t :: ins' =>
        match process_blocks_from t pub curr with
        | (pub', Ok h) =>
            match increment (E := sub_error) h with
            | Ok h' => sub_loop pub' h' ins'
            | Err e => (pub', SubFailed e)
            | Panic => (pub', SubPanicked)
            end
        | (pub', Err e) => (pub', SubFailed e)
        | (pub', Panic) => (pub', SubPanicked)
        end
    end.
  (** event_sub.rs:61-64: [latest] is the answer to the first request, made
      only if no start is given *)
  Definition sub_run (start : option N) (latest : option N) (ins : list sub_input) : list event * sub_end :=
    match start with
    | Some h => sub_loop [] h ins
    | None => match latest with
              | Some h => sub_loop [] h ins
              | None => ([], SubFailed SubRpc)
              end
    end.
End Subscription.

(** What a subscriber reads from the broadcast channel: events, or the notice
    that it was too slow and events are gone (tokio
    [BroadcastStreamRecvError::Lagged]). *)
Inductive item := Item (e : event) | Lagged.

(** event_sub.rs:157-162 [skip_to_block] *)
Fixpoint skip_to_block (height : N) (s : list item) : list item :=
  match s with
  | [] => []
  | Item (BlockBegin h) :: s' => if height <=? h then s else skip_to_block height s'
  | _ :: s' => skip_to_block height s'
  end.

(** ** event_processor.rs *)

(** One handler during one run of the daemon: what its stream yields, whether
    the handler proper succeeds on an event (given the events it was handed
    before), and whether the token is found cancelled after a block. *)
Record handler_env := {
  he_items : list item;
  he_ok : list event -> event -> bool;
  he_cancelled : list event -> bool;
}.
(** How the task ended. *)
Inductive task_end := StreamOver | Stopped | StreamError | HandlerError.
(** [ho_given]: the events handed to the handler; [ho_heights]: the heights it
    sent to the state updater; [ho_end] *)
Record outcome := { ho_given : list event; ho_heights : list N; ho_end : task_end }.

(** event_processor.rs:40-65 [consume_events] with chain.rs:38-52 and
    end_block.rs:34-41: the handler proper goes first, then the height of a
    finished block is sent, which fails if the receiver is gone
    ([recorded = false]). *)
Fixpoint consume (ok : list event -> event -> bool) (cancelled : list event -> bool) (recorded : bool)
    (given : list event) (heights : list N) (s : list item) : outcome :=
  match s with
  | [] => {| ho_given := given; ho_heights := heights; ho_end := StreamOver |}
  | Lagged :: _ => {| ho_given := given; ho_heights := heights; ho_end := StreamError |}
  | Item e :: s' =>
      let given' := given ++ [e] in
      if ok given e then
        match e with
        | BlockEnd h =>
            if recorded then
              if cancelled given'
              then {| ho_given := given'; ho_heights := heights ++ [h]; ho_end := Stopped |}
              else consume ok cancelled recorded given' (heights ++ [h]) s'
            else {| ho_given := given'; ho_heights := heights; ho_end := HandlerError |}
        | _ => consume ok cancelled recorded given' heights s'
        end
      else {| ho_given := given'; ho_heights := heights; ho_end := HandlerError |}
  end.

(** ** state.rs, lib.rs *)

(** state.rs:25-29 [State], the heights. state.rs:32-34 *)
Definition heights := gmap string N.
Definition min_height (s : heights) : option N :=
  match (map_to_list s).*2 with
  | [] => None
  | h :: l => Some (foldr N.min h l)
  end.
(** lib.rs:160-164 *)
Definition start_from (s : heights) : res sub_error (option N) :=
  match min_height s with
  | None => Ok None
  | Some h => let? h' := increment h in Ok (Some h')
  end.

(** state.rs:66-73 [register_event]: a later registration under the same
    label replaces the receiver of the earlier one, which is dropped *)
Definition keeps_receiver (later : list string) (label : string) : bool :=
  negb (bool_decide (label ∈ later)).

(** lib.rs:265-285 [configure_handler] and the run of the handler's task *)
Definition run_handler (s : heights) (label : string) (later : list string) (e : handler_env)
  : res sub_error outcome :=
  let? items := match s !! label with
                | None => Ok (he_items e)
                | Some h => let? h' := increment h in Ok (skip_to_block h' (he_items e))
                end in
  Ok (consume (he_ok e) (he_cancelled e) (keeps_receiver later label) [] [] items).

(** all handlers, in the order of the configuration *)
Fixpoint run_handlers (s : heights) (hs : list (string * handler_env)) : res sub_error (list (string * outcome)) :=
  match hs with
  | [] => Ok []
  | (label, e) :: hs' =>
      let? o := run_handler s label hs'.*1 e in
      let? os := run_handlers s hs' in
      Ok ((label, o) :: os)
  end.

(** state.rs:75-82 [StateUpdater::run]: the heights of a label arrive in the
    order they were sent; those of different labels do not interfere. A
    handler whose receiver was dropped sends none. *)
Definition record_heights (s : heights) (label : string) (hs : list N) : heights :=
  match last hs with None => s | Some h => <[label := h]> s end.
Definition final_heights (s : heights) (os : list (string * outcome)) : heights :=
  foldl (fun s lo => record_heights s lo.1 (ho_heights lo.2)) s os.

(** One run of the daemon. [se_crashed]: it was killed rather than ending by
    itself; then nothing is written (commands/daemon.rs:9-27, state.rs:104-115). *)
Record session := {
  se_latest : option N;
  se_inputs : list sub_input;
  se_receivers : list event -> bool;
  se_handlers : list (string * handler_env);
  se_crashed : bool;
}.
Section Sessions.
  Context (decode : string -> option string) (json : string -> option jval).
  Definition published (s : heights) (x : session) : res sub_error (list event) :=
    let? start := start_from s in
    Ok (sub_run decode json (se_receivers x) start (se_latest x) (se_inputs x)).1.
  Definition run_session (s : heights) (x : session) : res sub_error (heights * list (string * outcome)) :=
    let? _ := start_from s in
    let? os := run_handlers s (se_handlers x) in
    Ok (if se_crashed x then s else final_heights s os, os).
  (** one run after the other, each starting from the heights on disk *)
  Fixpoint run_sessions (s : heights) (xs : list session)
    : heights * list (heights * session * list (string * outcome)) :=
    match xs with
    | [] => (s, [])
    | x :: xs' =>
        match run_session s x with
        | Ok (s', os) => let (s'', l) := run_sessions s' xs' in (s'', (s, x, os) :: l)
        | _ => run_sessions s xs'
        end
    end.
End Sessions.
