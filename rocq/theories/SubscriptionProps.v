(** C59: the blocks that are published to a worker's handlers, and the heights
    that are recorded. *)
From Verif Require Import Base Text RouterTypes VerifierModel EventsModel HandlersModel HandlersSpec WorkersSpec SubscriptionModel
  SubscriptionSpec SubscriptionProofs SubscriptionProofs3 SubscriptionProofs4 SubscriptionProofs5 SubscriptionExamples.

(** ** Publishing *)

(** Events are read in exactly this way, and refused otherwise. *)
Theorem C59_events_read : forall decode json ty l e,
  event_of_abci decode json ty l = Some e <-> event_read decode json ty l e.
Proof. exact c59_read. Qed.
Print Assumptions C59_events_read.
(** a repeated attribute, a number, a text *)
Example C59_ex_read : forall json, json "7" = Some (JNum 7) -> json "eth" = None ->
  exists m, event_of_abci sx_decode json "e" [("a", "eth"); ("b", "7"); ("a", "7"); ("c", "eth")] = Some (Abci "e" m) /\
    m !! "a" = Some (JNum 7) /\ m !! "b" = Some (JNum 7) /\ m !! "c" = Some (JStr "eth") /\ m !! "d" = None.
Proof. exact sx_read. Qed.

(** What is published are whole blocks, in the order and with the events the
    node gave, none passed over; the last one may be cut off if publishing
    failed. Every block comes once and in order if the node's latest height
    never goes back. *)
Theorem C59_published : forall decode json receivers start ins pub e,
  sub_loop decode json receivers [] start ins = (pub, e) ->
  exists fs, pub `prefix_of` frames fs /\ no_gaps start fs.*1 /\
    Forall (fun b => answered decode json ins b.1 b.2) fs /\
    ((exists h, e = SubAt h) \/ e = SubStopped -> pub = frames fs) /\
    (latest_grow start ins -> consecutive_from start fs.*1).
Proof. exact sub_publishes. Qed.
Print Assumptions C59_published.

(** And if the node answers every request, all blocks up to its latest one are
    published. *)
Theorem C59_published_all : forall decode json receivers,
  (forall pub, receivers pub = true) -> forall ins start to,
  good_ticks decode json start ins to ->
  exists fs, sub_loop decode json receivers [] start ins = (frames fs, SubAt (to + 1)) /\
    fs.*1 = (fun i => start + N.of_nat i) <$> seq 0 (N.to_nat (to + 1 - start)) /\
    Forall (fun b => answered decode json ins b.1 b.2) fs.
Proof. exact sub_publishes_all. Qed.
Print Assumptions C59_published_all.
Example C59_ex_ticks : good_ticks sx_decode sx_json 6 [sx_tick 8; sx_tick 8; sx_tick 13] 13.
Proof. exact sx_good_ticks. Qed.

(** A block with an event that cannot be decoded is never published, and no
    block after it. *)
Theorem C59_unreadable_block : forall decode json receivers ins start pub e h,
  sub_loop decode json receivers [] start ins = (pub, e) -> start <= h ->
  (forall evs, ~ answered decode json ins h evs) ->
  forall k, BlockBegin k ∈ pub -> k < h.
Proof. exact unreadable_block. Qed.
Print Assumptions C59_unreadable_block.

(** "Exactly once" is false if it does go back. *)
Theorem C59_once_refuted : exists decode json ins fs,
  sub_loop decode json (fun _ => true) [] 5 ins = (frames fs, SubAt 7) /\
  fs.*1 = [5; 4; 5; 6] /\ Forall (fun b => answered decode json ins b.1 b.2) fs.
Proof. exact sub_regress. Qed.
Print Assumptions C59_once_refuted.

(** ** Handling *)

(** In one run: a handler with a recorded height goes on with the next block,
    the height it leaves behind is of a block it has completely handled, and
    so are all in between. Nothing is written if the daemon is killed. *)
Theorem C59_run : forall decode json s x s' os label e r pub,
  run_session s x = Ok (s', os) -> configured x label e -> s !! label = Some r ->
  published decode json s x = Ok pub -> delivers pub (he_items e) -> no_lag_before (r + 1) (he_items e) ->
  exists o r', (label, o) ∈ os /\ s' !! label = Some r' /\
    (forall e1 l, ho_given o = e1 :: l -> e1 = BlockBegin (r + 1)) /\
    (forall h, h ∈ ho_heights o \/ h = r' -> forall k, r < k -> k <= h ->
       exists evs, answered decode json (se_inputs x) k evs /\ handled_block (he_ok e) (ho_given o) k evs) /\
    (se_crashed x = true -> s' = s) /\
    (se_crashed x = false -> ho_heights o = [] /\ r' = r \/ last (ho_heights o) = Some r').
Proof. exact run_resumes. Qed.
Print Assumptions C59_run.

Theorem C59_not_configured : forall s x s' os label,
  run_session s x = Ok (s', os) -> label ∉ (se_handlers x).*1 -> s' !! label = s !! label.
Proof. exact run_not_configured. Qed.
Print Assumptions C59_not_configured.

(** Over any number of runs and crashes, every block between the first and the
    last recorded height was completely handled in one of them. *)
Theorem C59_restarts : forall decode json s xs s' log label r,
  run_sessions s xs = (s', log) -> s !! label = Some r -> Forall (fair_run decode json label) log ->
  exists r', s' !! label = Some r' /\
    forall k, r < k -> k <= r' -> Exists (handled_in decode json label k) log.
Proof. exact sessions_lose_nothing. Qed.
Print Assumptions C59_restarts.
Example C59_ex_runs :
  let (s, log) := run_sessions sx_start [sx_run1; sx_run2] in
  s !! "a" = Some 9 /\ s !! "b" = Some 9 /\ Forall (fair_run sx_decode sx_json "a") log /\
  (fun x : heights * session * list (string * outcome) => (ho_given <$> x.2.*2)) <$> log =
    [ [ frames [sx_block 6] ++ [BlockBegin 7; sx_ev]; frames (sx_block <$> [5; 6; 7; 8]) ];
      [ frames (sx_block <$> [7; 8; 9]); frames [sx_block 9] ] ].
Proof. exact sx_runs. Qed.

(** A handler that succeeds on everything is given everything it reads, and
    every finished block is recorded. *)
Theorem C59_all_recorded : forall ok cancelled es,
  (forall g e, ok g e = true) -> (forall g, cancelled g = false) ->
  let o := consume ok cancelled true [] [] (Item <$> es) in
  ho_given o = es /\ (forall h, h ∈ ho_heights o <-> BlockEnd h ∈ es) /\ ho_end o = StreamOver.
Proof. exact consume_all. Qed.
Print Assumptions C59_all_recorded.

(** The other side: a block with an event on which the handler always fails is
    never passed, however often the daemon is started again. With
    [C67_message_id_stops_handler]: after one call that anyone can make, the
    message handlers of all EVM chains are stuck for good. *)
Theorem C59_poisoned_block : forall decode json s xs s' log label r k,
  run_sessions s xs = (s', log) -> s !! label = Some r -> Forall (fair_run decode json label) log -> r < k ->
  (forall s0 x os e evs, (s0, x, os) ∈ log -> configured x label e -> answered decode json (se_inputs x) k evs ->
     exists ev, ev ∈ evs /\ forall given, he_ok e given ev = false) ->
  exists r', s' !! label = Some r' /\ r' < k.
Proof. exact poisoned_block. Qed.
Print Assumptions C59_poisoned_block.
Theorem C59_bad_id_stuck_forever : forall decode json acc cfg s xs s' log label r k,
  run_sessions s xs = (s', log) -> s !! label = Some r -> Forall (fair_run decode json label) log -> r < k ->
  (forall s0 x os e, (s0, x, os) ∈ log -> configured x label e -> evm_task acc cfg e) ->
  (forall s0 x os evs, (s0, x, os) ∈ log -> answered decode json (se_inputs x) k evs ->
     exists contract es meta e, messages_poll_event json contract es meta ∈ evs /\
       e ∈ es /\ forall t, ~ hex_bytes 32 (te_tx_id e) t) ->
  exists r', s' !! label = Some r' /\ r' < k.
Proof. exact bad_id_stuck_forever. Qed.
Print Assumptions C59_bad_id_stuck_forever.

(** ** Three ways to lose blocks *)

(** Notices of a lag are dropped while a handler skips what it knows: the
    blocks that are gone are never handled, yet passed. *)
Theorem C59_lag_refuted : exists decode json s x s' os pub e o,
  run_session s x = Ok (s', os) /\ configured x "b" e /\ s !! "b" = Some 5 /\
  published decode json s x = Ok pub /\ delivers pub (he_items e) /\
  BlockBegin 6 ∈ pub /\ BlockBegin 7 ∈ pub /\
  ("b", o) ∈ os /\ s' !! "b" = Some 8 /\ BlockBegin 6 ∉ ho_given o /\ BlockBegin 7 ∉ ho_given o /\ ho_end o = StreamOver.
Proof. exact lag_loses. Qed.
Print Assumptions C59_lag_refuted.

(** A handler that has not finished a block when another has goes on after the
    blocks of the other. *)
Theorem C59_new_handler_refuted : exists decode json x1 s1 os1 o1 x2 s2 os2 o2 pub1 pub2,
  published decode json ∅ x1 = Ok pub1 /\ BlockBegin 11 ∈ pub1 /\
  run_session ∅ x1 = Ok (s1, os1) /\ ("b", o1) ∈ os1 /\ ho_given o1 = [BlockBegin 10; Abci "e" ∅] /\
  published decode json s1 x2 = Ok pub2 /\
  run_session s1 x2 = Ok (s2, os2) /\ ("b", o2) ∈ os2 /\ BlockBegin 10 ∉ ho_given o2 /\ BlockBegin 11 ∉ ho_given o2 /\
  s2 !! "b" = Some 12.
Proof. exact new_handler_loses. Qed.
Print Assumptions C59_new_handler_refuted.

(** Of two handlers of the same name only the last one's progress counts. *)
Theorem C59_same_name_refuted : exists decode json s x s' os pub o,
  published decode json s x = Ok pub /\ BlockBegin 7 ∈ pub /\ s !! "a" = Some 5 /\
  run_session s x = Ok (s', os) /\ ("a", o) ∈ os /\ BlockBegin 7 ∉ ho_given o /\ ho_end o = HandlerError /\
  s' !! "a" = Some 8.
Proof. exact same_name_loses. Qed.
Print Assumptions C59_same_name_refuted.
