(** What is asked of the subscription and of the recorded heights. *)
From Verif Require Import Base Text EventsModel SubscriptionModel.

(** A block's events between its markers. *)
Definition frame (b : N * list event) : list event := BlockBegin b.1 :: b.2 ++ [BlockEnd b.1].
Definition frames (fs : list (N * list event)) : list event := concat (frame <$> fs).

(** An event of the node with attributes [l] is read as [e]: all keys and
    values decode; a value is what it means as JSON, or a string if it is not
    JSON; of several attributes with the same key the last counts. *)
Definition event_read (decode : string -> option string) (json : string -> option jval)
    (ty : string) (l : list (string * string)) (e : event) : Prop :=
  (forall a, a ∈ l -> is_Some (decode a.1) /\ is_Some (decode a.2)) /\
  exists m, e = Abci ty m /\
    forall k v, m !! k = Some v <->
      exists l1 a l2, l = l1 ++ a :: l2 /\ decode a.1 = Some k /\
        (exists s, decode a.2 = Some s /\ (json s = Some v \/ json s = None /\ v = JStr s)) /\
        forall b, b ∈ l2 -> decode b.1 <> Some k.

(** [evs] is what the node answered for block [h] at one of the ticks: the
    events of its beginning, of its transactions and of its end, decoded. *)
Definition answered (decode : string -> option string) (json : string -> option jval)
    (ins : list sub_input) (h : N) (evs : list event) : Prop :=
  exists t r, Tick t ∈ ins /\ tk_block t h = Some r /\
    Forall2 (fun a e => event_of_abci decode json (ae_type a) (ae_attrs a) = Some e)
      (default [] (br_begin r) ++ concat (default [] (br_txs r)) ++ default [] (br_end r)) evs.

(** From [from] on, no height is passed over. *)
Fixpoint no_gaps (from : N) (hs : list N) : Prop :=
  match hs with
  | [] => True
  | h :: hs' => h <= from /\ no_gaps (h + 1) hs'
  end.
(** the heights [from], [from + 1], ... *)
Fixpoint consecutive_from (from : N) (hs : list N) : Prop :=
  match hs with
  | [] => True
  | h :: hs' => h = from /\ consecutive_from (h + 1) hs'
  end.

(** The latest heights the node answers with never decrease and are not below
    the block before [start]. *)
Fixpoint latest_grow (low : N) (ins : list sub_input) : Prop :=
  match ins with
  | [] => True
  | Cancelled :: ins' => latest_grow low ins'
  | Tick t :: ins' =>
      match tk_latest t with
      | None => latest_grow low ins'
      | Some to => low <= to + 1 /\ latest_grow (to + 1) ins'
      end
  end.

(** What a subscriber may read of the published events: all of them in order
    up to some point, runs of them replaced by the notice of a lag. *)
Inductive delivers : list event -> list item -> Prop :=
| delivers_end es : delivers es []
| delivers_item e es s : delivers es s -> delivers (e :: es) (Item e :: s)
| delivers_lag lost es s : lost <> [] -> delivers es s -> delivers (lost ++ es) (Lagged :: s).

(** The subscriber does not lag before it comes to block [height] or later. *)
Definition no_lag_before (height : N) (s : list item) : Prop :=
  Lagged ∉ take (length s - length (skip_to_block height s)) s.

(** Among the events [given] to a handler is the frame of block [h] with the
    events [evs], and the handler succeeded on all of them. *)
Definition handled_block (ok : list event -> event -> bool) (given : list event) (h : N)
    (evs : list event) : Prop :=
  exists pre post, given = pre ++ frame (h, evs) ++ post /\
    forall p e q, frame (h, evs) = p ++ e :: q -> ok (pre ++ p) e = true.

(** Handler [e], called [label], is configured once in run [x]. *)
Definition configured (x : session) (label : string) (e : handler_env) : Prop :=
  exists l1 l2, se_handlers x = l1 ++ (label, e) :: l2 /\ label ∉ l1.*1 /\ label ∉ l2.*1.

(** A tick that goes well: the node's latest height is [to], it answers for
    every block from [from] on up to there with events that can be decoded, and
    nothing is cancelled. *)
Definition good_tick (decode : string -> option string) (json : string -> option jval)
    (from : N) (to : N) (t : tick) : Prop :=
  tk_latest t = Some to /\ to + 1 < HEIGHTS /\ (forall h, tk_cancelled t h = false) /\
  forall h, from <= h -> h <= to -> exists evs, answered decode json [Tick t] h evs.
(** ... and the ticks that go well one after the other, up to height [to] *)
Fixpoint good_ticks (decode : string -> option string) (json : string -> option jval)
    (from : N) (ins : list sub_input) (to : N) : Prop :=
  match ins with
  | [] => to + 1 = from
  | Cancelled :: _ => False
  | Tick t :: ins' => exists h, from <= h + 1 /\ good_tick decode json from h t /\
                        good_ticks decode json (h + 1) ins' to
  end.

(** In a run, the handler called [label] is configured at most once, reads
    from the published events, and does not lag before it gets to where it
    left off. *)
Definition fair_run (decode : string -> option string) (json : string -> option jval) (label : string)
    (entry : heights * session * list (string * outcome)) : Prop :=
  let '(s, x, _) := entry in
  label ∉ (se_handlers x).*1 \/
  exists e pub, configured x label e /\ published decode json s x = Ok pub /\ delivers pub (he_items e) /\
    forall r, s !! label = Some r -> no_lag_before (r + 1) (he_items e).

(** The block was completely handled by the handler called [label] in that run. *)
Definition handled_in (decode : string -> option string) (json : string -> option jval) (label : string) (k : N)
    (entry : heights * session * list (string * outcome)) : Prop :=
  let '(_, x, os) := entry in
  exists e o evs, configured x label e /\ (label, o) ∈ os /\
    answered decode json (se_inputs x) k evs /\ handled_block (he_ok e) (ho_given o) k evs.
