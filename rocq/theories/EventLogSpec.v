(** What an observer makes of the events of a contract, from their texts
    alone. *)
From Verif Require Import Base Text StdModel RouterTypes MultisigTypes RouterModel GatewayModel MultisigModel
  VerifierModel EventsModel JsonModel JsonSpec WireModel EventLogModel.

(** The value of an attribute, and whether it has a value. *)
Fixpoint attr (k : string) (l : text) : option string :=
  match l with
  | [] => None
  | (k', v) :: l' => if String.eqb k' k then Some v else attr k l'
  end.
Definition has (k v : string) (e : emitted) : bool := bool_decide (attr k e.2 = Some v).
Definition ty (t : string) (e : emitted) : bool := String.eqb e.1 t.

(** How an observer reads the texts that are JSON: any reader that gives back
    what was written. *)
Definition reads_json (parse : string -> option jval) : Prop :=
  forall v, readable 127 v -> parse (to_json v) = Some v.

(** All events of the calls in a record, oldest first; the last that says
    something. *)
Definition all_events {Op Out} (f : Out -> list emitted) (l : list (Op * Out)) : list emitted :=
  mjoin ((fun x => f x.2) <$> l).
Definition told {A} (read : emitted -> option A) (l : list emitted) : option A :=
  foldl (fun o e => match read e with Some a => Some a | None => o end) None l.
Definition happened (p : emitted -> bool) (l : list emitted) : Prop := exists e, e ∈ l /\ p e = true.

(** Router: the gateway an event gives to a chain; the message it is about. *)
Definition says_gateway (chain : string) (e : emitted) : option string :=
  if ty "chain_registered" e && has "name" chain e then attr "gateway" e.2
  else if ty "gateway_upgraded" e && has "chain" chain e then attr "gateway_address" e.2
  else None.
Definition says_message (l : text) : option message :=
  i ← attr "id" l; c ← attr "source_chain" l; s ← attr "source_addresses" l;
  d ← attr "destination_chain" l; a ← attr "destination_addresses" l;
  h ← attr "payload_hash" l; h ← of_hex h;
  Some {| m_cc := {| cc_chain := c; cc_id := i |}; m_src := s; m_dchain := d; m_daddr := a; m_hash := h |}.

(** A call hands message [m] to contract [to]. *)
Definition handed (o : rtout) (to : addr) (m : message) : Prop :=
  match o with
  | OutRouted sent _ => exists ms, (to, ms) ∈ sent /\ m ∈ ms
  | _ => False
  end.

(** Gateway: the routed message with an id. *)
Definition says_routed (id : ccid) (e : emitted) : option message :=
  if ty "message_routed" e && has "id" (cc_id id) e && has "source_chain" (cc_chain id) e
  then says_message e.2 else None.
(** In these calls, the verifier vouches for messages of one chain only. *)
Definition vouches_for (chain : string) (op : gwop) : Prop :=
  match op with
  | GwVerifyMessages _ _ => True
  | GwRouteMessages _ ms answer => forall r id, answer ms = Some r -> (id, true) ∈ r -> cc_chain id = chain
  end.

(** Multisig: whether a contract may start sessions; the key of a worker; what
    a session signs, the signatures it has, when it was completed. *)
Definition says_caller (a : addr) (e : emitted) : option bool :=
  if ty "caller_authorized" e && has "contract_address" a e then Some true
  else if ty "caller_unauthorized" e && has "contract_address" a e then Some false
  else None.
Definition says_key (parse : string -> option jval) (a : addr) (t : key_type) (e : emitted) : option string :=
  if ty "public_key_registered" e then
    w ← attr "worker" e.2; w ← parse w; w ← d_str w; k ← attr "public_key" e.2; k ← parse k; k ← d_public_key k;
    if bool_decide (w = a) && bool_decide (pk_type k = t) then Some (pk_bytes k) else None
  else None.
Definition says_session (id : N) (e : emitted) : option (string * string) :=
  if ty "signing_started" e && has "session_id" (dec id) e then
    w ← attr "worker_set_id" e.2; m ← attr "msg" e.2; m ← of_hex m; Some (w, m)
  else None.
Definition says_signature (id : N) (a : addr) (e : emitted) : option string :=
  if ty "signature_submitted" e && has "session_id" (dec id) e && has "participant" a e then
    s ← attr "signature" e.2; of_hex s
  else None.
Definition says_completed (id : N) (e : emitted) : option string :=
  if ty "signing_completed" e && has "session_id" (dec id) e then attr "completed_at" e.2 else None.
Definition completed_text (s : session) : option string :=
  match ss_state s with MCompleted h => Some (dec h) | MPending => None end.

(** Verifier: the participants and the expiry of a poll, who voted, the
    results. *)
Definition is_poll (parse : string -> option jval) (id : N) (e : emitted) : bool :=
  bool_decide ((v ← attr "poll_id" e.2; v ← parse v; d_str v) = Some (dec id)).
Definition says_poll (parse : string -> option jval) (id : N) (e : emitted) : option (list addr * string) :=
  if (ty "messages_poll_started" e || ty "worker_set_poll_started" e) && is_poll parse id e then
    p ← attr "participants" e.2; p ← parse p; l ← d_vec d_str p; x ← attr "expires_at" e.2; Some (l, x)
  else None.
Definition says_voted (parse : string -> option jval) (id : N) (a : addr) (e : emitted) : bool :=
  ty "voted" e && is_poll parse id e && has "voter" a e.
Definition says_results (parse : string -> option jval) (id : N) (e : emitted) : option (list (option vote)) :=
  if ty "poll_ended" e && is_poll parse id e then
    r ← attr "results" e.2; r ← parse r; d_vec (d_opt d_vote) r
  else None.

Definition results_of (p : poll) : option (list (option vote)) :=
  match poll_status_ p with Finished => Some (ps_results (poll_state_of p)) | InProgress => None end.

(** A poll as told: its expiry and exactly its participants; who has voted in
    it. *)
Definition told_poll (o : option (list addr * string)) (vp : option vpoll) : Prop :=
  match o, vp with
  | None, None => True
  | Some (l, x), Some vp =>
      x = dec (poll_expires_at (vpoll_poll vp)) /\ NoDup l /\
      forall a, a ∈ l <-> is_Some (poll_participation (vpoll_poll vp) !! a)
  | _, _ => False
  end.
Definition has_voted (vp : option vpoll) (a : addr) : Prop :=
  exists p pt vs, vp = Some p /\ poll_participation (vpoll_poll p) !! a = Some pt /\ pt_vote pt = Some vs.

(** Prover: the batch a session is about. *)
Definition says_batch (parse : string -> option jval) (id : N) (e : emitted) : option string :=
  if ty "proof_under_construction" e &&
     bool_decide ((v ← attr "multisig_session_id" e.2; v ← parse v; d_str v) = Some (dec id)) then
    b ← attr "command_batch_id" e.2; b ← parse b; d_hex b
  else None.
