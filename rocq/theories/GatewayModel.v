(** Model of contracts/gateway/src (contract.rs, contract/execute.rs,
    contract/query.rs, state.rs). Left out: address validation, storage and
    serialisation failures. *)
From Verif Require Import Base Text StdModel RouterTypes.

(** state.rs:20-24 [Config] *)
Record gwconfig := { gc_verifier : addr; gc_router : addr }.
(** state.rs:26-27 [CONFIG], [OUTGOING_MESSAGES] *)
Record gwstate := { gw_config : gwconfig; gw_outgoing : gmap ccid message }.

(** error.rs, the cases the modelled code raises *)
Inductive gwerror := GwDuplicateMessageIds | GwQueryVerifier | GwLoadOutgoingMessage.

(** A response: messages sent to other contracts and events (events.rs:5-25).
    Each sent message carries its destination address. *)
Record gwout := {
  go_verify : list (addr * list message);  (* VerifyMessages *)
  go_route : list (addr * list message);   (* RouteMessages *)
  go_routed : list message;                (* events MessageRouted *)
  go_failed : list message;                (* events MessageRoutingFailed *)
}.
Definition gwout_empty : gwout := {| go_verify := []; go_route := []; go_routed := []; go_failed := [] |}.

(** contract/query.rs:8-34 [VerifierApi::verify]: what the verifier contract
    answers to [IsVerified] is an arbitrary function of the question; [None]
    is a failed query. *)
Definition gwanswer := list message -> option (list (ccid * bool)).

(** contract.rs:14-27 [instantiate] *)
Definition gateway_init (c : gwconfig) : gwstate := {| gw_config := c; gw_outgoing := ∅ |}.

(** contract/execute.rs:150-164 [ensure_unique_ids] *)
Definition ensure_unique_ids (msgs : list message) : res gwerror unit :=
  ensure (bool_decide (NoDup (m_cc <$> msgs))) GwDuplicateMessageIds.

(** contract/execute.rs:130-147 [partition_by_verified]; collecting into a
    [HashMap] keeps the last entry of each key. *)
Definition partition_by_verified (answer : gwanswer) (msgs : list message)
  : res gwerror (list message * list message) :=
  let? r := of_option GwQueryVerifier (answer msgs) in
  let is_verified : gmap ccid bool := foldl (fun m x => <[x.1 := x.2]> m) ∅ r in
  let verified m := default false (is_verified !! m_cc m) in
  Ok (filter (fun m => verified m = true) msgs, filter (fun m => verified m = false) msgs).

(** contract/execute.rs:48-73 [verify_messages] *)
Definition gw_verify_messages (s : gwstate) (answer : gwanswer) (msgs : list message)
  : res gwerror gwout :=
  match msgs with
  | [] => Ok gwout_empty
  | _ =>
      let? _ := ensure_unique_ids msgs in
      let? (_, unverified) := partition_by_verified answer msgs in
      match unverified with
      | [] => Ok gwout_empty
      | _ => Ok {| go_verify := [(gc_verifier (gw_config s), unverified)]; go_route := [];
                   go_routed := []; go_failed := [] |}
      end
  end.

(** contract/execute.rs:87-98 [route_outgoing_messages] *)
Definition route_outgoing_messages (s : gwstate) (msgs : list message) : res gwerror (gwstate * gwout) :=
  let? _ := ensure_unique_ids msgs in
  Ok ({| gw_config := gw_config s;
         gw_outgoing := foldl (fun st m => <[m_cc m := m]> st) (gw_outgoing s) msgs |},
      {| go_verify := []; go_route := []; go_routed := msgs; go_failed := [] |}).

(** contract/execute.rs:100-128 [route_incoming_messages] *)
Definition route_incoming_messages (s : gwstate) (answer : gwanswer) (msgs : list message)
  : res gwerror gwout :=
  let? _ := ensure_unique_ids msgs in
  let? (verified, unverified) := partition_by_verified answer msgs in
  Ok {| go_verify := [];
        go_route := match verified with [] => [] | _ => [(gc_router (gw_config s), verified)] end;
        go_routed := verified; go_failed := unverified |}.

(** contract.rs:30-42 [execute]; contract/execute.rs:75-85 [route_messages] *)
Inductive gwop :=
| GwVerifyMessages (msgs : list message) (answer : gwanswer)
| GwRouteMessages (sender : addr) (msgs : list message) (answer : gwanswer).

Definition gateway_step (s : gwstate) (op : gwop) : res gwerror (gwstate * gwout) :=
  match op with
  | GwVerifyMessages msgs answer => let? out := gw_verify_messages s answer msgs in Ok (s, out)
  | GwRouteMessages sender msgs answer =>
      if bool_decide (sender = gc_router (gw_config s)) then route_outgoing_messages s msgs
      else let? out := route_incoming_messages s answer msgs in Ok (s, out)
  end.

(** contract/query.rs:36-50 [get_messages] *)
Definition get_messages (s : gwstate) (ids : list ccid) : res gwerror (list message) :=
  try_map (fun id => of_option GwLoadOutgoingMessage (gw_outgoing s !! id)) ids.
