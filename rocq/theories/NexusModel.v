(** Model of contracts/nexus-gateway/src (contract.rs, contract/execute.rs,
    nexus.rs, state.rs). Left out: address validation, storage failures. *)
From Verif Require Import Base Text StdModel RouterTypes.

(** state.rs:60-64 [Config]; 10-11 [CONFIG], [ROUTED_MESSAGE_IDS] *)
Record nxconfig := { nc_nexus : addr; nc_router : addr }.
Record nxstate := { nx_config : nxconfig; nx_routed : gset ccid }.

(** nexus.rs:16-25 [Message]; byte vectors are strings *)
Record nmessage := {
  n_schain : string;
  n_saddr : string;
  n_dchain : string;
  n_daddr : string;
  n_hash : string;
  n_txid : string;
  n_index : N;
}.

(** error.rs:7-25 *)
Inductive nxerror := NxUnauthorized | NxInvalidMessageId.

(** [str::trim_start_matches("0x")] removes every leading occurrence. *)
Fixpoint trim_0x (s : string) : string :=
  match s with
  | String a (String b s') => if Ascii.eqb a "0" && Ascii.eqb b "x" then trim_0x s' else s
  | _ => s
  end.

(** nexus.rs:29-48 [parse_message_id]; [None] is [InvalidMessageId], which the
    only caller discards *)
Definition parse_message_id (id : string) : option (string * N) :=
  match split ID_SEPARATOR id with
  | [a; b] =>
      match of_hex (trim_0x a) with
      | Some txid =>
          if is_empty txid then None
          else match parse_u64 b with Some i => Some (txid, i) | None => None end
      | None => None
      end
  | _ => None
  end.

(** nexus.rs:50-66 [From<connection_router::Message> for Message] *)
Definition to_nexus (m : message) : nmessage :=
  let (txid, index) := match parse_message_id (cc_id (m_cc m)) with
                       | Some r => r
                       | None => (cc_id (m_cc m), U64 - 1)
                       end in
  {| n_schain := cc_chain (m_cc m); n_saddr := m_src m; n_dchain := m_dchain m; n_daddr := m_daddr m;
     n_hash := m_hash m; n_txid := txid; n_index := index |}.

(** nexus.rs:68-85 [From<Message> for connection_router::Message]; the text is
    never empty, so [expect] cannot fail *)
Definition from_nexus (n : nmessage) : message :=
  {| m_cc := {| cc_chain := n_schain n; cc_id := to_hex (n_txid n) +:+ String ID_SEPARATOR (dec (n_index n)) |};
     m_src := n_saddr n; m_dchain := n_dchain n; m_daddr := n_daddr n; m_hash := n_hash n |}.

(** A response: router messages with their destination, or messages handed to
    the nexus module (sub-messages of custom type, in order). *)
Inductive nxout :=
| NxToRouter (sent : list (addr * list message))
| NxToNexus (sent : list nmessage).

(** contract.rs:14-28 [instantiate] *)
Definition nexus_init (c : nxconfig) : nxstate := {| nx_config := c; nx_routed := ∅ |}.

(** contract/execute.rs:16-38 [route_to_router] *)
Definition route_to_router (s : nxstate) (sender : addr) (msgs : list nmessage) : res nxerror (nxstate * nxout) :=
  let? _ := ensure (bool_decide (sender = nc_nexus (nx_config s))) NxUnauthorized in
  match from_nexus <$> msgs with
  | [] => Ok (s, NxToRouter [])
  | ms => Ok (s, NxToRouter [(nc_router (nx_config s), ms)])
  end.

(** contract/execute.rs:40-64 [route_to_nexus] *)
Definition route_to_nexus (s : nxstate) (sender : addr) (msgs : list message) : res nxerror (nxstate * nxout) :=
  let? _ := ensure (bool_decide (sender = nc_router (nx_config s))) NxUnauthorized in
  let fresh := filter (fun m => m_cc m ∉ nx_routed s) msgs in
  Ok ({| nx_config := nx_config s;
         nx_routed := foldl (fun st m => {[ m_cc m ]} ∪ st) (nx_routed s) fresh |},
      NxToNexus (to_nexus <$> fresh)).

(** contract.rs:30-48 [execute] *)
Inductive nxop :=
| NxRouteMessages (sender : addr) (msgs : list message)
| NxRouteMessagesFromNexus (sender : addr) (msgs : list nmessage).
Definition nexus_step (s : nxstate) (op : nxop) : res nxerror (nxstate * nxout) :=
  match op with
  | NxRouteMessages a ms => route_to_nexus s a ms
  | NxRouteMessagesFromNexus a ms => route_to_router s a ms
  end.
