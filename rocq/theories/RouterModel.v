(** Model of contracts/connection-router/src (contract.rs,
    contract/execute.rs, contract/query.rs, the storage part of state.rs).
    Left out: address validation (every address is accepted) and storage
    failures. *)
From Verif Require Import Base Text StdModel RouterTypes.

(** state.rs:86-91 [Config] *)
Record rtconfig := { rc_admin : addr; rc_governance : addr; rc_nexus : addr }.

(** state.rs:378-387 [GatewayDirection] and its bits *)
Inductive direction := DNone | DIncoming | DOutgoing | DBidirectional.
Definition direction_bits (d : direction) : N :=
  match d with DNone => 0 | DIncoming => 1 | DOutgoing => 2 | DBidirectional => N.lor 1 2 end.

(** state.rs:371-376 [ChainEndpoint]; the frozen flags are the bits of the
    flag set (packages/axelar-wasm-std/src/flagset.rs:6-54, a wrapper of the
    [flagset] crate: [|=] is bitwise or, [-=] clears bits, [contains] tests
    that all given bits are set). *)
Record endpoint := { ce_name : string; ce_gateway : addr; ce_frozen : N }.
Definition flags_contain (flags bits : N) : bool := N.land flags bits =? bits.
(** state.rs:389-397 [incoming_frozen], [outgoing_frozen] *)
Definition incoming_frozen (e : endpoint) : bool := flags_contain (ce_frozen e) (direction_bits DIncoming).
Definition outgoing_frozen (e : endpoint) : bool := flags_contain (ce_frozen e) (direction_bits DOutgoing).

(** The storage: configuration and [chain_endpoints] (state.rs:93, 140-153).
    The gateway index is derived from the primary map. *)
Record rtstate := { rt_config : rtconfig; rt_chains : gmap string endpoint }.

(** error.rs, the cases the modelled code raises *)
Inductive rterror :=
| RtUnauthorized | ChainAlreadyExists | ChainNotFound | GatewayNotRegistered
| GatewayAlreadyRegistered | RtChainFrozen (chain : string) | WrongSourceChain.

(** events and messages of the responses (events.rs) *)
Inductive rtout :=
| EvChainRegistered (name : string) (gateway : addr)
| EvGatewayUpgraded (chain : string) (gateway : addr)
| EvChainFrozen (name : string)
| OutRouted (sent : list (addr * list message)) (events : list message).

(** contract.rs:13-40 [instantiate] *)
Definition router_init (c : rtconfig) : rtstate := {| rt_config := c; rt_chains := ∅ |}.

(** state.rs:119-136 [GatewayIndex::load_chain_by_gateway]: more than one
    entry panics. *)
Definition load_chain_by_gateway (s : rtstate) (g : addr) : res rterror (option endpoint) :=
  match filter (fun x => ce_gateway x.2 = g) (btree_iter (rt_chains s)) with
  | [] => Ok None
  | [(_, e)] => Ok (Some e)
  | _ => Panic
  end.

Definition set_chains (s : rtstate) (m : gmap string endpoint) : rtstate :=
  {| rt_config := rt_config s; rt_chains := m |}.

(** contract/execute.rs:18-37 [register_chain] *)
Definition register_chain (s : rtstate) (name : string) (g : addr) : res rterror (rtstate * rtout) :=
  let? found := load_chain_by_gateway s g in
  let? _ := ensure (bool_decide (found = None)) GatewayAlreadyRegistered in
  let? _ := ensure (bool_decide (rt_chains s !! name = None)) ChainAlreadyExists in
  Ok (set_chains s (<[name := {| ce_name := name; ce_gateway := g;
                                 ce_frozen := direction_bits DNone |}]> (rt_chains s)),
      EvChainRegistered name g).

(** contract/execute.rs:50-74 [upgrade_gateway] *)
Definition upgrade_gateway (s : rtstate) (name : string) (g : addr) : res rterror (rtstate * rtout) :=
  let? found := load_chain_by_gateway s g in
  let? _ := ensure (bool_decide (found = None)) GatewayAlreadyRegistered in
  let? e := of_option ChainNotFound (rt_chains s !! name) in
  Ok (set_chains s (<[name := {| ce_name := ce_name e; ce_gateway := g;
                                 ce_frozen := ce_frozen e |}]> (rt_chains s)),
      EvGatewayUpgraded name g).

(** contract/execute.rs:76-89 [freeze_chain] *)
Definition freeze_chain (s : rtstate) (name : string) (d : direction) : res rterror (rtstate * rtout) :=
  let? e := of_option ChainNotFound (rt_chains s !! name) in
  Ok (set_chains s (<[name := {| ce_name := ce_name e; ce_gateway := ce_gateway e;
                                 ce_frozen := N.lor (ce_frozen e) (direction_bits d) |}]> (rt_chains s)),
      EvChainFrozen name).

(** contract/execute.rs:91-104 [unfreeze_chain]; it emits [ChainFrozen] *)
Definition unfreeze_chain (s : rtstate) (name : string) (d : direction) : res rterror (rtstate * rtout) :=
  let? e := of_option ChainNotFound (rt_chains s !! name) in
  Ok (set_chains s (<[name := {| ce_name := ce_name e; ce_gateway := ce_gateway e;
                                 ce_frozen := N.ldiff (ce_frozen e) (direction_bits d) |}]> (rt_chains s)),
      EvChainFrozen name).

(** contract/execute.rs:126-152 [validate_msgs] *)
Definition validate_msgs (s : rtstate) (sender : addr) (msgs : list message) : res rterror (list message) :=
  if bool_decide (sender = rc_nexus (rt_config s)) then Ok msgs
  else
    let? found := load_chain_by_gateway s sender in
    let? src := of_option GatewayNotRegistered found in
    let? _ := ensure (negb (incoming_frozen src)) (RtChainFrozen (ce_name src)) in
    let? _ := ensure (negb (existsb (fun m => negb (bool_decide (cc_chain (m_cc m) = ce_name src))) msgs))
                WrongSourceChain in
    Ok msgs.

(** [Itertools::group_by]: maximal runs of consecutive elements with equal
    key *)
Fixpoint group_by {A} (key : A -> string) (l : list A) : list (string * list A) :=
  match l with
  | [] => []
  | a :: l' =>
      match group_by key l' with
      | (k, g) :: rest => if bool_decide (k = key a) then (k, a :: g) :: rest
                          else (key a, [a]) :: (k, g) :: rest
      | [] => [(key a, [a])]
      end
  end.

(** contract/execute.rs:162-186: the gateway for a destination chain *)
Definition destination_gateway (s : rtstate) (sender : addr) (chain : string) : res rterror addr :=
  match rt_chains s !! chain with
  | Some e => if outgoing_frozen e then Err (RtChainFrozen (ce_name e)) else Ok (ce_gateway e)
  | None => if bool_decide (sender = rc_nexus (rt_config s)) then Err ChainNotFound
            else Ok (rc_nexus (rt_config s))
  end.

(** contract/execute.rs:154-203 [route_messages] *)
Definition route_messages (s : rtstate) (sender : addr) (msgs : list message)
  : res rterror (rtstate * rtout) :=
  let? msgs := validate_msgs s sender msgs in
  let? sent := try_map (fun '(chain, ms) => let? g := destination_gateway s sender chain in Ok (g, ms))
                 (group_by m_dchain msgs) in
  Ok (s, OutRouted sent msgs).

(** contract.rs:43-80 [execute]; contract/execute.rs:106-120 [require_admin],
    [require_governance] *)
Inductive rtop :=
| RegisterChain (sender : addr) (chain : string) (gateway : addr)
| UpgradeGateway (sender : addr) (chain : string) (gateway : addr)
| FreezeChain (sender : addr) (chain : string) (d : direction)
| UnfreezeChain (sender : addr) (chain : string) (d : direction)
| RouteMessages (sender : addr) (msgs : list message).

Definition router_step (s : rtstate) (op : rtop) : res rterror (rtstate * rtout) :=
  match op with
  | RegisterChain a c g =>
      let? _ := ensure (bool_decide (rc_governance (rt_config s) = a)) RtUnauthorized in register_chain s c g
  | UpgradeGateway a c g =>
      let? _ := ensure (bool_decide (rc_governance (rt_config s) = a)) RtUnauthorized in upgrade_gateway s c g
  | FreezeChain a c d =>
      let? _ := ensure (bool_decide (rc_admin (rt_config s) = a)) RtUnauthorized in freeze_chain s c d
  | UnfreezeChain a c d =>
      let? _ := ensure (bool_decide (rc_admin (rt_config s) = a)) RtUnauthorized in unfreeze_chain s c d
  | RouteMessages a ms => route_messages s a ms
  end.

(** contract/query.rs:9-14 [get_chain_info] *)
Definition get_chain_info (s : rtstate) (chain : string) : res rterror endpoint :=
  of_option ChainNotFound (rt_chains s !! chain).
