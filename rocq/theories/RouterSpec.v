(** Vocabulary of the C28-C34 statements about the router. *)
From Verif Require Import Base Text StdModel RouterTypes RouterModel.

(** State and log of a history from instantiation. *)
Definition rtrun (c : rtconfig) (ops : list rtop) : rtstate := run router_step (router_init c) ops.
Definition rtlog (c : rtconfig) (ops : list rtop) : list (rtop * rtout) := log router_step (router_init c) ops.

(** The gateway named by the last accepted registration or upgrade of a
    chain. *)
Definition last_gateway (l : list (rtop * rtout)) (chain : string) : option addr :=
  last (omap (fun e => match e.1 with
                       | RegisterChain _ c g | UpgradeGateway _ c g =>
                           if bool_decide (c = chain) then Some g else None
                       | _ => None
                       end) l).

(** A freeze or unfreeze direction covers incoming ([true]) or outgoing
    ([false]) traffic. *)
Definition covers (d : direction) (incoming : bool) : bool :=
  match d with
  | DNone => false
  | DIncoming => incoming
  | DOutgoing => negb incoming
  | DBidirectional => true
  end.

(** The last accepted call that covers that traffic of the chain was a
    freeze. *)
Definition last_is_freeze (l : list (rtop * rtout)) (chain : string) (incoming : bool) : Prop :=
  last (omap (fun e => match e.1 with
                       | FreezeChain _ c d =>
                           if bool_decide (c = chain) && covers d incoming then Some true else None
                       | UnfreezeChain _ c d =>
                           if bool_decide (c = chain) && covers d incoming then Some false else None
                       | _ => None
                       end) l) = Some true.

(** Where the messages for a destination chain go, if anywhere, when sent by
    [sender]; judged by the chain query. *)
Definition goes_to (s : rtstate) (sender : addr) (chain : string) : option addr :=
  match get_chain_info s chain with
  | Ok e => if outgoing_frozen e then None else Some (ce_gateway e)
  | _ => if bool_decide (sender = rc_nexus (rt_config s)) then None else Some (rc_nexus (rt_config s))
  end.

(** [sender] may inject these messages. *)
Definition may_send (s : rtstate) (sender : addr) (msgs : list message) : Prop :=
  sender = rc_nexus (rt_config s) \/
  exists chain e, get_chain_info s chain = Ok e /\ ce_gateway e = sender /\ incoming_frozen e = false /\
    Forall (fun m => cc_chain (m_cc m) = chain) msgs.

(** Names and gateways as the chain query shows them. *)
Definition directory (s : rtstate) (chain : string) : option addr :=
  match get_chain_info s chain with Ok e => Some (ce_gateway e) | _ => None end.
Definition freezer (s : rtstate) (chain : string) : option (bool * bool) :=
  match get_chain_info s chain with Ok e => Some (incoming_frozen e, outgoing_frozen e) | _ => None end.

(** A cross-chain id as the decoder produces it. *)
Definition wf_ccid (c : ccid) : Prop := wf_chain (cc_chain c) /\ cc_id c <> "".
