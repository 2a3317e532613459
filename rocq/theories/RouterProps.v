(** Properties C28-C34 of the router. *)
From Verif Require Import Base Text StdModel RouterTypes RouterModel RouterSpec RouterProofs RouterExamples.

(** C28. *)
Theorem C28_one_to_one : forall cfg ops c1 c2 e1 e2,
  get_chain_info (rtrun cfg ops) c1 = Ok e1 -> get_chain_info (rtrun cfg ops) c2 = Ok e2 ->
  ce_gateway e1 = ce_gateway e2 -> c1 = c2 /\ e1 = e2.
Proof. exact c28_injective. Qed.
Print Assumptions C28_one_to_one.

Theorem C28_lookup_unambiguous : forall cfg ops g,
  exists o, load_chain_by_gateway (rtrun cfg ops) g = Ok o /\
  forall e, o = Some e <-> get_chain_info (rtrun cfg ops) (ce_name e) = Ok e /\ ce_gateway e = g.
Proof. exact c28_lookup. Qed.
Print Assumptions C28_lookup_unambiguous.

Theorem C28_current_gateway : forall cfg ops c,
  match get_chain_info (rtrun cfg ops) c with
  | Ok e => ce_name e = c /\ last_gateway (rtlog cfg ops) c = Some (ce_gateway e)
  | Err _ => last_gateway (rtlog cfg ops) c = None
  | Panic => False
  end.
Proof. exact c28_gateway. Qed.
Print Assumptions C28_current_gateway.

(** C29. *)
Theorem C29_frozen_iff : forall cfg ops c e,
  get_chain_info (rtrun cfg ops) c = Ok e ->
  (incoming_frozen e = true <-> last_is_freeze (rtlog cfg ops) c true) /\
  (outgoing_frozen e = true <-> last_is_freeze (rtlog cfg ops) c false).
Proof. exact c29. Qed.
Print Assumptions C29_frozen_iff.

Theorem C29_accepted_iff : forall cfg ops a c d,
  (is_ok (router_step (rtrun cfg ops) (FreezeChain a c d)) = true <->
   a = rc_admin cfg /\ is_Some (last_gateway (rtlog cfg ops) c)) /\
  (is_ok (router_step (rtrun cfg ops) (UnfreezeChain a c d)) = true <->
   a = rc_admin cfg /\ is_Some (last_gateway (rtlog cfg ops) c)).
Proof. exact c29_accepted. Qed.
Print Assumptions C29_accepted_iff.

(** C30. *)
Theorem C30_sent : forall cfg ops sender msgs s' out,
  router_step (rtrun cfg ops) (RouteMessages sender msgs) = Ok (s', out) ->
  exists sent, out = OutRouted sent msgs /\ s' = rtrun cfg ops /\
    concat sent.*2 = msgs /\
    Forall (fun x => x.2 <> [] /\ Forall (fun m => goes_to (rtrun cfg ops) sender (m_dchain m) = Some x.1) x.2) sent.
Proof. exact c30_sent. Qed.
Print Assumptions C30_sent.

Theorem C30_per_gateway : forall cfg ops sender msgs s' sent events g,
  router_step (rtrun cfg ops) (RouteMessages sender msgs) = Ok (s', OutRouted sent events) ->
  concat (filter (fun x => x.1 = g) sent).*2 =
  filter (fun m => goes_to (rtrun cfg ops) sender (m_dchain m) = Some g) msgs.
Proof. exact c30_per_gateway. Qed.
Print Assumptions C30_per_gateway.

(** C31. *)
Theorem C31_accepted_iff : forall cfg ops sender msgs,
  is_ok (router_step (rtrun cfg ops) (RouteMessages sender msgs)) = true <->
  may_send (rtrun cfg ops) sender msgs /\
  Forall (fun m => is_Some (goes_to (rtrun cfg ops) sender (m_dchain m))) msgs.
Proof. exact c30_31. Qed.
Print Assumptions C31_accepted_iff.

(** C32. *)
Theorem C32_roles : forall cfg ops op s' out,
  router_step (rtrun cfg ops) op = Ok (s', out) ->
  rt_config s' = cfg /\
  (forall c, directory s' c <> directory (rtrun cfg ops) c ->
     exists g, (op = RegisterChain (rc_governance cfg) c g \/ op = UpgradeGateway (rc_governance cfg) c g) /\
       directory s' c = Some g) /\
  (forall c, is_Some (freezer (rtrun cfg ops) c) -> freezer s' c <> freezer (rtrun cfg ops) c ->
     exists d, op = FreezeChain (rc_admin cfg) c d \/ op = UnfreezeChain (rc_admin cfg) c d).
Proof. exact c32. Qed.
Print Assumptions C32_roles.

Theorem C32_accepted_iff : forall cfg ops a c g,
  (is_ok (router_step (rtrun cfg ops) (RegisterChain a c g)) = true <->
   a = rc_governance cfg /\ directory (rtrun cfg ops) c = None /\
   (forall c', directory (rtrun cfg ops) c' <> Some g)) /\
  (is_ok (router_step (rtrun cfg ops) (UpgradeGateway a c g)) = true <->
   a = rc_governance cfg /\ is_Some (directory (rtrun cfg ops) c) /\
   (forall c', directory (rtrun cfg ops) c' <> Some g)).
Proof. exact c32_register. Qed.
Print Assumptions C32_accepted_iff.

(** C33: false of this code. *)
Theorem C33_events_distinguish_refuted :
  exists cfg ops1 ops2 c e1 e2,
    (rtlog cfg ops1).*2 = (rtlog cfg ops2).*2 /\
    get_chain_info (rtrun cfg ops1) c = Ok e1 /\ get_chain_info (rtrun cfg ops2) c = Ok e2 /\
    incoming_frozen e1 = true /\ incoming_frozen e2 = false.
Proof. exact c33_refuted. Qed.
Print Assumptions C33_events_distinguish_refuted.

Theorem C33_same_event : forall s a c d s1 out1 s2 out2,
  router_step s (FreezeChain a c d) = Ok (s1, out1) ->
  router_step s (UnfreezeChain a c d) = Ok (s2, out2) -> out1 = out2.
Proof. exact c33_same_event. Qed.
Print Assumptions C33_same_event.

(** C34. *)
Theorem C34_round_trip : forall c, wf_ccid c -> ccid_of_string (ccid_to_string c) = Some c.
Proof. exact c34_roundtrip. Qed.
Print Assumptions C34_round_trip.

Theorem C34_injective : forall c1 c2,
  wf_ccid c1 -> wf_ccid c2 -> ccid_to_string c1 = ccid_to_string c2 -> c1 = c2.
Proof. exact c34_injective. Qed.
Print Assumptions C34_injective.

Theorem C34_parsed : forall s c,
  ccid_of_string s = Some c ->
  wf_ccid c /\ exists chain, chain_name_of chain = Some (cc_chain c) /\ s = chain +:+ String ":" (cc_id c).
Proof. exact c34_parsed. Qed.
Print Assumptions C34_parsed.

Theorem C34_chain_name : forall s c,
  chain_name_of s = Some c ->
  c <> "" /\ contains ":" c = false /\ chain_name_of c = Some c /\ chain_name_of (lower s) = Some c.
Proof. exact c34_chain. Qed.
Print Assumptions C34_chain_name.

Theorem C34_chain_name_accepted : forall s c,
  chain_name_of s = Some c <-> s <> "" /\ contains ":" s = false /\ c = lower s.
Proof. exact chain_name_of_some. Qed.
Print Assumptions C34_chain_name_accepted.

(** Accepted and refused registrations, freezes and routes. *)
Example router_nonvacuous :
  let s := rtrun ex_cfg ex_rops in
  let l := rtlog ex_cfg ex_rops in
  length l = 6%nat /\
  get_chain_info s "ethereum" = Ok {| ce_name := "ethereum"; ce_gateway := "gw-eth3"; ce_frozen := 0 |} /\
  get_chain_info s "polygon" = Ok {| ce_name := "polygon"; ce_gateway := "gw-pol"; ce_frozen := 1 |} /\
  last_gateway l "ethereum" = Some "gw-eth3" /\ last_gateway l "fantom" = None /\
  last_is_freeze l "polygon" true /\ ~ last_is_freeze l "polygon" false /\
  may_send s "gw-eth3" ex_batch /\
  router_step s (RouteMessages "gw-eth3" ex_batch) =
    Ok (s, OutRouted [("gw-pol", [ex_m "ethereum" "polygon" "1"]); ("nexus", [ex_m "ethereum" "fantom" "2"]);
                      ("nexus", [ex_m "ethereum" "celo" "3"]);
                      ("gw-pol", [ex_m "ethereum" "polygon" "4"; ex_m "ethereum" "polygon" "1"])] ex_batch) /\
  router_step s (RouteMessages "gw-pol" [ex_m "polygon" "ethereum" "1"]) = Err (RtChainFrozen "polygon") /\
  router_step s (RouteMessages "gw-eth3" [ex_m "polygon" "ethereum" "1"]) = Err WrongSourceChain /\
  router_step s (RouteMessages "nexus" [ex_m "celo" "fantom" "1"]) = Err ChainNotFound /\
  is_ok (router_step s (RouteMessages "nexus" [ex_m "celo" "ethereum" "1"])) = true /\
  router_step s (RegisterChain "gov" "celo" "gw-ava") = Err GatewayAlreadyRegistered /\
  Forall wf_message ex_batch.
Proof. exact ex_router. Qed.

Example ccid_nonvacuous :
  ccid_of_string "Ethereum:0xAB:3" = Some {| cc_chain := "ethereum"; cc_id := "0xAB:3" |} /\
  wf_ccid {| cc_chain := "ethereum"; cc_id := "0xAB:3" |}.
Proof. split; [reflexivity|]. split; [reflexivity|]. discriminate. Qed.
