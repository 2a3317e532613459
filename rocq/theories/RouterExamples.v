(** Concrete router histories: hypotheses that can be met, and witnesses. *)
From Verif Require Import Base BaseLemmas Text StdModel RouterTypes RouterModel RouterSpec.

Definition ex_cfg : rtconfig := {| rc_admin := "admin"; rc_governance := "gov"; rc_nexus := "nexus" |}.
Definition ex_m (src dst id : string) : message :=
  {| m_cc := {| cc_chain := src; cc_id := id |}; m_src := "sender"; m_dchain := dst; m_daddr := "receiver";
     m_hash := "0123456789abcdef0123456789abcdef" |}.
Definition ex_rops : list rtop :=
  [RegisterChain "gov" "ethereum" "gw-eth"; RegisterChain "gov" "polygon" "gw-pol";
   RegisterChain "gov" "avalanche" "gw-pol"; FreezeChain "admin" "polygon" DBidirectional;
   RegisterChain "gov" "ethereum" "gw-eth2"; UpgradeGateway "gov" "ethereum" "gw-eth3";
   FreezeChain "gov" "ethereum" DIncoming; UnfreezeChain "admin" "polygon" DOutgoing;
   FreezeChain "admin" "fantom" DOutgoing; RegisterChain "gov" "avalanche" "gw-ava"].
Definition ex_batch : list message :=
  [ex_m "ethereum" "polygon" "1"; ex_m "ethereum" "fantom" "2"; ex_m "ethereum" "celo" "3";
   ex_m "ethereum" "polygon" "4"; ex_m "ethereum" "polygon" "1"].

Lemma ex_router :
  let s := rtrun ex_cfg ex_rops in
  let l := rtlog ex_cfg ex_rops in
  length l = 6%nat /\
  get_chain_info s "ethereum" = Ok {| ce_name := "ethereum"; ce_gateway := "gw-eth3"; ce_frozen := 0 |} /\
  get_chain_info s "polygon" = Ok {| ce_name := "polygon"; ce_gateway := "gw-pol"; ce_frozen := 1 |} /\
  last_gateway l "ethereum" = Some "gw-eth3" /\ last_gateway l "fantom" = None /\
  last_is_freeze l "polygon" true /\ ~ last_is_freeze l "polygon" false /\
  may_send s "gw-eth3" ex_batch /\
  router_step s (RouteMessages "gw-eth3" ex_batch) =
    Ok (s, OutRouted [("gw-pol", [ex_m "ethereum" "polygon" "1"]); ("nexus", [ex_m "ethereum" "fantom" "2"]);
                      ("nexus", [ex_m "ethereum" "celo" "3"]);
                      ("gw-pol", [ex_m "ethereum" "polygon" "4"; ex_m "ethereum" "polygon" "1"])] ex_batch) /\
  router_step s (RouteMessages "gw-pol" [ex_m "polygon" "ethereum" "1"]) = Err (RtChainFrozen "polygon") /\
  router_step s (RouteMessages "gw-eth3" [ex_m "polygon" "ethereum" "1"]) = Err WrongSourceChain /\
  router_step s (RouteMessages "nexus" [ex_m "celo" "fantom" "1"]) = Err ChainNotFound /\
  is_ok (router_step s (RouteMessages "nexus" [ex_m "celo" "ethereum" "1"])) = true /\
  router_step s (RegisterChain "gov" "celo" "gw-ava") = Err GatewayAlreadyRegistered /\
  Forall wf_message ex_batch.
Proof.
  cbv zeta. split; [vm_compute; reflexivity|]. split; [vm_compute; reflexivity|]. split; [vm_compute; reflexivity|].
  split; [vm_compute; reflexivity|]. split; [vm_compute; reflexivity|]. split; [vm_compute; reflexivity|].
  split; [vm_compute; discriminate|]. split.
  { right. exists "ethereum". eexists. split; [vm_compute; reflexivity|]. split; [reflexivity|]. split; [reflexivity|].
    repeat constructor. }
  do 6 (split; [vm_compute; reflexivity|]). repeat constructor; discriminate.
Qed.

(** C33: two histories whose responses carry the same events, although the
    chain is frozen after one and not after the other. *)
Lemma c33_refuted :
  exists cfg ops1 ops2 c e1 e2,
    (rtlog cfg ops1).*2 = (rtlog cfg ops2).*2 /\
    get_chain_info (rtrun cfg ops1) c = Ok e1 /\ get_chain_info (rtrun cfg ops2) c = Ok e2 /\
    incoming_frozen e1 = true /\ incoming_frozen e2 = false.
Proof.
  exists ex_cfg,
    [RegisterChain "gov" "ethereum" "gw-eth"; FreezeChain "admin" "ethereum" DIncoming],
    [RegisterChain "gov" "ethereum" "gw-eth"; UnfreezeChain "admin" "ethereum" DIncoming], "ethereum".
  eexists _, _. split; [vm_compute; reflexivity|]. split; [vm_compute; reflexivity|].
  split; [vm_compute; reflexivity|]. split; vm_compute; reflexivity.
Qed.
