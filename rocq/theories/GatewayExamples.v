(** Concrete gateway and nexus-gateway histories. *)
From Verif Require Import Base Text RouterTypes GatewayModel GatewaySpec NexusModel NexusSpec.

Definition exg_m (src dst id : string) : message :=
  {| m_cc := {| cc_chain := src; cc_id := id |}; m_src := "sender"; m_dchain := dst; m_daddr := "receiver";
     m_hash := "0123456789abcdef0123456789abcdef" |}.
Definition exg_m' (src dst id : string) : message :=
  {| m_cc := {| cc_chain := src; cc_id := id |}; m_src := "sender"; m_dchain := dst; m_daddr := "somebody else";
     m_hash := "0123456789abcdef0123456789abcdef" |}.
Definition exg_cfg : gwconfig := {| gc_verifier := "verifier"; gc_router := "router" |}.
Definition exg_answer : gwanswer :=
  fun ms => Some ((fun m => (m_cc m, bool_decide (cc_id (m_cc m) <> "2"))) <$> ms).
Definition exg_ops : list gwop :=
  [GwRouteMessages "router" [exg_m "eth" "pol" "1"; exg_m "eth" "pol" "2"] exg_answer;
   GwRouteMessages "router" [exg_m "eth" "pol" "3"; exg_m "eth" "pol" "3"] exg_answer;
   GwRouteMessages "relayer" [exg_m "pol" "eth" "9"] exg_answer;
   GwRouteMessages "router" [exg_m' "eth" "pol" "1"] exg_answer].

Definition exg_batch : list message :=
  [exg_m "pol" "eth" "1"; exg_m "pol" "eth" "2"; exg_m "pol" "eth" "3"].

Lemma ex_gateway :
  let s := gwrun exg_cfg exg_ops in
  let l := gwlog exg_cfg exg_ops in
  length l = 3%nat /\
  get_messages s [{| cc_chain := "eth"; cc_id := "2" |}; {| cc_chain := "eth"; cc_id := "1" |}] =
    Ok [exg_m "eth" "pol" "2"; exg_m' "eth" "pol" "1"] /\
  get_messages s [{| cc_chain := "eth"; cc_id := "1" |}; {| cc_chain := "eth"; cc_id := "3" |}] =
    Err GwLoadOutgoingMessage /\
  last_stored "router" l {| cc_chain := "eth"; cc_id := "1" |} = Some (exg_m' "eth" "pol" "1") /\
  distinct_ids exg_batch /\
  gateway_step s (GwRouteMessages "relayer" exg_batch exg_answer) =
    Ok (s, {| go_verify := []; go_route := [("router", [exg_m "pol" "eth" "1"; exg_m "pol" "eth" "3"])];
              go_routed := [exg_m "pol" "eth" "1"; exg_m "pol" "eth" "3"]; go_failed := [exg_m "pol" "eth" "2"] |}) /\
  gateway_step s (GwVerifyMessages exg_batch exg_answer) =
    Ok (s, {| go_verify := [("verifier", [exg_m "pol" "eth" "2"])]; go_route := []; go_routed := []; go_failed := [] |}) /\
  gateway_step s (GwRouteMessages "relayer" (exg_batch ++ exg_batch) exg_answer) = Err GwDuplicateMessageIds.
Proof.
  cbv zeta. split; [vm_compute; reflexivity|]. split; [vm_compute; reflexivity|]. split; [vm_compute; reflexivity|].
  split; [vm_compute; reflexivity|].
  split; [apply (bool_decide_eq_true_1 _); vm_compute; reflexivity|].
  split; [vm_compute; reflexivity|]. split; vm_compute; reflexivity.
Qed.

(** C37, the other reading: an id already stored is overwritten. *)
Lemma c37_overwrites :
  exists c ops id m1 m2 s1, m1 <> m2 /\ s1 = gwrun c ops /\ get_messages s1 [id] = Ok [m1] /\
    exists msgs an, get_messages (gwrun c (ops ++ [GwRouteMessages (gc_router c) msgs an])) [id] = Ok [m2].
Proof.
  exists exg_cfg, (firstn 3 exg_ops), {| cc_chain := "eth"; cc_id := "1" |}, (exg_m "eth" "pol" "1"), (exg_m' "eth" "pol" "1").
  eexists. split; [discriminate|]. split; [reflexivity|]. split; [vm_compute; reflexivity|].
  exists [exg_m' "eth" "pol" "1"], exg_answer. vm_compute. reflexivity.
Qed.

Definition exn_cfg : nxconfig := {| nc_nexus := "nexus"; nc_router := "router" |}.
Definition exn_ops : list nxop :=
  [NxRouteMessages "router" [exg_m "eth" "axelar" "0xab:1"; exg_m "eth" "axelar" "0xcd:1"];
   NxRouteMessages "other" [exg_m "eth" "axelar" "0xef:1"];
   NxRouteMessages "router" [exg_m "eth" "axelar" "0xcd:1"; exg_m "eth" "axelar" "odd"]].

Lemma ex_nexus :
  Forall no_repeat_in_call exn_ops /\
  ((fun n => (n_txid n, n_index n)) <$> (nxlog exn_cfg exn_ops ≫= handed)) =
    [(String "171" "", 1); (String "205" "", 1); ("odd", 18446744073709551615)] /\
  offered "router" (nxlog exn_cfg exn_ops) =
    [exg_m "eth" "axelar" "0xab:1"; exg_m "eth" "axelar" "0xcd:1"; exg_m "eth" "axelar" "0xcd:1"; exg_m "eth" "axelar" "odd"].
Proof.
  split.
  - repeat constructor; cbn; try (apply (bool_decide_eq_true_1 _); vm_compute; reflexivity).
  - split; vm_compute; reflexivity.
Qed.

(** C38: the same id twice in one call. *)
Lemma c38_refuted :
  exists c ops m, nxlog c ops ≫= handed = [to_nexus m; to_nexus m].
Proof.
  exists exn_cfg, [NxRouteMessages "router" [exg_m "eth" "axelar" "0xab:1"; exg_m "eth" "axelar" "0xab:1"]],
    (exg_m "eth" "axelar" "0xab:1"). vm_compute. reflexivity.
Qed.

(** C39: different messages, the same nexus message. *)
Lemma c39_refuted :
  exists m1 m2, wf_message m1 /\ wf_message m2 /\ m_cc m1 <> m_cc m2 /\ to_nexus m1 = to_nexus m2.
Proof.
  exists (exg_m "eth" "axelar" "0xab:1"), (exg_m "eth" "axelar" "AB:+01").
  split; [repeat (split; [vm_compute; first [reflexivity|discriminate]|]); reflexivity|].
  split; [repeat (split; [vm_compute; first [reflexivity|discriminate]|]); reflexivity|].
  split; [discriminate|]. vm_compute. reflexivity.
Qed.
(** ... even an id in the fallback form can meet one in the normal form. *)
Lemma c39_fallback_refuted :
  exists m1 m2, wf_message m1 /\ wf_message m2 /\ canonical_id (cc_id (m_cc m1)) /\
    parse_message_id (cc_id (m_cc m2)) = None /\ to_nexus m1 = to_nexus m2.
Proof.
  exists (exg_m "eth" "axelar" "6f6464:18446744073709551615"), (exg_m "eth" "axelar" "odd").
  split; [repeat (split; [vm_compute; first [reflexivity|discriminate]|]); reflexivity|].
  split; [repeat (split; [vm_compute; first [reflexivity|discriminate]|]); reflexivity|].
  split. { exists "odd", 18446744073709551615. split; [discriminate|]. split; vm_compute; reflexivity. }
  split; vm_compute; reflexivity.
Qed.
