(** Properties C35-C40 of the gateway and the nexus gateway. *)
From Verif Require Import Base Text RouterTypes GatewayModel GatewaySpec GatewayProofs
  NexusModel NexusSpec NexusProofs GatewayExamples.

(** C35. *)
Theorem C35_forwards_verified : forall c ops sender msgs answer s' out,
  sender <> gc_router c ->
  gateway_step (gwrun c ops) (GwRouteMessages sender msgs answer) = Ok (s', out) <->
  exists r, distinct_ids msgs /\ answer msgs = Some r /\ s' = gwrun c ops /\
    let verified := filter (fun m => reported r m = true) msgs in
    out = {| go_verify := [];
             go_route := if bool_decide (verified = []) then [] else [(gc_router c, verified)];
             go_routed := verified;
             go_failed := filter (fun m => reported r m = false) msgs |}.
Proof. exact c35. Qed.
Print Assumptions C35_forwards_verified.

(** C36. *)
Theorem C36_asks_unverified : forall c ops msgs answer s' out,
  gateway_step (gwrun c ops) (GwVerifyMessages msgs answer) = Ok (s', out) <->
  s' = gwrun c ops /\
  ((msgs = [] /\ out = gwout_empty) \/
   exists r, msgs <> [] /\ distinct_ids msgs /\ answer msgs = Some r /\
     let unverified := filter (fun m => reported r m = false) msgs in
     out = {| go_verify := if bool_decide (unverified = []) then [] else [(gc_verifier c, unverified)];
              go_route := []; go_routed := []; go_failed := [] |}).
Proof. exact c36. Qed.
Print Assumptions C36_asks_unverified.

(** C37. *)
Theorem C37_read_back : forall c ops ids,
  (forall ms, get_messages (gwrun c ops) ids = Ok ms <->
     Forall2 (fun id m => last_stored (gc_router c) (gwlog c ops) id = Some m) ids ms) /\
  (is_ok (get_messages (gwrun c ops) ids) = true <->
     Forall (fun id => is_Some (last_stored (gc_router c) (gwlog c ops) id)) ids).
Proof. exact c37_read. Qed.
Print Assumptions C37_read_back.

Theorem C37_own_id : forall c ops id m,
  last_stored (gc_router c) (gwlog c ops) id = Some m -> m_cc m = id.
Proof. exact c37_id. Qed.
Print Assumptions C37_own_id.

Theorem C37_only_router : forall c ops op s' out id,
  gateway_step (gwrun c ops) op = Ok (s', out) ->
  get_messages s' [id] <> get_messages (gwrun c ops) [id] ->
  exists ms an m, op = GwRouteMessages (gc_router c) ms an /\ m ∈ ms /\ m_cc m = id /\ get_messages s' [id] = Ok [m].
Proof. exact c37_only_router. Qed.
Print Assumptions C37_only_router.

Theorem C37_router_call : forall c ops msgs answer,
  (is_ok (gateway_step (gwrun c ops) (GwRouteMessages (gc_router c) msgs answer)) = true <-> distinct_ids msgs) /\
  (forall s' out, gateway_step (gwrun c ops) (GwRouteMessages (gc_router c) msgs answer) = Ok (s', out) ->
     out = {| go_verify := []; go_route := []; go_routed := msgs; go_failed := [] |} /\
     get_messages s' (m_cc <$> msgs) = Ok msgs).
Proof. exact c37_accepted. Qed.
Print Assumptions C37_router_call.

(** A stored message can be replaced by a later one with the same id. *)
Theorem C37_overwrites : 
  exists c ops id m1 m2 s1, m1 <> m2 /\ s1 = gwrun c ops /\ get_messages s1 [id] = Ok [m1] /\
    exists msgs an, get_messages (gwrun c (ops ++ [GwRouteMessages (gc_router c) msgs an])) [id] = Ok [m2].
Proof. exact c37_overwrites. Qed.
Print Assumptions C37_overwrites.

(** C38: false of this code when one call names an id twice; the rest. *)
Theorem C38_once_refuted : exists c ops m, nxlog c ops ≫= handed = [to_nexus m; to_nexus m].
Proof. exact c38_refuted. Qed.
Print Assumptions C38_once_refuted.

Theorem C38_once_without_repeats : forall c ops,
  Forall no_repeat_in_call ops ->
  exists ms, nxlog c ops ≫= handed = to_nexus <$> ms /\ NoDup (m_cc <$> ms).
Proof. exact c38_at_most_once. Qed.
Print Assumptions C38_once_without_repeats.

Theorem C38_first_of_each_id : forall c ops,
  Forall no_repeat_in_call ops ->
  nxlog c ops ≫= handed = to_nexus <$> first_per_id [] (offered (nc_router c) (nxlog c ops)).
Proof. exact c38_history. Qed.
Print Assumptions C38_first_of_each_id.

Theorem C38_never_again : forall c ops1 op ops2 a ms out m,
  op = NxRouteMessages a ms -> nexus_step (nxrun c ops1) op = Ok (nxrun c (ops1 ++ [op]), out) -> m ∈ ms ->
  forall b ms' s' out', nexus_step (nxrun c (ops1 ++ [op] ++ ops2)) (NxRouteMessages b ms') = Ok (s', out') ->
  exists rest, out' = NxToNexus (to_nexus <$> rest) /\ m_cc m ∉ m_cc <$> rest.
Proof. exact c38_across. Qed.
Print Assumptions C38_never_again.

(** C39: the first half holds, the second is false of this code. *)
Theorem C39_there_and_back : forall n, wf_nmessage n -> to_nexus (from_nexus n) = n.
Proof. exact c39_back. Qed.
Print Assumptions C39_there_and_back.

Theorem C39_from_nexus_ids : forall n1 n2,
  m_cc (from_nexus n1) = m_cc (from_nexus n2) ->
  n_schain n1 = n_schain n2 /\ n_txid n1 = n_txid n2 /\ n_index n1 = n_index n2.
Proof. exact c39_from_ids. Qed.
Print Assumptions C39_from_nexus_ids.

Theorem C39_from_nexus_content : forall n,
  wf_nmessage n ->
  cc_chain (m_cc (from_nexus n)) = n_schain n /\ m_src (from_nexus n) = n_saddr n /\ m_dchain (from_nexus n) = n_dchain n /\
  m_daddr (from_nexus n) = n_daddr n /\ m_hash (from_nexus n) = n_hash n /\ canonical_id (cc_id (m_cc (from_nexus n))).
Proof. exact from_nexus_fields. Qed.
Print Assumptions C39_from_nexus_content.

Theorem C39_to_nexus_content : forall m,
  n_schain (to_nexus m) = cc_chain (m_cc m) /\ n_saddr (to_nexus m) = m_src m /\ n_dchain (to_nexus m) = m_dchain m /\
  n_daddr (to_nexus m) = m_daddr m /\ n_hash (to_nexus m) = m_hash m.
Proof. exact to_nexus_fields. Qed.
Print Assumptions C39_to_nexus_content.

Theorem C39_canonical_ids : forall m1 m2,
  canonical_id (cc_id (m_cc m1)) -> canonical_id (cc_id (m_cc m2)) ->
  n_schain (to_nexus m1) = n_schain (to_nexus m2) ->
  n_txid (to_nexus m1) = n_txid (to_nexus m2) -> n_index (to_nexus m1) = n_index (to_nexus m2) ->
  m_cc m1 = m_cc m2.
Proof. exact c39_canonical_injective. Qed.
Print Assumptions C39_canonical_ids.

Theorem C39_different_ids_refuted :
  exists m1 m2, wf_message m1 /\ wf_message m2 /\ m_cc m1 <> m_cc m2 /\ to_nexus m1 = to_nexus m2.
Proof. exact c39_refuted. Qed.
Print Assumptions C39_different_ids_refuted.

Theorem C39_fallback_refuted :
  exists m1 m2, wf_message m1 /\ wf_message m2 /\ canonical_id (cc_id (m_cc m1)) /\
    parse_message_id (cc_id (m_cc m2)) = None /\ to_nexus m1 = to_nexus m2.
Proof. exact c39_fallback_refuted. Qed.
Print Assumptions C39_fallback_refuted.

(** C40. *)
Theorem C40_to_router : forall c ops a ms s' out,
  nexus_step (nxrun c ops) (NxRouteMessagesFromNexus a ms) = Ok (s', out) <->
  a = nc_nexus c /\ s' = nxrun c ops /\
  out = NxToRouter (if bool_decide (ms = []) then [] else [(nc_router c, from_nexus <$> ms)]).
Proof. exact c40_to_router. Qed.
Print Assumptions C40_to_router.

Theorem C40_to_nexus : forall c ops a ms s' out,
  nexus_step (nxrun c ops) (NxRouteMessages a ms) = Ok (s', out) ->
  a = nc_router c /\
  out = NxToNexus (to_nexus <$>
          filter (fun m => m_cc m ∉ m_cc <$> offered (nc_router c) (nxlog c ops)) ms).
Proof. exact c40_to_nexus. Qed.
Print Assumptions C40_to_nexus.

Theorem C40_to_nexus_accepted : forall c ops a ms,
  is_ok (nexus_step (nxrun c ops) (NxRouteMessages a ms)) = true <-> a = nc_router c.
Proof. exact c40_to_nexus_accepted. Qed.
Print Assumptions C40_to_nexus_accepted.

Example gateway_nonvacuous :
  let s := gwrun exg_cfg exg_ops in
  let l := gwlog exg_cfg exg_ops in
  length l = 3%nat /\
  get_messages s [{| cc_chain := "eth"; cc_id := "2" |}; {| cc_chain := "eth"; cc_id := "1" |}] =
    Ok [exg_m "eth" "pol" "2"; exg_m' "eth" "pol" "1"] /\
  get_messages s [{| cc_chain := "eth"; cc_id := "1" |}; {| cc_chain := "eth"; cc_id := "3" |}] =
    Err GwLoadOutgoingMessage /\
  last_stored "router" l {| cc_chain := "eth"; cc_id := "1" |} = Some (exg_m' "eth" "pol" "1") /\
  distinct_ids exg_batch /\
  gateway_step s (GwRouteMessages "relayer" exg_batch exg_answer) =
    Ok (s, {| go_verify := []; go_route := [("router", [exg_m "pol" "eth" "1"; exg_m "pol" "eth" "3"])];
              go_routed := [exg_m "pol" "eth" "1"; exg_m "pol" "eth" "3"]; go_failed := [exg_m "pol" "eth" "2"] |}) /\
  gateway_step s (GwVerifyMessages exg_batch exg_answer) =
    Ok (s, {| go_verify := [("verifier", [exg_m "pol" "eth" "2"])]; go_route := []; go_routed := []; go_failed := [] |}) /\
  gateway_step s (GwRouteMessages "relayer" (exg_batch ++ exg_batch) exg_answer) = Err GwDuplicateMessageIds.
Proof. exact ex_gateway. Qed.

Example nexus_nonvacuous :
  Forall no_repeat_in_call exn_ops /\
  ((fun n => (n_txid n, n_index n)) <$> (nxlog exn_cfg exn_ops ≫= handed)) =
    [(String "171" "", 1); (String "205" "", 1); ("odd", 18446744073709551615)] /\
  offered "router" (nxlog exn_cfg exn_ops) =
    [exg_m "eth" "axelar" "0xab:1"; exg_m "eth" "axelar" "0xcd:1"; exg_m "eth" "axelar" "0xcd:1"; exg_m "eth" "axelar" "odd"].
Proof. exact ex_nexus. Qed.
