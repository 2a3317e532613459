(** Proofs about the nexus gateway. *)
From Verif Require Import Base BaseLemmas Text TextLemmas RouterTypes NexusModel NexusSpec.

(** C39 *)
Lemma trim_hex s : trim_0x (to_hex s) = to_hex s.
Proof.
  destruct s as [|c s]; [done|]. cbn [to_hex trim_0x].
  destruct (Ascii.eqb_spec (hex_digit (N_of_ascii c mod 16)) "x") as [Hx|]; [|by rewrite andb_false_r].
  exfalso. assert (Hlt : N_of_ascii c mod 16 < 16) by (apply N.mod_lt; lia).
  pose proof (unhex_hex_digit _ Hlt) as Hu. rewrite Hx in Hu. done.
Qed.
Lemma to_hex_no_colon s : contains ":" (to_hex s) = false.
Proof. eapply (all_chars_contains is_hex); [done|apply to_hex_chars]. Qed.
Lemma dec_no_colon n : contains ":" (dec n) = false.
Proof. by apply dec_contains. Qed.

Lemma parse_canonical txid i :
  txid <> "" -> i < U64 -> parse_message_id (to_hex txid +:+ String ":" (dec i)) = Some (txid, i).
Proof.
  intros Ht Hi. unfold parse_message_id, ID_SEPARATOR.
  rewrite (proj2 (split_two ":" _ (to_hex txid) (dec i))); cycle 1.
  { split; [done|]. split; [apply to_hex_no_colon|apply dec_no_colon]. }
  rewrite trim_hex, of_to_hex. destruct txid; [done|]. cbn [is_empty].
  unfold parse_u64. by rewrite parse_uint_dec.
Qed.

Lemma c39_back n : wf_nmessage n -> to_nexus (from_nexus n) = n.
Proof.
  intros [Ht Hi]. unfold to_nexus, from_nexus. cbn [m_cc cc_id cc_chain m_src m_dchain m_daddr m_hash].
  unfold ID_SEPARATOR. rewrite parse_canonical by done. by destruct n.
Qed.
Lemma c39_from_injective n1 n2 :
  wf_nmessage n1 -> wf_nmessage n2 -> from_nexus n1 = from_nexus n2 -> n1 = n2.
Proof. intros H1 H2 H. rewrite <- (c39_back n1), <- (c39_back n2) by done. by rewrite H. Qed.
Lemma c39_from_ids n1 n2 :
  m_cc (from_nexus n1) = m_cc (from_nexus n2) ->
  n_schain n1 = n_schain n2 /\ n_txid n1 = n_txid n2 /\ n_index n1 = n_index n2.
Proof.
  intros H. cbn in H. injection H as Hc Hid. split; [done|].
  apply sep_app_inj in Hid as [Ht Hi]; [|apply to_hex_no_colon..].
  split; [by apply to_hex_inj|by apply dec_inj].
Qed.
Lemma c39_canonical m : canonical_id (cc_id (m_cc m)) -> from_nexus (to_nexus m) = m.
Proof.
  intros (txid & i & Ht & Hi & Hid). unfold to_nexus. rewrite Hid, parse_canonical by done.
  unfold from_nexus. cbn. destruct m as [[ch id] a b c d]. cbn in *. by rewrite Hid.
Qed.
Lemma c39_canonical_injective m1 m2 :
  canonical_id (cc_id (m_cc m1)) -> canonical_id (cc_id (m_cc m2)) ->
  n_schain (to_nexus m1) = n_schain (to_nexus m2) ->
  n_txid (to_nexus m1) = n_txid (to_nexus m2) -> n_index (to_nexus m1) = n_index (to_nexus m2) ->
  m_cc m1 = m_cc m2.
Proof.
  intros H1 H2 Hc Ht Hi. rewrite <- (c39_canonical m1), <- (c39_canonical m2) by done.
  unfold from_nexus. cbn [m_cc]. by rewrite Hc, Ht, Hi.
Qed.
Lemma to_nexus_fields m :
  n_schain (to_nexus m) = cc_chain (m_cc m) /\ n_saddr (to_nexus m) = m_src m /\ n_dchain (to_nexus m) = m_dchain m /\
  n_daddr (to_nexus m) = m_daddr m /\ n_hash (to_nexus m) = m_hash m.
Proof. unfold to_nexus. destruct (parse_message_id _) as [[??]|]; done. Qed.
Lemma from_nexus_fields n :
  wf_nmessage n ->
  cc_chain (m_cc (from_nexus n)) = n_schain n /\ m_src (from_nexus n) = n_saddr n /\ m_dchain (from_nexus n) = n_dchain n /\
  m_daddr (from_nexus n) = n_daddr n /\ m_hash (from_nexus n) = n_hash n /\ canonical_id (cc_id (m_cc (from_nexus n))).
Proof.
  intros [Ht Hi]. repeat (split; [done|]). by exists (n_txid n), (n_index n).
Qed.

(** The routed set. *)
Lemma routed_foldl (ms : list message) (st : gset ccid) id :
  id ∈ foldl (fun st m => {[ m_cc m ]} ∪ st) st ms <-> id ∈ st \/ id ∈ m_cc <$> ms.
Proof.
  revert st. induction ms as [|m ms IH]; intros st; cbn [foldl fmap list_fmap].
  - rewrite elem_of_nil. tauto.
  - change (list_fmap message ccid m_cc ms) with (m_cc <$> ms). rewrite IH, elem_of_union, elem_of_singleton, elem_of_cons. tauto.
Qed.

Lemma nx_config_step s op s' out : nexus_step s op = Ok (s', out) -> nx_config s' = nx_config s.
Proof.
  destruct op as [a ms|a ms]; cbn [nexus_step]; unfold route_to_nexus, route_to_router; intros (u & _ & H)%rbind_ok.
  - by injection H as <- _.
  - destruct (from_nexus <$> ms); by injection H as <- _.
Qed.
Lemma nx_config_run c ops : nx_config (nxrun c ops) = c.
Proof.
  unfold nxrun. apply (run_inv nexus_step (fun s => nx_config s = c)); [done|].
  intros s op s' out Hc Hs. by rewrite (nx_config_step _ _ _ _ Hs).
Qed.

(** C40 *)
Lemma c40_to_router c ops a ms s' out :
  nexus_step (nxrun c ops) (NxRouteMessagesFromNexus a ms) = Ok (s', out) <->
  a = nc_nexus c /\ s' = nxrun c ops /\
  out = NxToRouter (if bool_decide (ms = []) then [] else [(nc_router c, from_nexus <$> ms)]).
Proof.
  cbn [nexus_step]. unfold route_to_router. rewrite nx_config_run.
  case_bool_decide as Ha; cbn [ensure rbind]; [|naive_solver]. destruct ms as [|m ms]; cbn [fmap list_fmap].
  - rewrite bool_decide_true by done. naive_solver.
  - rewrite bool_decide_false by done. naive_solver.
Qed.

Definition seen_ids (c : nxconfig) (ops : list nxop) : list ccid := m_cc <$> offered (nc_router c) (nxlog c ops).

Lemma routed_run c ops id : id ∈ nx_routed (nxrun c ops) <-> id ∈ seen_ids c ops.
Proof.
  revert id. unfold seen_ids, nxrun, nxlog.
  refine (proj2 (run_log_inv nexus_step
    (fun s l => nx_config s = c /\ forall id, id ∈ nx_routed s <-> id ∈ m_cc <$> offered (nc_router c) l) _ _ _ _)).
  - split; [done|]. intros id. cbn. rewrite elem_of_empty, elem_of_nil. done.
  - intros s l op s' out [Hc Hi] Hs. split; [by rewrite (nx_config_step _ _ _ _ Hs)|]. intros id.
    unfold offered. rewrite bind_app, fmap_app, elem_of_app. cbn [mbind list_bind fst]. rewrite app_nil_r.
    fold (offered (nc_router c) l). rewrite <- Hi.
    destruct op as [a ms|a ms]; cbn [nexus_step] in Hs.
    + unfold route_to_nexus in Hs. apply rbind_ok in Hs as (u & Hu & Hs). injection Hs as <- _.
      apply ensure_ok, bool_decide_eq_true_1 in Hu. rewrite Hc in Hu. rewrite bool_decide_true by done.
      cbn [nx_routed]. rewrite routed_foldl.
      split; (intros [H|H]; [by left|]).
      * apply elem_of_list_fmap in H as (m & -> & Hm). apply elem_of_list_filter in Hm as [_ Hm]. right. by apply elem_of_list_fmap_1.
      * destruct (decide (id ∈ nx_routed s)) as [|Hn]; [by left|]. right.
        apply elem_of_list_fmap in H as (m & -> & Hm). apply elem_of_list_fmap_1. by apply elem_of_list_filter.
    + unfold route_to_router in Hs. apply rbind_ok in Hs as (u & _ & Hs). cbn. rewrite elem_of_nil.
      assert (s' = s) as -> by (destruct (from_nexus <$> ms); by injection Hs as <- _). tauto.
Qed.

Lemma c40_to_nexus c ops a ms s' out :
  nexus_step (nxrun c ops) (NxRouteMessages a ms) = Ok (s', out) ->
  a = nc_router c /\
  out = NxToNexus (to_nexus <$> filter (fun m => m_cc m ∉ seen_ids c ops) ms).
Proof.
  cbn [nexus_step]. unfold route_to_nexus. rewrite nx_config_run. intros (u & Hu & H)%rbind_ok.
  apply ensure_ok, bool_decide_eq_true_1 in Hu. split; [done|]. injection H as _ <-. do 2 f_equal.
  apply list_filter_iff. intros m. by rewrite routed_run.
Qed.
Lemma c40_to_nexus_accepted c ops a ms :
  is_ok (nexus_step (nxrun c ops) (NxRouteMessages a ms)) = true <-> a = nc_router c.
Proof.
  cbn [nexus_step]. unfold route_to_nexus. rewrite nx_config_run. by case_bool_decide.
Qed.

(** C38 *)
Lemma first_per_id_app seen ms1 ms2 :
  first_per_id seen (ms1 ++ ms2) = first_per_id seen ms1 ++ first_per_id (reverse (m_cc <$> ms1) ++ seen) ms2.
Proof.
  revert seen. induction ms1 as [|m ms1 IH]; intros seen; [done|]. cbn [app first_per_id fmap list_fmap].
  change (list_fmap message ccid m_cc ms1) with (m_cc <$> ms1).
  assert (Hext : forall s1 s2 ms, (forall x, x ∈ s1 <-> x ∈ s2) -> first_per_id s1 ms = first_per_id s2 ms).
  { intros s1 s2 ms. revert s1 s2. induction ms as [|x ms IHm]; intros s1 s2 Hs; [done|]. cbn.
    rewrite (bool_decide_ext _ _ (Hs (m_cc x))). case_bool_decide; [by apply IHm|]. f_equal. apply IHm.
    intros y. rewrite !elem_of_cons, Hs. done. }
  rewrite reverse_cons. case_bool_decide as Hm.
  - rewrite IH. f_equal. apply Hext. intros x. rewrite !elem_of_app, elem_of_list_singleton. naive_solver.
  - cbn [app]. f_equal. rewrite IH. f_equal. apply Hext. intros x.
    rewrite !elem_of_app, elem_of_list_singleton, elem_of_cons. tauto.
Qed.
Lemma first_per_id_nodup seen ms :
  NoDup (m_cc <$> ms) -> first_per_id seen ms = filter (fun m => m_cc m ∉ seen) ms.
Proof.
  revert seen. induction ms as [|m ms IH]; intros seen Hn; [done|]. cbn [fmap list_fmap] in Hn.
  change (list_fmap message ccid m_cc ms) with (m_cc <$> ms) in Hn.
  apply NoDup_cons in Hn as [Hm Hn]. cbn [first_per_id]. rewrite filter_cons. case_bool_decide as Hs.
  - rewrite decide_False by tauto. by apply IH.
  - rewrite decide_True by done. f_equal. rewrite IH by done. clear IH Hn.
    induction ms as [|x ms IH]; [done|]. cbn [fmap list_fmap] in Hm. apply not_elem_of_cons in Hm as [Hx Hm].
    rewrite !filter_cons. rewrite IH by done.
    destruct (decide (m_cc x ∉ m_cc m :: seen)) as [H1|H1]; rewrite not_elem_of_cons in H1.
    + rewrite decide_True by tauto. done.
    + rewrite decide_False; [done|]. intros H2. apply H1. split; [congruence|done].
Qed.
Lemma first_per_id_ids seen ms : NoDup (m_cc <$> first_per_id seen ms) /\ Forall (fun m => m_cc m ∉ seen) (first_per_id seen ms).
Proof.
  revert seen. induction ms as [|m ms IH]; intros seen; [by repeat constructor|]. cbn [first_per_id].
  case_bool_decide as Hm; [apply IH|]. destruct (IH (m_cc m :: seen)) as [H1 H2]. cbn [fmap list_fmap]. split.
  - constructor; [|done]. intros (x & Hx & Hin)%elem_of_list_fmap. rewrite Forall_forall in H2. apply (H2 x Hin). rewrite Hx. by left.
  - constructor; [done|]. eapply Forall_impl; [exact H2|]. cbn. intros x Hx Hs. apply Hx. by right.
Qed.

(** Without repeats inside a call, nexus receives the first message of each
    id, in the order offered. *)
Lemma c38_history c ops :
  Forall no_repeat_in_call ops ->
  nxlog c ops ≫= handed = to_nexus <$> first_per_id [] (offered (nc_router c) (nxlog c ops)).
Proof.
  intros Hops. induction ops as [|op ops IH] using rev_ind; [done|].
  apply Forall_app in Hops as [Hops Hop]. apply Forall_inv in Hop. specialize (IH Hops).
  pose proof (c40_to_nexus c ops) as Hnx. pose proof (c40_to_router c ops) as Hrt. unfold seen_ids in Hnx.
  unfold nxlog in *. rewrite log_snoc. fold (nxrun c ops).
  unfold log1. destruct (nexus_step (nxrun c ops) op) as [[s' out]| |] eqn:Hs; [|by rewrite app_nil_r..].
  rewrite bind_app, IH. unfold offered. rewrite bind_app.
  fold (offered (nc_router c) (log nexus_step (nexus_init c) ops)).
  rewrite first_per_id_app, fmap_app. f_equal. cbn [mbind list_bind fst]. rewrite !app_nil_r.
  destruct op as [a ms|a ms].
  - apply Hnx in Hs as [-> ->]. unfold handed. cbn [snd]. rewrite bool_decide_true by done. f_equal.
    cbn [no_repeat_in_call] in Hop. rewrite first_per_id_nodup by done.
    apply list_filter_iff. intros m. by rewrite elem_of_reverse.
  - apply Hrt in Hs as (_ & _ & ->). done.
Qed.

Lemma c38_at_most_once c ops :
  Forall no_repeat_in_call ops ->
  exists ms, nxlog c ops ≫= handed = to_nexus <$> ms /\ NoDup (m_cc <$> ms).
Proof.
  intros Hops. eexists. split; [by apply c38_history|]. apply first_per_id_ids.
Qed.

(** Even with repeats inside a call, what one call handed over is never handed
    over by a later call. *)
Lemma c38_across c ops1 op ops2 a ms out m :
  op = NxRouteMessages a ms -> nexus_step (nxrun c ops1) op = Ok (nxrun c (ops1 ++ [op]), out) -> m ∈ ms ->
  forall b ms' s' out', nexus_step (nxrun c (ops1 ++ [op] ++ ops2)) (NxRouteMessages b ms') = Ok (s', out') ->
  exists rest, out' = NxToNexus (to_nexus <$> rest) /\ m_cc m ∉ m_cc <$> rest.
Proof.
  intros -> Hs Hm b ms' s' out' Hs'. apply c40_to_nexus in Hs' as [-> ->]. eexists. split; [done|].
  intros (x & Hx & Hin)%elem_of_list_fmap. apply elem_of_list_filter in Hin as [Hin _]. apply Hin.
  rewrite <- Hx. unfold seen_ids. apply elem_of_list_fmap_1. unfold offered, nxlog. rewrite log_app, bind_app.
  apply elem_of_app. right. rewrite log_app, bind_app. apply elem_of_app. left.
  cbn [log]. unfold log1. fold (nxrun c ops1). rewrite Hs. cbn [app].
  apply c40_to_nexus in Hs as [-> _]. cbn [mbind list_bind fst]. rewrite bool_decide_true by done.
  by rewrite app_nil_r.
Qed.
