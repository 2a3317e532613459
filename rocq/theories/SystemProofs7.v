(** Delivery: a gateway's call brings the verified messages to the gateways of
    their destinations. *)
From Verif Require Import Base BaseLemmas Text StdModel RouterTypes RegistryTypes OperatorsModel MultisigTypes
  RouterModel RouterSpec RouterProofs GatewayModel GatewaySpec GatewayProofs NexusModel NexusSpec NexusProofs
  RewardsModel RegistryModel VerifierModel VerifierSpec VerifierProofs MultisigModel
  EncodingModel ProverModel SystemModel SystemSpec SystemProofs SystemProofs2 SystemProofs3 SystemProofs4.

Definition store (gs : gwstate) (ms : list message) : gwstate :=
  {| gw_config := gw_config gs; gw_outgoing := foldl (fun st m => <[m_cc m := m]> st) (gw_outgoing gs) ms |}.
Lemma store_app gs l1 l2 : store gs (l1 ++ l2) = store (store gs l1) l2.
Proof. unfold store. cbn. by rewrite foldl_app. Qed.
Lemma fold_union ms : forall o : gmap ccid message, NoDup (m_cc <$> ms) ->
  foldl (fun st m => <[m_cc m := m]> st) o ms = list_to_map ((fun m => (m_cc m, m)) <$> ms) ∪ o.
Proof.
  induction ms as [|m ms IH]; intros o Hd; cbn [foldl fmap list_fmap]; [symmetry; apply (left_id_L ∅ (∪))|].
  cbn [fmap list_fmap] in Hd. apply NoDup_cons in Hd as [Hn Hd]. rewrite IH by done. etrans; [|apply insert_union_l]. symmetry. apply insert_union_r. apply not_elem_of_list_to_map_1.
  by rewrite <- list_fmap_compose.
Qed.

Lemma filter_agree {A} (P Q : A -> Prop) `{!forall x, Decision (P x)} `{!forall x, Decision (Q x)} (l : list A) :
  (forall x, x ∈ l -> P x <-> Q x) -> filter P l = filter Q l.
Proof.
  induction l as [|x l IH]; intros Hag; [done|]. rewrite !filter_cons, IH by (intros; apply Hag; by right).
  destruct (Hag x) as [H1 H2]; [by left|]. destruct (decide (P x)), (decide (Q x)); naive_solver.
Qed.
Lemma filter_sub {A} (P : A -> Prop) `{!forall x, Decision (P x)} (l : list A) : filter P l `sublist_of` l.
Proof. induction l as [|x l IH]; [done|]. rewrite filter_cons. destruct (decide (P x)); by constructor. Qed.
Lemma sublist_nodup {A} (l1 l2 : list A) : l1 `sublist_of` l2 -> NoDup l2 -> NoDup l1.
Proof.
  induction 1 as [|x l1 l2 Hs IH|x l1 l2 Hs IH]; intros Hd; [done| |]; apply NoDup_cons in Hd as [Hn Hd]; [|by apply IH].
  apply NoDup_cons. split; [|by apply IH]. intros Hx. apply Hn. by eapply elem_of_submseteq, sublist_submseteq.
Qed.
Lemma status_verified_iff keccak vs m : status_verified keccak vs m = true <-> message_status keccak vs m = Ok Verified.
Proof. unfold status_verified. destruct (message_status keccak vs m) as [[]| |]; naive_solver. Qed.

Section Delivery.
  Context (keccak : string -> string) (wshash : worker_set -> string)
          (sec1 : string -> option string)
          (crypto : key_type -> string -> string -> string -> option bool).
  Notation exec_call := (exec_call keccak wshash sec1 crypto).
  Notation system_step := (system_step keccak wshash sec1 crypto).
  Notation sysrun := (sysrun keccak wshash sec1 crypto).
  Notation history := (history keccak wshash sec1 crypto).

  Definition nstore (s : nxstate) (ms : list message) : nxstate :=
    {| nx_config := nx_config s; nx_routed := list_to_set (m_cc <$> ms) ∪ nx_routed s |}.
  Definition stored (ms : list message) (o : option contract) : option contract :=
    match o with
    | Some (CGateway gd) => Some (CGateway (store gd ms))
    | Some (CNexus s) => Some (CNexus (nstore s ms))
    | o => o
    end.
  Lemma stored_nil o : stored [] o = o.
  Proof.
    destruct o as [[]|]; try done; cbn [stored]; f_equal; f_equal; [by destruct s|].
    unfold nstore. destruct s as [cs rs]. cbn [nx_config nx_routed]. f_equal. apply (left_id_L ∅ (∪)).
  Qed.
  Lemma stored_app l1 l2 o : stored (l1 ++ l2) o = stored l2 (stored l1 o).
  Proof.
    destruct o as [[]|]; try done; cbn [stored]; f_equal; f_equal; [apply store_app|].
    unfold nstore. destruct s as [cs rs]. cbn [nx_config nx_routed]. f_equal. rewrite fmap_app, list_to_set_app_L.
    by rewrite (comm_L (∪) (list_to_set (m_cc <$> l1))), (assoc_L (∪)).
  Qed.
  Lemma stored_with ms o : distinct_ids ms -> stored ms o = with_messages ms o.
  Proof. intros Hd. destruct o as [[]|]; try done. cbn [stored with_messages]. unfold store. by rewrite fold_union. Qed.
  Lemma fresh_union ms : forall s s0 : gset ccid, s0 ⊆ s ->
    foldl (fun st m => {[ m_cc m ]} ∪ st) s (filter (fun m => m_cc m ∉ s0) ms) = list_to_set (m_cc <$> ms) ∪ s.
  Proof.
    induction ms as [|m ms IH]; intros s s0 Hs; cbn [fmap list_fmap list_to_set]; [symmetry; apply (left_id_L ∅ (∪))|].
    rewrite filter_cons. destruct (decide (m_cc m ∉ s0)) as [Hn|Hn]; cbn [foldl].
    - rewrite IH by (etrans; [exact Hs|apply union_subseteq_r]).
      by rewrite (assoc_L (∪)), (comm_L (∪) (list_to_set (m_cc <$> ms)) {[ m_cc m ]}).
    - rewrite IH by done. apply dec_stable in Hn. rewrite <- (assoc_L (∪)). symmetry. apply subseteq_union_1_L.
      apply singleton_subseteq_l, elem_of_union_r. by apply Hs.
  Qed.
  Lemma takes_stored r ms o : takes_from r o -> takes_from r (stored ms o).
  Proof. by destruct o as [[]|]. Qed.

  (** One delivery. *)
  Lemma deliver1 g e r d ms st tr : distinct_ids ms -> takes_from r (st !! d) ->
    exists k c, exec_call (S g) e r st tr (plain d (BRoute ms)) = Ok (<[d := c]> st, tr ++ [k], None) /\ stored ms (st !! d) = Some c.
  Proof.
    intros Hd Ht. cbn [SystemModel.exec_call]. unfold receive. unfold plain at 1 2 3 4. cbn [sb_to sb_body].
    destruct (st !! d) as [[]|] eqn:E; try done; cbn [takes_from] in Ht.
    - cbn [gateway_op of_option rbind gateway_step]. rewrite bool_decide_true by done. unfold route_outgoing_messages, ensure_unique_ids.
      rewrite bool_decide_true by done. cbn [ensure rbind map_err]. unfold gateway_subs. cbn [go_verify go_route fmap list_fmap app run_subs rbind fst snd settle].
      eexists _, (CGateway (store s ms)). split; [reflexivity|done].
    - cbn [nexus_op of_option rbind nexus_step]. unfold route_to_nexus. rewrite bool_decide_true by done. cbn [ensure rbind map_err].
      unfold nexus_subs. cbn [run_subs rbind fst snd settle].
      eexists _, (CNexus (nstore s ms)). split; [|done]. unfold nstore. by rewrite fresh_union.
  Qed.
  Lemma deliver g e r : forall sent st tr,
    Forall (fun x => distinct_ids x.2 /\ takes_from r (st !! x.1)) sent ->
    exists st' tr', run_subs (exec_call (S g) e r) r st tr ((fun x => plain x.1 (BRoute x.2)) <$> sent) = Ok (st', tr') /\
      forall a, st' !! a = stored (concat (filter (fun x => x.1 = a) sent).*2) (st !! a).
  Proof.
    induction sent as [|[d ms] sent IH]; intros st tr Hall; cbn [fmap list_fmap run_subs].
    - exists st, tr. split; [done|]. intros a. cbn. by rewrite stored_nil.
    - apply Forall_cons in Hall as [[Hd Ht] Hall]. cbn [fst snd] in *.
      destruct (deliver1 g e r d ms st tr Hd Ht) as (k & c & Hk & Hc). rewrite Hk. cbn [rbind fst snd]. unfold plain at 1. cbn [sb_reply rbind].
      assert (Hlk : forall a, (<[d := c]> st : chain) !! a = if decide (d = a) then stored ms (st !! a) else st !! a).
      { intros a. destruct (decide (d = a)) as [->|Hne]; [|by apply lookup_insert_ne]. rewrite Hc. apply lookup_insert. }
      edestruct (IH (<[d := c]> st) (tr ++ [k])) as (st' & tr' & Hrun & Hst').
      { eapply Forall_impl; [exact Hall|]. intros x [Hx Htx]. split; [done|]. rewrite Hlk.
        destruct (decide (d = x.1)); [by apply takes_stored|done]. }
      exists st', tr'. split; [exact Hrun|]. intros a. rewrite Hst', Hlk, filter_cons. cbn [fst].
      destruct (decide (d = a)) as [->|Hne]; [|done]. cbn [fmap list_fmap concat snd]. by rewrite stored_app.
  Qed.

  Section Route.
  Context (dep : gmap addr deployed) (txs : list tx) (G : addr) (gc : gwconfig) (vc : vconfig) (rc : rtconfig).
  Context (HG : dep !! G = Some (DGateway gc)) (HV : dep !! gc_verifier gc = Some (DVerifier vc)) (HR : dep !! gc_router gc = Some (DRouter rc)).
  Notation st := (sysrun dep txs).
  Notation R := (gc_router gc).
  Context (vs : vstate) (rs : rtstate).
  Context (Hvs : st !! gc_verifier gc = Some (CVerifier vs)) (Hrs : st !! R = Some (CRouter rs)).
  Notation verified := (filter (fun m => status_verified keccak vs m = true)).

  Lemma at_gateway : exists gs, st !! G = Some (CGateway gs) /\ gw_config gs = gc.
  Proof.
    pose proof (shape_end keccak wshash sec1 crypto dep txs G) as Hs. rewrite HG in Hs. cbn [shape] in Hs.
    rewrite Hs. eexists. split; [done|]. apply gw_config_run.
  Qed.
  Lemma at_router : rs = rtrun rc (router_ops R (history dep txs)).
  Proof.
    pose proof (shape_end keccak wshash sec1 crypto dep txs R) as Hs. rewrite HR in Hs. cbn [shape] in Hs.
    rewrite Hs in Hrs. by injection Hrs.
  Qed.

  (** Up to the router's own decision. *)
  Lemma route_reduce g e n a ms r tr : a <> R -> distinct_ids ms -> is_verified keccak vs ms = Ok r ->
    n = length tr ->
    exec_call (S g) e a st tr (plain G (BRoute ms)) =
    (let k := {| k_chain := st; k_env := e; k_index := n; k_sender := a; k_sub := plain G (BRoute ms) |} in
     let? (st', tr') := run_subs (exec_call g e G) G st (tr ++ [k])
       (match verified ms with [] => [] | v => [plain R (BRoute v)] end) in
     Ok (st', tr', None)).
  Proof.
    intros Ha Hd Hr ->. destruct at_gateway as (gs & Hgs & Hgc).
    cbn [SystemModel.exec_call]. unfold receive. unfold plain at 1 2 3 4. cbn [sb_to sb_body]. rewrite Hgs, Hgc.
    cbn [gateway_op of_option rbind gateway_step]. rewrite Hgc, bool_decide_false by done.
    unfold route_incoming_messages, ensure_unique_ids. rewrite bool_decide_true by done. cbn [ensure rbind].
    assert (Hq : q_is_verified keccak e (length tr) st (gc_verifier gc) ms = Some r) by (unfold q_is_verified; rewrite Hvs, Hr; done).
    rewrite (proj2 (partition_ok _ _ _ _)) by eauto. cbn [rbind]. clear Hq.
    assert (Hf : filter (fun m => GatewaySpec.reported r m = true) ms = verified ms).
    { apply filter_agree. intros m Hm. rewrite status_verified_iff. by eapply reported_verified. }
    rewrite Hf. cbn [map_err rbind]. unfold gateway_subs. cbn [go_verify go_route fmap list_fmap app fst snd].
    assert (Hs : settle st G (Some (CGateway gs)) = st) by (by apply insert_id). cbn [settle] in Hs |- *. unfold plain at 1 2 3. cbn [sb_to]. rewrite Hs.
    destruct (verified ms); [reflexivity|]. cbn [fmap list_fmap fst snd]. by rewrite Hgc.
  Qed.

  (** A call that the router accepts stores the verified messages at their
      destinations and changes nothing else; any other call has no effect. *)
  Notation call g e a ms := {| tx_gas := g; tx_env := e; tx_sender := a; tx_sub := plain G (BRoute ms) |}.
  Lemma c81 g e a ms : dep !! a = None -> distinct_ids ms -> is_ok (is_verified keccak vs ms) = true ->
    let v := verified ms in
    may_send rs G v ->
    Forall (fun m => exists d, goes_to rs G (m_dchain m) = Some d /\ takes_from R (st !! d)) v ->
    exists st' l, system_step st (call (S (S (S g))) e a ms) = Ok (st', l) /\
      forall d, st' !! d = with_messages (filter (fun m => goes_to rs G (m_dchain m) = Some d) v) (st !! d).
  Proof.
    intros Ha Hd Hr v Hmay Hdst. destruct (is_verified keccak vs ms) as [r| |] eqn:Er; try done. clear Hr.
    assert (HaR : a <> R) by (intros ->; rewrite HR in Ha; discriminate Ha).
    assert (Ha' : st !! a = None).
    { pose proof (shape_end keccak wshash sec1 crypto dep txs a) as Hs. rewrite Ha in Hs. exact Hs. }
    assert (Hv : distinct_ids v).
    { unfold distinct_ids in *. eapply sublist_nodup; [|exact Hd]. apply fmap_sublist. apply filter_sub. }
    unfold SystemModel.system_step. cbn [tx_gas tx_env tx_sender tx_sub]. rewrite bool_decide_true by done. cbn [ensure rbind].
    rewrite (route_reduce _ _ 0 _ _ r) by done. cbn zeta. fold v.
    destruct v as [|m0 v0] eqn:Ev.
    - cbn [run_subs rbind fst]. eexists _, _. split; [done|]. intros d. rewrite <- stored_with by constructor. cbn. by rewrite stored_nil.
    - rewrite <- Ev in *. cbn [run_subs]. set (k := {| k_chain := st |}).
      remember (S g) as g1. cbn [SystemModel.exec_call]. unfold receive. unfold plain at 1 2 3 4. cbn [sb_to sb_body]. rewrite Hrs. cbn [router_op of_option rbind].
      destruct (router_step rs (RouteMessages G v)) as [[rs' out]| |] eqn:Ers.
      2,3: exfalso; pose proof (proj2 (c30_31 rc (router_ops R (history dep txs)) G v)) as Hok; rewrite <- at_router, Ers in Hok;
           discriminate Hok; split; [done|]; eapply Forall_impl; [exact Hdst|]; intros m (d & -> & _); eauto.
      pose proof Ers as Hs. rewrite at_router in Hs. apply c30_sent in Hs as (sent & -> & Hrs' & Hcat & Hall). rewrite <- at_router in Hrs', Hall. subst rs'.
      cbn [map_err rbind router_subs fst snd settle]. assert (Hid : (<[R := CRouter rs]> st : chain) = st) by (by apply insert_id).
      unfold plain at 1 2 3 4. cbn [sb_to]. rewrite Hid. clear Hid.
      match goal with |- context [run_subs _ R st ?tr _] => destruct (deliver g e R sent st tr) as (st' & tr' & Hrun & Hst') end.
      { apply Forall_forall. intros x Hx. rewrite Forall_forall in Hall. destruct (Hall _ Hx) as [Hne Hx2]. split.
        - unfold distinct_ids in *. rewrite <- Hcat in Hv. clear -Hv Hx. induction sent as [|y sent IH]; [by apply elem_of_nil in Hx|].
          cbn [fmap list_fmap concat] in Hv. rewrite fmap_app in Hv. apply NoDup_app in Hv as (H1 & _ & H2).
          apply elem_of_cons in Hx as [->|Hx]; [done|]. by apply IH.
        - destruct x as [d [|m ms']]; [done|]. cbn [fst snd] in *. apply Forall_inv in Hx2.
          rewrite Forall_forall in Hdst. destruct (Hdst m) as (d' & Hd' & Ht).
          { rewrite <- Hcat. apply elem_of_list_In, in_concat. exists (m :: ms'). split; [|by left]. apply elem_of_list_In, elem_of_list_fmap. by exists (d, m :: ms'). }
          by replace d with d' by congruence. }
      subst g1. match goal with |- context [run_subs ?f R st ?tr ?ss] =>
        change (run_subs f R st tr ss) with (run_subs (exec_call (S g) e R) R st tr ((fun x => plain x.1 (BRoute x.2)) <$> sent)) end.
      rewrite Hrun. cbn [rbind fst snd]. unfold plain at 1. cbn [sb_reply rbind].
      eexists _, _. split; [done|]. intros d. rewrite Hst'. rewrite at_router in Ers. rewrite (c30_per_gateway _ _ _ _ _ _ _ d Ers), <- at_router.
      apply stored_with. unfold distinct_ids in *. eapply sublist_nodup; [|exact Hv]. apply fmap_sublist. apply filter_sub.
  Qed.
  Lemma c81_blocked g e a ms r : dep !! a = None -> distinct_ids ms -> is_verified keccak vs ms = Ok r ->
    verified ms <> [] ->
    ~ (may_send rs G (verified ms) /\ Forall (fun m => is_Some (goes_to rs G (m_dchain m))) (verified ms)) ->
    is_ok (system_step st (call g e a ms)) = false.
  Proof.
    intros Ha Hd Er Hne Hno.
    assert (HaR : a <> R) by (intros ->; rewrite HR in Ha; discriminate Ha).
    unfold SystemModel.system_step. cbn [tx_gas tx_env tx_sender tx_sub]. destruct (bool_decide _); [|done]. cbn [ensure rbind].
    destruct g as [|g]; [done|]. rewrite (route_reduce _ _ 0 _ _ r) by done. cbn zeta.
    destruct (verified ms) as [|m0 v0] eqn:Ev; [done|]. rewrite <- Ev in *. cbn [run_subs].
    destruct g as [|g]; [done|]. cbn [SystemModel.exec_call]. unfold receive. unfold plain at 1 2 3 4. cbn [sb_to sb_body]. rewrite Hrs. cbn [router_op of_option rbind].
    destruct (router_step rs (RouteMessages G (verified ms))) as [[rs' out]| |] eqn:Ers; [|done..].
    destruct Hno. pose proof (proj1 (c30_31 rc (router_ops R (history dep txs)) G (verified ms))) as Hok. rewrite <- at_router, Ers in Hok. by apply Hok.
  Qed.
  End Route.
End Delivery.
