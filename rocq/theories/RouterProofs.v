(** Proofs about the router. *)
From Verif Require Import Base BaseLemmas Text TextLemmas StdModel StdProofs MapLemmas RouterTypes RouterModel RouterSpec.

(** One-to-one. *)
Definition rtinv (s : rtstate) : Prop :=
  (forall c e, rt_chains s !! c = Some e -> ce_name e = c) /\
  (forall c1 c2 e1 e2, rt_chains s !! c1 = Some e1 -> rt_chains s !! c2 = Some e2 ->
     ce_gateway e1 = ce_gateway e2 -> c1 = c2).

Lemma by_gateway_spec s g :
  rtinv s ->
  match load_chain_by_gateway s g with
  | Ok (Some e) => rt_chains s !! ce_name e = Some e /\ ce_gateway e = g
  | Ok None => forall c e, rt_chains s !! c = Some e -> ce_gateway e <> g
  | _ => False
  end.
Proof.
  intros [H1 H2]. unfold load_chain_by_gateway.
  set (l := filter (fun x : string * endpoint => ce_gateway x.2 = g) (btree_iter (rt_chains s))).
  assert (Hin : forall c e, (c, e) ∈ l <-> rt_chains s !! c = Some e /\ ce_gateway e = g).
  { intros c e. unfold l. rewrite elem_of_list_filter, elem_of_btree_iter. cbn. naive_solver. }
  assert (Hnd : NoDup l).
  { unfold l. apply NoDup_filter. eapply NoDup_fmap_1, btree_iter_NoDup. }
  clearbody l.
  destruct l as [|[c e] [|[c' e'] l]].
  - intros c e Hc Hg. apply (elem_of_nil (c, e)), Hin. done.
  - destruct (proj1 (Hin c e)) as [Hc Hg]; [by left|]. rewrite (H1 _ _ Hc). done.
  - destruct (proj1 (Hin c e)) as [Hc Hg]; [by left|].
    destruct (proj1 (Hin c' e')) as [Hc' Hg']; [by right; left|].
    assert (c = c') as -> by (eapply H2; eauto; congruence).
    rewrite Hc in Hc'. injection Hc' as <-. apply NoDup_cons in Hnd as [Hn _]. destruct Hn. by left.
Qed.

Lemma rtinv_init c : rtinv (router_init c).
Proof. split; cbn; intros *; rewrite ?lookup_empty; done. Qed.

Lemma register_ok s c g s' out :
  rtinv s ->
  register_chain s c g = Ok (s', out) <->
  (forall c e, rt_chains s !! c = Some e -> ce_gateway e <> g) /\ rt_chains s !! c = None /\
  s' = set_chains s (<[c := {| ce_name := c; ce_gateway := g; ce_frozen := 0 |}]> (rt_chains s)) /\
  out = EvChainRegistered c g.
Proof.
  intros Hi. pose proof (by_gateway_spec s g Hi) as Hg. unfold register_chain.
  destruct (load_chain_by_gateway s g) as [[e|]| |]; cbn [rbind]; [| |done|done].
  - split; [done|]. intros (H & _). destruct Hg as [Hg1 Hg2]. destruct (H _ _ Hg1 Hg2).
  - cbn [bool_decide ensure rbind]. rewrite bool_decide_true by done. cbn [ensure rbind].
    case_bool_decide as Hn; cbn [ensure rbind direction_bits]; split; naive_solver.
Qed.

Lemma upgrade_ok s c g s' out :
  rtinv s ->
  upgrade_gateway s c g = Ok (s', out) <->
  exists e, (forall c e, rt_chains s !! c = Some e -> ce_gateway e <> g) /\ rt_chains s !! c = Some e /\
  s' = set_chains s (<[c := {| ce_name := ce_name e; ce_gateway := g; ce_frozen := ce_frozen e |}]> (rt_chains s)) /\
  out = EvGatewayUpgraded c g.
Proof.
  intros Hi. pose proof (by_gateway_spec s g Hi) as Hg. unfold upgrade_gateway.
  destruct (load_chain_by_gateway s g) as [[e|]| |]; cbn [rbind]; [| |done|done].
  - split; [done|]. intros (e' & H & _). destruct Hg as [Hg1 Hg2]. destruct (H _ _ Hg1 Hg2).
  - rewrite bool_decide_true by done. cbn [ensure rbind].
    destruct (rt_chains s !! c) as [e|]; cbn [of_option rbind]; split; naive_solver.
Qed.

Lemma freeze_ok s c d s' out :
  freeze_chain s c d = Ok (s', out) <->
  exists e, rt_chains s !! c = Some e /\
  s' = set_chains s (<[c := {| ce_name := ce_name e; ce_gateway := ce_gateway e;
                               ce_frozen := N.lor (ce_frozen e) (direction_bits d) |}]> (rt_chains s)) /\
  out = EvChainFrozen c.
Proof.
  unfold freeze_chain. destruct (rt_chains s !! c) as [e|]; cbn [of_option rbind]; split; naive_solver.
Qed.
Lemma unfreeze_ok s c d s' out :
  unfreeze_chain s c d = Ok (s', out) <->
  exists e, rt_chains s !! c = Some e /\
  s' = set_chains s (<[c := {| ce_name := ce_name e; ce_gateway := ce_gateway e;
                               ce_frozen := N.ldiff (ce_frozen e) (direction_bits d) |}]> (rt_chains s)) /\
  out = EvChainFrozen c.
Proof.
  unfold unfreeze_chain. destruct (rt_chains s !! c) as [e|]; cbn [of_option rbind]; split; naive_solver.
Qed.

(** Every step is a route or changes one chain. *)
Lemma route_state s a ms s' out : route_messages s a ms = Ok (s', out) -> s' = s.
Proof. unfold route_messages. intros H. res_inv. done. Qed.

Lemma rtinv_insert_same s c e e' :
  rtinv s -> rt_chains s !! c = Some e -> ce_name e' = ce_name e -> ce_gateway e' = ce_gateway e ->
  rtinv (set_chains s (<[c := e']> (rt_chains s))).
Proof.
  intros [H1 H2] Hc Hn Hg. split; cbn [rt_chains set_chains].
  - intros c' x. destruct (decide (c = c')) as [<-|Hne].
    + rewrite lookup_insert. intros [= <-]. rewrite Hn. auto.
    + rewrite lookup_insert_ne by done. apply H1.
  - assert (Hg' : forall c1 x, <[c := e']> (rt_chains s) !! c1 = Some x ->
                 exists y, rt_chains s !! c1 = Some y /\ ce_gateway y = ce_gateway x).
    { intros c1 x. destruct (decide (c = c1)) as [<-|Hne].
      - rewrite lookup_insert. intros [= <-]. eauto.
      - rewrite lookup_insert_ne by done. eauto. }
    intros c1 c2 e1 e2 (x1 & Hx1 & Hgx1)%Hg' (x2 & Hx2 & Hgx2)%Hg' Heq. eapply H2; eauto. congruence.
Qed.
Lemma rtinv_insert_fresh s c e :
  rtinv s -> (forall c e', rt_chains s !! c = Some e' -> ce_gateway e' <> ce_gateway e) -> ce_name e = c ->
  rtinv (set_chains s (<[c := e]> (rt_chains s))).
Proof.
  intros [H1 H2] Hf Hn. split; cbn [rt_chains set_chains].
  - intros c' x. destruct (decide (c = c')) as [<-|Hne].
    + rewrite lookup_insert. intros [= <-]. done.
    + rewrite lookup_insert_ne by done. apply H1.
  - intros c1 c2 e1 e2. destruct (decide (c = c1)) as [<-|Hne1], (decide (c = c2)) as [<-|Hne2];
      rewrite ?lookup_insert, ?lookup_insert_ne by done; try done.
    + intros [= <-] He2 Hg. destruct (Hf _ _ He2). done.
    + intros He1 [= <-] Hg. destruct (Hf _ _ He1). done.
    + apply H2.
Qed.

Lemma rtinv_step s op s' out : rtinv s -> router_step s op = Ok (s', out) -> rtinv s'.
Proof.
  intros Hi. destruct op as [a c g|a c g|a c d|a c d|a ms]; cbn [router_step]; intros Hs.
  - apply rbind_ok in Hs as (u & _ & Hs). apply register_ok in Hs as (Hf & Hn & -> & _); [|done].
    by apply rtinv_insert_fresh.
  - apply rbind_ok in Hs as (u & _ & Hs). apply upgrade_ok in Hs as (e & Hf & Hn & -> & _); [|done].
    apply rtinv_insert_fresh; [done|done|]. cbn. by apply Hi.
  - apply rbind_ok in Hs as (u & _ & Hs). apply freeze_ok in Hs as (e & Hc & -> & _).
    by eapply rtinv_insert_same.
  - apply rbind_ok in Hs as (u & _ & Hs). apply unfreeze_ok in Hs as (e & Hc & -> & _).
    by eapply rtinv_insert_same.
  - apply route_state in Hs as ->. done.
Qed.

Lemma rtinv_run c ops : rtinv (rtrun c ops).
Proof. unfold rtrun. apply run_inv; [apply rtinv_init|]. intros. by eapply rtinv_step. Qed.

Lemma config_run c ops : rt_config (rtrun c ops) = c.
Proof.
  unfold rtrun. apply (run_inv router_step (fun s => rt_config s = c)); [done|].
  intros s op s' out Hc Hs. destruct op as [a x g|a x g|a x d|a x d|a ms]; cbn [router_step] in Hs.
  - unfold register_chain in Hs. res_inv. subst s'. done.
  - unfold upgrade_gateway in Hs. res_inv. subst s'. done.
  - unfold freeze_chain in Hs. res_inv. subst s'. done.
  - unfold unfreeze_chain in Hs. res_inv. subst s'. done.
  - apply route_state in Hs as ->. done.
Qed.

(** C28. *)
Lemma info_ok s c e : get_chain_info s c = Ok e <-> rt_chains s !! c = Some e.
Proof. unfold get_chain_info. apply of_option_ok. Qed.

Lemma c28_injective cfg ops c1 c2 e1 e2 :
  get_chain_info (rtrun cfg ops) c1 = Ok e1 -> get_chain_info (rtrun cfg ops) c2 = Ok e2 ->
  ce_gateway e1 = ce_gateway e2 -> c1 = c2 /\ e1 = e2.
Proof.
  rewrite !info_ok. intros H1 H2 Hg. assert (c1 = c2) as -> by (eapply (rtinv_run cfg ops); eauto).
  split; [done|congruence].
Qed.

Lemma c28_lookup cfg ops g :
  exists o, load_chain_by_gateway (rtrun cfg ops) g = Ok o /\
  forall e, o = Some e <-> get_chain_info (rtrun cfg ops) (ce_name e) = Ok e /\ ce_gateway e = g.
Proof.
  pose proof (rtinv_run cfg ops) as Hi. pose proof (by_gateway_spec _ g Hi) as Hg.
  destruct (load_chain_by_gateway (rtrun cfg ops) g) as [o| |]; [|done|done].
  exists o. split; [done|]. intros e. rewrite info_ok. destruct o as [e0|].
  - destruct Hg as [Hg1 Hg2]. split.
    + intros [= ->]. done.
    + intros [He Hge]. assert (Heq : ce_name e0 = ce_name e) by (eapply Hi; eauto; congruence).
      rewrite Heq in Hg1. congruence.
  - split; [done|]. intros [He Hge]. destruct (Hg _ _ He). done.
Qed.

(** State determined by the log. *)
Definition rtloginv (s : rtstate) (l : list (rtop * rtout)) : Prop :=
  rtinv s /\
  (forall c, ce_gateway <$> rt_chains s !! c = last_gateway l c) /\
  (forall c e, rt_chains s !! c = Some e ->
     (incoming_frozen e = true <-> last_is_freeze l c true) /\
     (outgoing_frozen e = true <-> last_is_freeze l c false)) /\
  (forall c i, rt_chains s !! c = None -> ~ last_is_freeze l c i).

Lemma frozen_bits e :
  incoming_frozen e = N.testbit (ce_frozen e) 0 /\ outgoing_frozen e = N.testbit (ce_frozen e) 1.
Proof.
  unfold incoming_frozen, outgoing_frozen, flags_contain, direction_bits.
  assert (Hb : forall n i, (N.land n (2 ^ i) =? 2 ^ i) = N.testbit n i).
  { intros n i. destruct (N.testbit n i) eqn:Hi.
    - apply N.eqb_eq, N.bits_inj. intros j. rewrite N.land_spec, N.pow2_bits_eqb.
      destruct (N.eqb_spec i j) as [->|]; [by rewrite Hi|apply andb_false_r].
    - apply N.eqb_neq. intros H. apply (f_equal (fun x => N.testbit x i)) in H.
      rewrite N.land_spec, N.pow2_bits_true, Hi in H. done. }
  split; [apply (Hb _ 0)|apply (Hb _ 1)].
Qed.

Lemma direction_bit d (i : bool) : N.testbit (direction_bits d) (if i then 0 else 1) = covers d i.
Proof. by destruct d, i. Qed.

Definition frozen_dir (e : endpoint) (i : bool) : bool := if i then incoming_frozen e else outgoing_frozen e.
Lemma frozen_dir_bit e i : frozen_dir e i = N.testbit (ce_frozen e) (if i then 0 else 1).
Proof. destruct i; apply frozen_bits. Qed.

Lemma rtloginv_step s l op s' out :
  rtloginv s l -> router_step s op = Ok (s', out) -> rtloginv s' (l ++ [(op, out)]).
Proof.
  intros (Hi & Hg & Hf & Hn) Hs.
  assert (Hi' : rtinv s') by by eapply rtinv_step.
  assert (Hfd : forall c e i, rt_chains s !! c = Some e -> frozen_dir e i = true <-> last_is_freeze l c i).
  { intros c e [] Hc; by apply Hf. }
  enough (Hgoal : (forall c, ce_gateway <$> rt_chains s' !! c = last_gateway (l ++ [(op, out)]) c) /\
    (forall c e i, rt_chains s' !! c = Some e -> frozen_dir e i = true <-> last_is_freeze (l ++ [(op, out)]) c i) /\
    (forall c i, rt_chains s' !! c = None -> ~ last_is_freeze (l ++ [(op, out)]) c i)).
  { destruct Hgoal as (G1 & G2 & G3). split; [done|]. split; [done|]. split; [|done].
    intros c e Hc. split; [apply (G2 c e true Hc)|apply (G2 c e false Hc)]. }
  destruct op as [a c g|a c g|a c d|a c d|a ms]; cbn [router_step] in Hs.
  - apply rbind_ok in Hs as (u & _ & Hs). apply register_ok in Hs as (Hfr & Hno & -> & _); [|done].
    cbn [rt_chains set_chains]. unfold last_gateway, last_is_freeze. setoid_rewrite last_snoc_omap. cbn [fst].
    split; [|split].
    + intros c'. case_bool_decide as Hc.
      * subst c'. by rewrite lookup_insert.
      * rewrite lookup_insert_ne by done. apply Hg.
    + intros c' e i. destruct (decide (c = c')) as [<-|Hne].
      * rewrite lookup_insert. intros [= <-]. rewrite frozen_dir_bit. cbn [ce_frozen]. rewrite N.bits_0.
        split; [done|]. intros H. destruct (Hn c i Hno H).
      * rewrite lookup_insert_ne by done. apply Hfd.
    + intros c' i. destruct (decide (c = c')) as [<-|Hne]; [by rewrite lookup_insert|].
      rewrite lookup_insert_ne by done. apply Hn.
  - apply rbind_ok in Hs as (u & _ & Hs). apply upgrade_ok in Hs as (e0 & Hfr & Hno & -> & _); [|done].
    cbn [rt_chains set_chains]. unfold last_gateway, last_is_freeze. setoid_rewrite last_snoc_omap. cbn [fst].
    split; [|split].
    + intros c'. case_bool_decide as Hc.
      * subst c'. by rewrite lookup_insert.
      * rewrite lookup_insert_ne by done. apply Hg.
    + intros c' e i. destruct (decide (c = c')) as [<-|Hne].
      * rewrite lookup_insert. intros [= <-].
        assert (Heq : frozen_dir {| ce_name := ce_name e0; ce_gateway := g; ce_frozen := ce_frozen e0 |} i = frozen_dir e0 i)
          by (rewrite !frozen_dir_bit; done).
        rewrite Heq. by apply Hfd.
      * rewrite lookup_insert_ne by done. apply Hfd.
    + intros c' i. destruct (decide (c = c')) as [<-|Hne]; [by rewrite lookup_insert|].
      rewrite lookup_insert_ne by done. apply Hn.
  - apply rbind_ok in Hs as (u & _ & Hs). apply freeze_ok in Hs as (e0 & Hc0 & -> & _).
    cbn [rt_chains set_chains]. unfold last_gateway, last_is_freeze. setoid_rewrite last_snoc_omap. cbn [fst].
    split; [|split].
    + intros c'. destruct (decide (c = c')) as [<-|Hne].
      * rewrite lookup_insert. pose proof (Hg c) as Hgc. rewrite Hc0 in Hgc. exact Hgc.
      * rewrite lookup_insert_ne by done. apply Hg.
    + intros c' e i. destruct (decide (c = c')) as [<-|Hne].
      * rewrite lookup_insert. intros [= <-]. rewrite frozen_dir_bit. cbn [ce_frozen].
        rewrite N.lor_spec, direction_bit, <- frozen_dir_bit, bool_decide_true by done. cbn [andb].
        destruct (covers d i); [by rewrite orb_true_r|]. rewrite orb_false_r. by apply Hfd.
      * rewrite lookup_insert_ne by done. rewrite (bool_decide_false (c = c')) by done. apply Hfd.
    + intros c' i. destruct (decide (c = c')) as [<-|Hne]; [by rewrite lookup_insert|].
      rewrite lookup_insert_ne by done. rewrite (bool_decide_false (c = c')) by done. apply Hn.
  - apply rbind_ok in Hs as (u & _ & Hs). apply unfreeze_ok in Hs as (e0 & Hc0 & -> & _).
    cbn [rt_chains set_chains]. unfold last_gateway, last_is_freeze. setoid_rewrite last_snoc_omap. cbn [fst].
    split; [|split].
    + intros c'. destruct (decide (c = c')) as [<-|Hne].
      * rewrite lookup_insert. pose proof (Hg c) as Hgc. rewrite Hc0 in Hgc. exact Hgc.
      * rewrite lookup_insert_ne by done. apply Hg.
    + intros c' e i. destruct (decide (c = c')) as [<-|Hne].
      * rewrite lookup_insert. intros [= <-]. rewrite frozen_dir_bit. cbn [ce_frozen].
        rewrite N.ldiff_spec, direction_bit, <- frozen_dir_bit, bool_decide_true by done. cbn [andb].
        destruct (covers d i); [by rewrite andb_false_r|]. rewrite andb_true_r. by apply Hfd.
      * rewrite lookup_insert_ne by done. rewrite (bool_decide_false (c = c')) by done. apply Hfd.
    + intros c' i. destruct (decide (c = c')) as [<-|Hne]; [by rewrite lookup_insert|].
      rewrite lookup_insert_ne by done. rewrite (bool_decide_false (c = c')) by done. apply Hn.
  - apply route_state in Hs as ->.
    unfold last_gateway, last_is_freeze. setoid_rewrite last_snoc_omap. cbn [fst].
    split; [apply Hg|]. split; [apply Hfd|apply Hn].
Qed.

Lemma rtloginv_run cfg ops : rtloginv (rtrun cfg ops) (rtlog cfg ops).
Proof.
  unfold rtrun, rtlog. apply (run_log_inv router_step rtloginv).
  - split; [apply rtinv_init|]. split; [intros c; cbn; by rewrite lookup_empty|].
    split; [intros c e; cbn; by rewrite lookup_empty|]. intros c i _ H. done.
  - intros. by eapply rtloginv_step.
Qed.

Lemma c28_gateway cfg ops c :
  match get_chain_info (rtrun cfg ops) c with
  | Ok e => ce_name e = c /\ last_gateway (rtlog cfg ops) c = Some (ce_gateway e)
  | Err _ => last_gateway (rtlog cfg ops) c = None
  | Panic => False
  end.
Proof.
  destruct (rtloginv_run cfg ops) as (Hi & Hg & _). specialize (Hg c).
  unfold get_chain_info. destruct (rt_chains (rtrun cfg ops) !! c) as [e|] eqn:Hc; cbn in *; [|done].
  split; [by apply Hi|done].
Qed.

Lemma c29 cfg ops c e :
  get_chain_info (rtrun cfg ops) c = Ok e ->
  (incoming_frozen e = true <-> last_is_freeze (rtlog cfg ops) c true) /\
  (outgoing_frozen e = true <-> last_is_freeze (rtlog cfg ops) c false).
Proof.
  rewrite info_ok. intros Hc. destruct (rtloginv_run cfg ops) as (_ & _ & Hf & _). by apply Hf.
Qed.

(** Freezing accepted exactly for known chains by the admin. *)
Lemma c29_accepted cfg ops a c d :
  (is_ok (router_step (rtrun cfg ops) (FreezeChain a c d)) = true <->
   a = rc_admin cfg /\ is_Some (last_gateway (rtlog cfg ops) c)) /\
  (is_ok (router_step (rtrun cfg ops) (UnfreezeChain a c d)) = true <->
   a = rc_admin cfg /\ is_Some (last_gateway (rtlog cfg ops) c)).
Proof.
  destruct (rtloginv_run cfg ops) as (_ & Hg & _). specialize (Hg c). rewrite <- Hg.
  cbn [router_step]. rewrite config_run. unfold freeze_chain, unfreeze_chain.
  rewrite fmap_is_Some. case_bool_decide as Ha; cbn [ensure rbind].
  - destruct (rt_chains (rtrun cfg ops) !! c); cbn [of_option rbind is_ok];
      split; split; try done; intros H; destruct H as [_ []]; done.
  - split; (split; [done|]); intros [-> _]; done.
Qed.

(** C30, C31. *)
Lemma group_by_concat {A} (key : A -> string) l : concat (group_by key l).*2 = l.
Proof.
  induction l as [|a l IH]; [done|]. cbn [group_by].
  destruct (group_by key l) as [|[k g] rest]; cbn in *; [by rewrite <- IH|].
  case_bool_decide; cbn; by rewrite IH.
Qed.
Lemma group_by_keys {A} (key : A -> string) l k g :
  (k, g) ∈ group_by key l -> g <> [] /\ Forall (fun a => key a = k) g.
Proof.
  revert k g. induction l as [|a l IH]; intros k g; cbn [group_by]; [by intros ?%elem_of_nil|].
  destruct (group_by key l) as [|[k' g'] rest] eqn:Hg.
  - intros Heq%elem_of_list_singleton. injection Heq as -> ->. by repeat constructor.
  - case_bool_decide as Hk.
    + intros [Heq|Hin]%elem_of_cons.
      * injection Heq as -> ->. split; [done|]. constructor; [done|]. apply (IH k' g'). by left.
      * apply IH. by right.
    + intros [Heq|Hin]%elem_of_cons; [|by apply IH].
      injection Heq as -> ->. by repeat constructor.
Qed.
Lemma group_by_elem {A} (key : A -> string) l a :
  a ∈ l -> exists g, (key a, g) ∈ group_by key l /\ a ∈ g.
Proof.
  intros Ha. rewrite <- (group_by_concat key l) in Ha. apply elem_of_list_In, in_concat in Ha as (g & Hg & Ha).
  apply elem_of_list_In in Hg, Ha. apply elem_of_list_fmap in Hg as ([k g'] & -> & Hg). cbn in *.
  destruct (group_by_keys _ _ _ _ Hg) as [_ Hk]. rewrite Forall_forall in Hk. rewrite (Hk a) by done. eauto.
Qed.

Lemma destination_goes s sender c g : destination_gateway s sender c = Ok g <-> goes_to s sender c = Some g.
Proof.
  unfold destination_gateway, goes_to, get_chain_info.
  destruct (rt_chains s !! c) as [e|]; cbn [of_option].
  - destruct (outgoing_frozen e); naive_solver.
  - case_bool_decide; naive_solver.
Qed.

Lemma validate_may_send s sender msgs ms' :
  rtinv s -> validate_msgs s sender msgs = Ok ms' <-> ms' = msgs /\ may_send s sender msgs.
Proof.
  intros Hi. unfold validate_msgs, may_send. case_bool_decide as Hn.
  - split; [intros [= <-]; auto|by intros [-> _]].
  - pose proof (by_gateway_spec s sender Hi) as Hg.
    destruct (load_chain_by_gateway s sender) as [[e|]| |]; cbn [rbind of_option]; [| |done|done].
    + destruct Hg as [Hc Hge].
      assert (Huniq : forall c e', get_chain_info s c = Ok e' -> ce_gateway e' = sender -> c = ce_name e /\ e' = e).
      { intros c e'. rewrite info_ok. intros He' Hs. assert (c = ce_name e) as -> by (eapply Hi; eauto; congruence).
        split; [done|congruence]. }
      destruct (incoming_frozen e) eqn:Hfr; cbn [negb ensure rbind].
      * split; [done|]. intros [_ [?|(c & e' & He' & Hs & Hf & _)]]; [done|].
        destruct (Huniq _ _ He' Hs) as [_ ->]. congruence.
      * destruct (existsb _ msgs) eqn:Hex; cbn [negb ensure rbind].
        -- split; [done|]. intros [_ [?|(c & e' & He' & Hs & Hf & Hall)]]; [done|].
           destruct (Huniq _ _ He' Hs) as [-> ->]. apply existsb_exists in Hex as (m & Hm & Hneg).
           rewrite Forall_forall in Hall. rewrite bool_decide_true in Hneg; [done|]. apply Hall. by apply elem_of_list_In.
        -- split.
           ++ intros [= <-]. split; [done|]. right. exists (ce_name e), e. rewrite info_ok.
              split; [done|]. split; [done|]. split; [done|]. apply Forall_forall. intros m Hm.
              destruct (decide (cc_chain (m_cc m) = ce_name e)) as [|Hne]; [done|].
              assert (existsb (fun m => negb (bool_decide (cc_chain (m_cc m) = ce_name e))) msgs = true); [|congruence].
              apply existsb_exists. exists m. split; [by apply elem_of_list_In|]. by rewrite bool_decide_false.
           ++ by intros [-> _].
    + split; [done|]. intros [_ [?|(c & e' & He' & Hs & _)]]; [done|].
      rewrite info_ok in He'. destruct (Hg _ _ He'). done.
Qed.

Lemma c30_31 cfg ops sender msgs :
  is_ok (router_step (rtrun cfg ops) (RouteMessages sender msgs)) = true <->
  may_send (rtrun cfg ops) sender msgs /\
  Forall (fun m => is_Some (goes_to (rtrun cfg ops) sender (m_dchain m))) msgs.
Proof.
  pose proof (rtinv_run cfg ops) as Hi. set (s := rtrun cfg ops) in *. cbn [router_step]. unfold route_messages.
  split.
  - destruct (validate_msgs s sender msgs) as [ms'| |] eqn:Hv; cbn [rbind]; [|done|done].
    apply validate_may_send in Hv as [-> Hms]; [|done].
    destruct (try_map _ _) as [sent| |] eqn:Ht; cbn [rbind]; [|done|done]. intros _. split; [done|].
    apply try_map_ok in Ht. apply Forall_forall. intros m Hm.
    destruct (group_by_elem m_dchain _ _ Hm) as (g & Hg & _).
    apply elem_of_list_lookup in Hg as [i Hg]. 
    destruct (Forall2_lookup_l _ _ _ _ _ Ht Hg) as (y & _ & Hy). apply rbind_ok in Hy as (gw & Hgw & _).
    apply destination_goes in Hgw. rewrite Hgw. eauto.
  - intros [Hms Hall]. rewrite (proj2 (validate_may_send s sender msgs msgs Hi)) by done. cbn [rbind].
    assert (Ht : exists sent, try_map (fun '(chain, ms) => let? g := destination_gateway s sender chain in Ok (g, ms))
                 (group_by m_dchain msgs) = Ok sent); [|by destruct Ht as [sent ->]].
    assert (Hk : Forall (fun x => is_Some (goes_to s sender x.1)) (group_by m_dchain msgs)).
    { apply Forall_forall. intros [k g] Hg. destruct (group_by_keys _ _ _ _ Hg) as [Hne Hkey].
      destruct g as [|m g]; [done|]. apply Forall_inv in Hkey as Hm. cbn [fst]. rewrite <- Hm.
      rewrite Forall_forall in Hall. apply Hall. rewrite <- (group_by_concat m_dchain msgs).
      apply elem_of_list_In, in_concat. exists (m :: g). split; [|by left].
      apply elem_of_list_In, elem_of_list_fmap. by exists (k, m :: g). }
    induction Hk as [|[k g] rest [gw Hgw] Hk IH]; cbn [try_map]; [eauto|].
    cbn in Hgw. apply destination_goes in Hgw. rewrite Hgw. cbn [rbind]. destruct IH as [sent ->]. cbn [rbind]. eauto.
Qed.

Lemma c30_sent cfg ops sender msgs s' out :
  router_step (rtrun cfg ops) (RouteMessages sender msgs) = Ok (s', out) ->
  exists sent, out = OutRouted sent msgs /\ s' = rtrun cfg ops /\
    concat sent.*2 = msgs /\
    Forall (fun x => x.2 <> [] /\ Forall (fun m => goes_to (rtrun cfg ops) sender (m_dchain m) = Some x.1) x.2) sent.
Proof.
  pose proof (rtinv_run cfg ops) as Hi. set (s := rtrun cfg ops) in *. cbn [router_step]. unfold route_messages.
  intros H. apply rbind_ok in H as (ms' & Hv & H). apply validate_may_send in Hv as [-> Hms]; [|done].
  apply rbind_ok in H as (sent & Ht & H). injection H as <- <-. exists sent. split; [done|]. split; [done|].
  apply try_map_ok in Ht.
  assert (Hsnd : sent.*2 = (group_by m_dchain msgs).*2).
  { clear -Ht. induction Ht as [|[k g] [gw ms] l1 l2 Hx _ IH]; [done|].
    apply rbind_ok in Hx as (gw' & _ & [= -> ->]). cbn. by rewrite IH. }
  split; [rewrite Hsnd; apply group_by_concat|].
  assert (Hk : forall k g, (k, g) ∈ group_by m_dchain msgs -> g <> [] /\ Forall (fun a => m_dchain a = k) g)
    by apply group_by_keys.
  clear Hsnd. induction Ht as [|[k g] [gw ms] l1 l2 Hx _ IH]; constructor.
  - apply rbind_ok in Hx as (gw' & Hgw & [= -> ->]). cbn. destruct (Hk k ms) as [Hne Hkey]; [by left|].
    split; [done|]. apply destination_goes in Hgw. eapply Forall_impl; [exact Hkey|]. cbn. by intros m ->.
  - apply IH. intros k' g' Hin. apply Hk. by right.
Qed.

(** Per destination gateway. *)
Lemma concat_filter_groups (dest : message -> option addr) (sent : list (addr * list message)) g :
  Forall (fun x => x.2 <> [] /\ Forall (fun m => dest m = Some x.1) x.2) sent ->
  concat (filter (fun x => x.1 = g) sent).*2 = filter (fun m => dest m = Some g) (concat sent.*2).
Proof.
  induction 1 as [|[gw ms] sent [_ Hms] _ IH]; [done|]. cbn [fmap list_fmap snd concat].
  rewrite filter_app, filter_cons. cbn [fst]. destruct (decide (gw = g)) as [->|Hne].
  - cbn [fmap list_fmap snd concat]. rewrite IH. f_equal. symmetry.
    cbn [fst snd] in Hms. clear -Hms. induction Hms as [|m ms Hm _ IH]; [done|]. rewrite filter_cons_True by done. by rewrite IH.
  - rewrite IH. replace (filter (fun m => dest m = Some g) ms) with (@nil message); [done|].
    symmetry. cbn [fst snd] in Hms. clear -Hms Hne. induction Hms as [|m ms Hm _ IH]; [done|].
    rewrite filter_cons_False by congruence. done.
Qed.

Lemma c30_per_gateway cfg ops sender msgs s' sent events g :
  router_step (rtrun cfg ops) (RouteMessages sender msgs) = Ok (s', OutRouted sent events) ->
  concat (filter (fun x => x.1 = g) sent).*2 =
  filter (fun m => goes_to (rtrun cfg ops) sender (m_dchain m) = Some g) msgs.
Proof.
  intros H. apply c30_sent in H as (sent' & [= <- ->] & _ & Hc & Hall).
  rewrite (concat_filter_groups (fun m => goes_to (rtrun cfg ops) sender (m_dchain m))) by done. by rewrite Hc.
Qed.

(** C32. *)
Lemma c32 cfg ops op s' out :
  router_step (rtrun cfg ops) op = Ok (s', out) ->
  rt_config s' = cfg /\
  (forall c, directory s' c <> directory (rtrun cfg ops) c ->
     exists g, (op = RegisterChain (rc_governance cfg) c g \/ op = UpgradeGateway (rc_governance cfg) c g) /\
       directory s' c = Some g) /\
  (forall c, is_Some (freezer (rtrun cfg ops) c) -> freezer s' c <> freezer (rtrun cfg ops) c ->
     exists d, op = FreezeChain (rc_admin cfg) c d \/ op = UnfreezeChain (rc_admin cfg) c d).
Proof.
  intros Hs. pose proof (rtinv_run cfg ops) as Hi. pose proof (config_run cfg ops) as Hcfg.
  set (s := rtrun cfg ops) in *. unfold directory, freezer, get_chain_info.
  destruct op as [a c g|a c g|a c d|a c d|a ms]; cbn [router_step] in Hs.
  - apply rbind_ok in Hs as (u & Hu & Hs). apply ensure_ok, bool_decide_eq_true_1 in Hu.
    apply register_ok in Hs as (Hf & Hn & -> & _); [|done]. cbn [rt_config rt_chains set_chains].
    split; [done|]. split.
    + intros c'. destruct (decide (c = c')) as [<-|Hne]; [|by rewrite lookup_insert_ne by done].
      rewrite lookup_insert. intros _. exists g. split; [left; congruence|done].
    + intros c'. destruct (decide (c = c')) as [<-|Hne]; [|by rewrite lookup_insert_ne by done].
      rewrite Hn. cbn. intros [? ?]. done.
  - apply rbind_ok in Hs as (u & Hu & Hs). apply ensure_ok, bool_decide_eq_true_1 in Hu.
    apply upgrade_ok in Hs as (e & Hf & Hn & -> & _); [|done]. cbn [rt_config rt_chains set_chains].
    split; [done|]. split.
    + intros c'. destruct (decide (c = c')) as [<-|Hne]; [|by rewrite lookup_insert_ne by done].
      rewrite lookup_insert. intros _. exists g. split; [right; congruence|done].
    + intros c'. destruct (decide (c = c')) as [<-|Hne]; [|by rewrite lookup_insert_ne by done].
      rewrite lookup_insert, Hn. cbn. intros _ H. by destruct H.
  - apply rbind_ok in Hs as (u & Hu & Hs). apply ensure_ok, bool_decide_eq_true_1 in Hu.
    apply freeze_ok in Hs as (e & Hc & -> & _). cbn [rt_config rt_chains set_chains].
    split; [done|]. split.
    + intros c'. destruct (decide (c = c')) as [<-|Hne]; [|by rewrite lookup_insert_ne by done].
      rewrite lookup_insert, Hc. cbn. intros H. by destruct H.
    + intros c'. destruct (decide (c = c')) as [<-|Hne]; [|by rewrite lookup_insert_ne by done].
      intros _ _. exists d. left. congruence.
  - apply rbind_ok in Hs as (u & Hu & Hs). apply ensure_ok, bool_decide_eq_true_1 in Hu.
    apply unfreeze_ok in Hs as (e & Hc & -> & _). cbn [rt_config rt_chains set_chains].
    split; [done|]. split.
    + intros c'. destruct (decide (c = c')) as [<-|Hne]; [|by rewrite lookup_insert_ne by done].
      rewrite lookup_insert, Hc. cbn. intros H. by destruct H.
    + intros c'. destruct (decide (c = c')) as [<-|Hne]; [|by rewrite lookup_insert_ne by done].
      intros _ _. exists d. right. congruence.
  - apply route_state in Hs as ->. done.
Qed.

(** Registration and upgrade accepted exactly when... *)
Lemma c32_register cfg ops a c g :
  (is_ok (router_step (rtrun cfg ops) (RegisterChain a c g)) = true <->
   a = rc_governance cfg /\ directory (rtrun cfg ops) c = None /\
   (forall c', directory (rtrun cfg ops) c' <> Some g)) /\
  (is_ok (router_step (rtrun cfg ops) (UpgradeGateway a c g)) = true <->
   a = rc_governance cfg /\ is_Some (directory (rtrun cfg ops) c) /\
   (forall c', directory (rtrun cfg ops) c' <> Some g)).
Proof.
  pose proof (rtinv_run cfg ops) as Hi. pose proof (config_run cfg ops) as Hcfg.
  set (s := rtrun cfg ops) in *. cbn [router_step]. rewrite Hcfg.
  assert (Hdir : forall c, directory s c = ce_gateway <$> rt_chains s !! c).
  { intros x. unfold directory, get_chain_info. by destruct (rt_chains s !! x). }
  assert (Hfree : (forall c', directory s c' <> Some g) <->
                  (forall c e, rt_chains s !! c = Some e -> ce_gateway e <> g)).
  { split.
    - intros H x e Hx Hg. apply (H x). rewrite Hdir, Hx. cbn. congruence.
    - intros H x. rewrite Hdir. destruct (rt_chains s !! x) as [e|] eqn:Hx; cbn; [|done].
      intros [= Hg]. by destruct (H _ _ Hx). }
  rewrite Hfree, Hdir. case_bool_decide as Ha; cbn [ensure rbind].
  - split; split.
    + intros H. destruct (register_chain s c g) as [[s' out]| |] eqn:Hs; [|done|done].
      apply register_ok in Hs as (H1 & H2 & _); [|done]. rewrite H2. done.
    + intros (_ & Hn & H). rewrite fmap_None in Hn.
      assert (Hs : exists s' out, register_chain s c g = Ok (s', out)); [|by destruct Hs as (? & ? & ->)].
      eexists _, _. apply register_ok; [done|]. split; [done|]. split; [done|]. split; reflexivity.
    + intros H. destruct (upgrade_gateway s c g) as [[s' out]| |] eqn:Hs; [|done|done].
      apply upgrade_ok in Hs as (e & H1 & H2 & _); [|done]. rewrite H2. cbn. eauto.
    + intros (_ & Hn & H). apply fmap_is_Some in Hn as [e He].
      assert (Hs : exists s' out, upgrade_gateway s c g = Ok (s', out)); [|by destruct Hs as (? & ? & ->)].
      eexists _, _. apply upgrade_ok; [done|]. exists e. split; [done|]. split; [done|]. split; reflexivity.
  - split; (split; [done|]); intros (-> & _); done.
Qed.

(** C33. *)
Lemma c33_same_event s a c d s1 out1 s2 out2 :
  router_step s (FreezeChain a c d) = Ok (s1, out1) ->
  router_step s (UnfreezeChain a c d) = Ok (s2, out2) -> out1 = out2.
Proof.
  cbn [router_step]. intros (u & _ & H1)%rbind_ok (u' & _ & H2)%rbind_ok.
  apply freeze_ok in H1 as (? & _ & _ & ->). by apply unfreeze_ok in H2 as (? & _ & _ & ->).
Qed.

(** C34. *)
Lemma chain_name_of_some s c :
  chain_name_of s = Some c <-> s <> "" /\ contains ":" s = false /\ c = lower s.
Proof.
  unfold chain_name_of, ID_SEPARATOR. destruct (contains ":" s); cbn [orb]; [naive_solver|].
  destruct s; cbn [is_empty]; naive_solver.
Qed.
Lemma lower_nonempty s : s <> "" -> lower s <> "".
Proof. by destruct s. Qed.
Lemma c34_chain s c :
  chain_name_of s = Some c ->
  c <> "" /\ contains ":" c = false /\ chain_name_of c = Some c /\ chain_name_of (lower s) = Some c.
Proof.
  intros (Hne & Hc & ->)%chain_name_of_some.
  assert (H1 : lower s <> "") by by apply lower_nonempty.
  assert (H2 : contains ":" (lower s) = false) by by rewrite lower_contains_colon.
  assert (H3 : chain_name_of (lower s) = Some (lower s)).
  { apply chain_name_of_some. split; [done|]. split; [done|]. by rewrite lower_idem. }
  done.
Qed.
Lemma wf_chain_iff c : wf_chain c <-> c <> "" /\ contains ":" c = false /\ lower c = c.
Proof. unfold wf_chain. rewrite chain_name_of_some. naive_solver. Qed.

Lemma c34_roundtrip c : wf_ccid c -> ccid_of_string (ccid_to_string c) = Some c.
Proof.
  intros [Hw Hid]. unfold ccid_of_string, ccid_to_string.
  pose proof Hw as (Hne & Hsep & Hlow)%wf_chain_iff.
  rewrite split_once_app by done. rewrite Hw. unfold nonempty_string_of.
  destruct c as [ch id]. cbn in *. by destruct id.
Qed.
Lemma c34_parsed s c :
  ccid_of_string s = Some c ->
  wf_ccid c /\ exists chain, chain_name_of chain = Some (cc_chain c) /\ s = chain +:+ String ":" (cc_id c).
Proof.
  unfold ccid_of_string. destruct (split_once ID_SEPARATOR s) as [[ch id]|] eqn:Hs; [|done].
  destruct (chain_name_of ch) as [c'|] eqn:Hc; [|done].
  unfold nonempty_string_of. destruct (is_empty id) eqn:He; [done|]. intros [= <-]. cbn.
  apply split_once_some in Hs as [-> _]. split.
  - split; cbn; [apply (c34_chain _ _ Hc)|]. by destruct id.
  - eauto.
Qed.
Lemma c34_injective c1 c2 : wf_ccid c1 -> wf_ccid c2 -> ccid_to_string c1 = ccid_to_string c2 -> c1 = c2.
Proof.
  intros H1 H2 H. apply c34_roundtrip in H1, H2. rewrite H in H1. congruence.
Qed.
