From Verif Require Import Base BaseLemmas Text TextLemmas StdModel StdProofs RouterTypes RegistryTypes MultisigTypes
  EventsModel HandlersModel SubscriptionModel QueueModel RegistryModel RegistrySpec RegistryProofs MultisigModel EncodingModel SystemModel SystemSpec SystemProofs9
  DaemonModel DaemonSpec.

Lemma declared_all s a svc chains ch : ch ∈ chains ->
  (default ∅ (foldl (fun m c => <[(svc, c) := <[a := tt]> (default ∅ (m !! (svc, c)))]> m) (sr_chains s) chains !! (svc, ch)) : gmap addr unit)
    !! a = Some tt.
Proof.
  generalize (sr_chains s) as m.
  assert (Hkeep : forall l (m : gmap (string * string) (gmap addr unit)),
    (default ∅ (m !! (svc, ch)) : gmap addr unit) !! a = Some tt ->
    (default ∅ (foldl (fun m c => <[(svc, c) := <[a := tt]> (default ∅ (m !! (svc, c)))]> m) m l !! (svc, ch)) : gmap addr unit) !! a = Some tt).
  { induction l as [|c l IH]; intros m H; [done|]. cbn [foldl]. apply IH.
    destruct (decide (c = ch)) as [->|Hne].
    - rewrite lookup_insert. cbn. apply lookup_insert.
    - rewrite lookup_insert_ne; [done|]. congruence. }
  induction chains as [|c l IH]; intros m Hin; [inversion Hin|]. cbn [foldl].
  apply elem_of_cons in Hin as [<-|Hin]; [|by apply IH]. apply Hkeep. rewrite lookup_insert. cbn. apply lookup_insert.
Qed.

Lemma bond_declare g ops a svc sv w amount chains :
  let s := srrun g ops in
  sr_services s !! svc = Some sv -> sr_workers s !! (svc, a) = Some w -> w_auth w = Authorized ->
  0 < amount -> owed (w_bond w) + amount < U128 -> sv_min_bond sv <= owed (w_bond w) + amount ->
  exists s1 s2, registry_step s (BondWorker a [(sv_denom sv, amount)] svc) = Ok (s1, []) /\
    registry_step s1 (DeclareChainSupport a svc chains) = Ok (s2, []) /\
    forall ch, ch ∈ chains -> exists ws w', get_active_workers s2 svc ch = Ok ws /\ w' ∈ ws /\ w_addr w' = a /\
      w_bond w' = Bonded (owed (w_bond w) + amount).
Proof.
  intros s Hsv Hw Hau Hpos Hov Hmin.
  set (w1 := {| w_addr := w_addr w; w_bond := Bonded (owed (w_bond w) + amount); w_auth := w_auth w; w_service := w_service w |}).
  set (s1 := set_workers s (<[(svc, a) := w1]> (sr_workers s))).
  assert (registry_step s (BondWorker a [(sv_denom sv, amount)] svc) = Ok (s1, [])) as H1.
  { cbn [registry_step]. unfold bond_worker. rewrite Hsv. cbn [of_option rbind List.find fst snd].
    rewrite String.eqb_refl. cbn [of_option rbind snd]. rewrite Hw. unfold add_bond.
    assert ((match w_bond w with Bonded n | RequestedUnbonding n | Unbonding n _ => add_u128 n amount | Unbonded => Ok amount end)
      = Ok (E := srerror) (owed (w_bond w) + amount)) as ->.
    { unfold add_u128, checked. destruct (w_bond w); cbn [owed] in *; try (apply N.ltb_lt in Hov; by rewrite Hov). by rewrite N.add_0_l. }
    cbn [rbind]. assert (owed (w_bond w) + amount =? 0 = false) as -> by (apply N.eqb_neq; lia). cbn [rbind]. done. }
  eexists s1, _. split; [exact H1|]. split.
  { cbn [registry_step]. unfold declare_chains. unfold s1 at 1 2. cbn [set_workers sr_services sr_workers]. rewrite Hsv. cbn [of_option rbind].
    rewrite lookup_insert. cbn [of_option rbind]. reflexivity. }
  intros ch Hch.
  set (s2 := {| sr_governance := _ |}).
  assert (registry_step s1 (DeclareChainSupport a svc chains) = Ok (s2, [])) as H2.
  { cbn [registry_step]. unfold declare_chains. unfold s1 at 1 2. cbn [set_workers sr_services sr_workers]. rewrite Hsv. cbn [of_option rbind].
    rewrite lookup_insert. cbn [of_option rbind]. reflexivity. }
  assert (s2 = srrun g (ops ++ [BondWorker a [(sv_denom sv, amount)] svc; DeclareChainSupport a svc chains])) as Es.
  { change [BondWorker a [(sv_denom sv, amount)] svc; DeclareChainSupport a svc chains] with ([BondWorker a [(sv_denom sv, amount)] svc] ++ [DeclareChainSupport a svc chains]).
    rewrite app_assoc. unfold srrun. rewrite !run_snoc. fold (srrun g ops). fold s. unfold exec. rewrite H1. cbn beta iota. rewrite H2. done. }
  destruct (c43 g (ops ++ [BondWorker a [(sv_denom sv, amount)] svc; DeclareChainSupport a svc chains]) svc ch sv) as (ws & Hws & _ & _ & Hin).
  { rewrite <- Es. unfold get_service, s2, s1. cbn. by rewrite Hsv. }
  rewrite <- Es in Hws. exists ws, w1. split; [done|].
  assert (w_addr w = a) as Ha.
  { pose proof (winv_run g ops svc a) as Hi. unfold winv, record in Hi. fold s in Hi. rewrite Hw in Hi. by destruct Hi. }
  split; [|done].
  unfold get_active_workers in Hws. unfold s2 at 1 in Hws. cbn [sr_services] in Hws. unfold s1 at 1 in Hws. cbn [set_workers sr_services] in Hws.
  rewrite Hsv in Hws. cbn [of_option rbind] in Hws.
  destruct (try_map _ _) as [ws0| |] eqn:Et; [|done..]. cbn [rbind] in Hws. injection Hws as <-.
  apply try_map_ok in Et.
  assert ((a, tt) ∈ btree_iter (default ∅ (sr_chains s2 !! (svc, ch)))) as Hit.
  { apply elem_of_btree_iter. apply (declared_all s1 a svc chains ch Hch). }
  apply elem_of_list_lookup in Hit as [i Hi]. destruct (Forall2_lookup_l _ _ _ _ _ Et Hi) as (w' & Hw' & Hf).
  cbn [fst] in Hf. unfold s2, s1 in Hf. cbn [sr_workers set_workers] in Hf. rewrite lookup_insert in Hf. injection Hf as <-.
  apply elem_of_list_filter. split; [done|]. apply elem_of_list_filter. split; [cbn; by apply N.leb_le|].
  by eapply elem_of_list_lookup_2.
Qed.

Lemma chain_eq (st : chain) a c : <[a := c]> st !! a = Some c.
Proof. apply lookup_insert. Qed.
Lemma chain_ne (st : chain) a b c : a <> b -> <[a := c]> st !! b = st !! b.
Proof. apply lookup_insert_ne. Qed.

Section Onboarding.
  Context (keccak : string -> string) (wshash : worker_set -> string)
          (sec1 : string -> option string) (crypto : key_type -> string -> string -> string -> option bool).
  Notation sstep := (system_step keccak wshash sec1 crypto).
  Notation sysrun := (sysrun keccak wshash sec1 crypto).
  Context (account : string -> addr).

  Lemma quiet_step st gas e a m c data : st !! a = None ->
    receive keccak wshash sec1 crypto e 0 st a m = Ok (Some c, [], data) ->
    sstep st {| tx_gas := S gas; tx_env := e; tx_sender := a; tx_sub := m |} =
      Ok (<[sb_to m := c]> st, [{| k_chain := st; k_env := e; k_index := 0; k_sender := a; k_sub := m |}]).
  Proof.
    intros Hw Hr. unfold system_step. cbn [tx_sender tx_gas tx_env tx_sub].
    rewrite bool_decide_eq_true_2 by done. cbn [ensure rbind exec_call length]. rewrite Hr.
    cbn [rbind fst snd run_subs settle app]. done.
  Qed.

  Lemma onboarding dep txs saved t cf key svc sv w amount chains ma g gm rm nm gas1 gas2 gas3 e1 e2 e3 s mst :
    let a := account key in
    worker_key saved t cf = Ok key -> String.length key = 33%nat ->
    dep !! cf_registry cf = Some (DRegistry g) -> multisig_address cf = Some ma -> dep !! ma = Some (DMultisig gm rm nm) ->
    dep !! a = None ->
    sysrun dep txs !! cf_registry cf = Some (CRegistry s) -> sysrun dep txs !! ma = Some (CMultisig mst) ->
    sr_services s !! svc = Some sv -> sr_workers s !! (svc, a) = Some w -> w_auth w = Authorized ->
    0 < amount -> owed (w_bond w) + amount < U128 -> sv_min_bond sv <= owed (w_bond w) + amount ->
    exists m1 m2 m3 st1 st2 st3 k1 k2 k3,
      run_command account saved t cf (CmdBond svc amount (sv_denom sv)) = Ok (a, m1) /\
      run_command account saved t cf (CmdDeclare svc chains) = Ok (a, m2) /\
      run_command account saved t cf CmdRegisterKey = Ok (a, m3) /\
      sstep (sysrun dep txs) {| tx_gas := S gas1; tx_env := e1; tx_sender := a; tx_sub := m1 |} = Ok (st1, k1) /\
      sstep st1 {| tx_gas := S gas2; tx_env := e2; tx_sender := a; tx_sub := m2 |} = Ok (st2, k2) /\
      sstep st2 {| tx_gas := S gas3; tx_env := e3; tx_sender := a; tx_sub := m3 |} = Ok (st3, k3) /\
      (forall e n ch, ch ∈ chains -> exists ws w', q_active e n st3 (cf_registry cf) svc ch = Some ws /\ w' ∈ ws /\
         w_addr w' = a /\ w_bond w' = Bonded (owed (w_bond w) + amount)) /\
      (forall e n, q_key e n st3 ma a KEcdsa = Some {| pk_type := KEcdsa; pk_bytes := key |}).
  Proof.
    intros a Hkey Hlen Hdr Hma Hdm Hda Hs Hm Hsv Hw Hau Hpos Hov Hmin.
    pose proof (c80 keccak wshash sec1 crypto dep txs (cf_registry cf)) as Hreg. rewrite Hdr in Hreg. destruct Hreg as [Hreg _].
    rewrite Hs in Hreg. injection Hreg as Es.
    pose proof (c80 keccak wshash sec1 crypto dep txs a) as Ha. rewrite Hda in Ha. cbn in Ha.
    assert (cf_registry cf <> ma) as Hne by congruence.
    assert (cf_registry cf <> a) as Hna by congruence. assert (ma <> a) as Hnm by congruence.
    set (ops := registry_ops (cf_registry cf) (history keccak wshash sec1 crypto dep txs)) in *.
    destruct (bond_declare g ops a svc sv w amount chains) as (s1 & s2 & H1 & H2 & Hact);
      [change (srrun g ops) with (run registry_step (registry_init g) ops); try (by rewrite <- Es); done..|].
    change (srrun g ops) with (run registry_step (registry_init g) ops) in H1. rewrite <- Es in H1.
    unfold run_command. rewrite Hkey. cbn [rbind command_msg]. rewrite Hma. cbn [of_option rbind].
    eexists _, _, _, _, _, _, _, _, _. split; [reflexivity|]. split; [reflexivity|]. split; [reflexivity|].
    assert (public_key_try_from KEcdsa key = Some {| pk_type := KEcdsa; pk_bytes := key |}) as Hpk.
    { cbn. by rewrite Hlen. }
    split.
    { eapply quiet_step; [done|]. unfold receive. cbn [sb_to sb_body sb_funds]. rewrite Hs. cbn [registry_op of_option rbind].
      rewrite H1. cbn [map_err rbind]. reflexivity. }
    cbn [sb_to]. split.
    { eapply quiet_step; [by rewrite chain_ne|]. unfold receive. cbn [sb_to sb_body sb_funds]. rewrite chain_eq.
      cbn [registry_op of_option rbind]. rewrite H2. cbn [map_err rbind]. reflexivity. }
    cbn [sb_to]. split.
    { eapply quiet_step; [by rewrite !chain_ne|]. unfold receive. cbn [sb_to sb_body sb_funds].
      rewrite !chain_ne by done. rewrite Hm. cbn [multisig_op of_option rbind multisig_step].
      unfold register_pub_key. rewrite Hpk. cbn [of_option rbind map_err multisig_subs multisig_data]. reflexivity. }
    cbn [sb_to]. split.
    - intros e n ch Hch. destruct (Hact ch Hch) as (ws & w' & Hws & Hin & Hwa & Hwb). exists ws, w'.
      split; [|done]. unfold q_active. rewrite chain_ne by done. rewrite chain_eq, Hws. done.
    - intros e n. unfold q_key. rewrite chain_eq. unfold get_public_key. cbn [m_keys]. rewrite lookup_insert.
      cbn [of_option rbind pk_bytes]. rewrite Hpk. done.
  Qed.
End Onboarding.
