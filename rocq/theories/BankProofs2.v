(** The contracts can always pay, continued: histories with coins. *)
From Verif Require Import Base BaseLemmas MapLemmas Text StdModel StdProofs RouterTypes RegistryTypes OperatorsModel MultisigTypes
  RouterModel GatewayModel NexusModel RewardsModel RewardsSpec RewardsProofs RewardsProofs3 RegistryModel RegistrySpec RegistryProofs VerifierModel MultisigModel
  EncodingModel ProverModel SystemModel SystemSpec SystemProofs SystemProofs3 SystemProofs9 BankModel BankSpec BankProofs.

Section Funded.
  Context (keccak : string -> string) (wshash : worker_set -> string)
          (sec1 : string -> option string)
          (crypto : key_type -> string -> string -> string -> option bool) (zero : bool).
  Notation history := (history keccak wshash sec1 crypto).
  Notation sysrun := (sysrun keccak wshash sec1 crypto).
  Notation prefix := (prefix keccak wshash sec1 crypto).

  Lemma prefix_after dep txs l k post : history dep txs = l ++ k :: post -> exists st, prefix dep txs (l ++ [k]) st.
  Proof.
    intros H. destruct post as [|k' post].
    - exists (sysrun dep txs). rewrite <- H. apply prefix_end.
    - exists (k_chain k'). eapply prefix_at with (post := post). rewrite <- app_assoc. exact H.
  Qed.
  Lemma prefix_domain dep txs l st a : prefix dep txs l st -> st !! a = None <-> dep !! a = None.
  Proof.
    intros H. pose proof (prefix_alone _ _ _ _ _ _ _ _ a H) as Ha. destruct (dep !! a) as [d|]; cbn in Ha.
    - split; [|done]. destruct d; cbn in Ha; try (destruct Ha as [-> _]; done). by destruct Ha as [s ->].
    - by rewrite Ha.
  Qed.
  Lemma others_pay_nothing dep txs a d0 l st d : dep !! a = Some d0 ->
    match d0 with DRewards _ _ _ _ | DRegistry _ => False | _ => True end ->
    prefix dep txs l st -> paid_by a d l = 0.
  Proof.
    intros Hd Hn Hp. unfold paid_by.
    assert (forall k, k ∈ l -> (if bool_decide (k_to k = a) then moved d (payments k) else 0) = 0) as Hz.
    { intros k Hk. case_bool_decide as Hto; [|done].
      apply elem_of_list_split in Hk as (l1 & l2 & ->).
      destruct (prefix_split _ _ _ _ _ _ _ _ _ _ _ Hp eq_refl) as [post Hh].
      pose proof (prefix_alone _ _ _ _ _ _ _ _ a (prefix_at _ _ _ _ _ _ _ _ _ Hh)) as Ha. rewrite Hd in Ha.
      unfold payments. fold (k_to k). rewrite Hto.
      destruct d0; try done; cbn in Ha; try (destruct Ha as [-> _]; done). by destruct Ha as [s ->]. }
    clear Hp. induction l as [|k l IH]; [done|]. rewrite lsum_cons, Hz by left. rewrite IH; [lia|].
    intros k' Hk'. apply Hz. by right.
  Qed.
  (** No contract has paid more than it got. *)
  Lemma books_covered dep txs a d l st : is_Some (dep !! a) -> prefix dep txs l st -> funded_calls l ->
    paid_by a d l <= received_by a d l.
  Proof.
    intros [d0 Hd] Hp Hf. destruct d0 as [?|?|?|?|g dn p h|g|? ? ?|?];
      try (rewrite (others_pay_nothing _ _ _ _ _ _ d Hd) by done; lia).
    - destruct (rewards_covered _ _ _ _ _ _ _ _ _ _ _ Hd _ _ Hp) as (s & _ & _ & H). specialize (H d). lia.
    - destruct (registry_covered _ _ _ _ _ _ _ _ Hd _ _ Hp Hf) as (s & _ & H). specialize (H d). lia.
  Qed.

  Definition solvent (dep : gmap addr deployed) (l : list call) (b : bank) : Prop :=
    funded_calls l /\ forall a d, is_Some (dep !! a) -> received_by a d l <= balance b a d + paid_by a d l.

  Lemma payments_from k m : m ∈ payments k -> mv_from m = k_to k.
  Proof.
    unfold payments. intros H. repeat (case_match; try by apply not_elem_of_nil in H);
      apply elem_of_list_fmap in H as (x & -> & _); done.
  Qed.
  Lemma attached_from k m : m ∈ attached k -> mv_from m = k_sender k.
  Proof. unfold attached. intros (x & -> & _)%elem_of_list_fmap. done. Qed.
  Lemma attached_to k m : m ∈ attached k -> mv_to m = k_to k.
  Proof. unfold attached. intros (x & -> & _)%elem_of_list_fmap. done. Qed.
  Lemma attached_moved d k : moved d (attached k) = amount_of d (sb_funds (k_sub k)).
  Proof. unfold attached, amount_of. rewrite moved_fmap. done. Qed.
  Lemma moved_from_self d a l : Forall (fun m => mv_from m = a) l -> moved d (filter (fun m => mv_from m = a) l) = moved d l.
  Proof. apply moved_filter_all. Qed.

  (** What happens to a contract's coins in its own payments. *)
  Lemma pay_call_inv dep txs l k post b : history dep txs = l ++ k :: post -> solvent dep l b ->
    (forall b', pay_call zero b k = Ok b' -> solvent dep (l ++ [k]) b') /\
    (forall a d, pay_call zero b k = Err (Uncovered a d) -> dep !! a = None) /\
    (forall a, pay_call zero b k = Err (ZeroPaid a) -> zero = false /\ a = k_to k /\ zero_claim k).
  Proof.
    intros Hh [Hf Hs].
    assert (forall a, is_Some (dep !! a) -> k_sender k = a -> attached k = []) as Hatt.
    { intros a Ha Hka. unfold attached. rewrite (modelled_attach_nothing _ _ _ _ _ _ _ _ _ Hh); [done|]. by rewrite Hka. }
    pose proof (prefix_at _ _ _ _ _ _ _ _ _ Hh) as Hp.
    destruct (prefix_after _ _ _ _ _ Hh) as [st Hp'].
    assert (forall b1 a d, transfers b (attached k) = Ok b1 -> is_Some (dep !! a) ->
      balance b1 a d = balance b a d + (if bool_decide (k_to k = a) then amount_of d (sb_funds (k_sub k)) else 0)) as Hb1.
    { intros b1 a d H1 Ha. pose proof (transfers_ok _ _ _ H1 a d) as H.
      rewrite (moved_filter_none d (fun m => mv_from m = a)) in H.
      2: { apply Forall_forall. intros m Hm Hma. pose proof (attached_from _ _ Hm) as Hfr.
           rewrite (Hatt a Ha) in Hm by congruence. by apply not_elem_of_nil in Hm. }
      case_bool_decide as Hto.
      - rewrite (moved_filter_all d (fun m => mv_to m = a)) in H.
        2: { apply Forall_forall. intros m Hm. rewrite (attached_to _ _ Hm). done. }
        rewrite attached_moved in H. lia.
      - rewrite (moved_filter_none d (fun m => mv_to m = a)) in H.
        2: { apply Forall_forall. intros m Hm. rewrite (attached_to _ _ Hm). done. }
        lia. }
    unfold pay_call. destruct (good_coins (sb_funds (k_sub k))) eqn:Eg; cbn [ensure rbind]; [|done].
    assert (funded_calls (l ++ [k])) as Hf'.
    { unfold funded_calls. apply Forall_app. split; [done|]. by constructor. }
    destruct (transfers b (attached k)) as [b1|e|] eqn:E1; cbn [rbind].
    2: { split; [done|]. apply transfers_err in E1 as (m & Hm & ->). split; [|done]. intros a d [= <- <-].
         destruct (dep !! mv_from m) eqn:Em; [|done].
         rewrite (Hatt (mv_from m)) in Hm; [by apply not_elem_of_nil in Hm|by rewrite Em|by rewrite (attached_from _ _ Hm)]. }
    2: { by destruct (transfers_no_panic _ _ E1). }
    destruct (zero || _) eqn:Ez; cbn [ensure rbind].
    - assert (forall d, is_Some (dep !! k_to k) -> moved d (payments k) <= balance b1 (k_to k) d) as Hcov.
      { intros d Ha. pose proof (books_covered _ _ (k_to k) d _ _ Ha Hp' Hf') as Hc.
        rewrite paid_by_snoc, received_by_snoc, bool_decide_eq_true_2 in Hc by done.
        rewrite (Hb1 _ _ _ eq_refl Ha), bool_decide_eq_true_2 by done. specialize (Hs (k_to k) d Ha). lia. }
      assert (Forall (fun m => mv_from m = k_to k) (payments k)) as Hfrom.
      { apply Forall_forall. intros m. apply payments_from. }
      destruct (dep !! k_to k) as [d0|] eqn:Ed.
      + destruct (transfers_covered (k_to k) (payments k) b1 Hfrom) as [b2 H2]; [intros; apply Hcov; eauto|].
        rewrite H2. split; [|done]. intros b' [= <-]. split; [done|]. intros a d Ha.
        pose proof (transfers_ok _ _ _ H2 a d) as Hbal. rewrite received_by_snoc, paid_by_snoc.
        rewrite (Hb1 _ a d eq_refl Ha) in Hbal. specialize (Hs a d Ha).
        assert (moved d (filter (fun m => mv_from m = a) (payments k)) = if bool_decide (k_to k = a) then moved d (payments k) else 0) as Hm.
        { case_bool_decide as Hto.
          - subst a. by apply moved_from_self.
          - apply moved_filter_none. eapply Forall_impl; [exact Hfrom|]. cbn. congruence. }
        rewrite Hm in Hbal. destruct (bool_decide (k_to k = a)); lia.
      + assert (payments k = []) as Hnil.
        { unfold payments. fold (k_to k). apply (proj2 (prefix_domain _ _ _ _ (k_to k) Hp)) in Ed. by rewrite Ed. }
        rewrite Hnil, transfers_nil. split; [|done]. intros b' [= <-]. split; [done|]. intros a d Ha.
        rewrite received_by_snoc, paid_by_snoc, (Hb1 _ a d eq_refl Ha). specialize (Hs a d Ha).
        destruct (bool_decide (k_to k = a)); lia.
    - split; [done|]. split; [done|]. intros a [= <-]. apply orb_false_iff in Ez as [-> Ez]. split; [done|]. split; [done|].
      assert (exists m, m ∈ payments k /\ mv_amount m = 0) as (m & Hm & Hm0).
      { clear -Ez. induction (payments k) as [|m ms IH]; [done|]. cbn in Ez. apply andb_false_iff in Ez as [E|E].
        - exists m. split; [by left|]. destruct (mv_amount m =? 0) eqn:E0; [lia|done].
        - destruct (IH E) as (x & ? & ?). exists x. split; [by right|done]. }
      unfold payments in Hm. fold (k_to k) in Hm. destruct (k_chain k !! k_to k) as [[]|] eqn:Ek; try by apply not_elem_of_nil in Hm.
      + destruct (rewards_op _ _ _ _) as [op|]; [|by apply not_elem_of_nil in Hm].
        destruct (rewards_step _ _) as [[? out]| |] eqn:Est; try by apply not_elem_of_nil in Hm.
        apply rewards_books in Est as (_ & Hpos & _). apply elem_of_list_fmap in Hm as (x & -> & Hx).
        rewrite Forall_forall in Hpos. specialize (Hpos _ Hx). cbn in Hm0. lia.
      + destruct (registry_op _ _ _ _) as [op|] eqn:Eop; [|by apply not_elem_of_nil in Hm].
        destruct (registry_step _ _) as [[? out]| |] eqn:Est; try by apply not_elem_of_nil in Hm.
        apply elem_of_list_fmap in Hm as (x & -> & Hx). cbn in Hm0.
        destruct (sb_body (k_sub k)) eqn:Eb; try discriminate Eop; injection Eop as <-.
        all: cbn [registry_step] in Est.
        1-6: exfalso; try unfold register_service in Est; try unfold update_authorization in Est;
          try unfold declare_chains in Est; try unfold bond_worker in Est; try unfold unbond_worker in Est.
        all: res_inv.
        7: { unfold claim_stake in Est. res_inv. unfold claim_bond in *. case_match; try done. res_inv. case_match; [|done]. res_inv. subst.
             apply elem_of_list_singleton in Hx as ->. cbn in Hm0. subst. unfold zero_claim. do 5 eexists. eauto 10. }
        all: simplify_eq; by apply not_elem_of_nil in Hx.
  Qed.

  Lemma pay_others_inv dep l st b others : (forall a, st !! a = None <-> dep !! a = None) -> solvent dep l b ->
    (forall b', pay_others st b others = Ok b' -> solvent dep l b') /\
    (forall a d, pay_others st b others = Err (Uncovered a d) -> dep !! a = None) /\
    (forall a, pay_others st b others <> Err (ZeroPaid a)).
  Proof.
    intros Hst [Hf Hs]. unfold pay_others. destruct (forallb _ others) eqn:Eo; cbn [ensure rbind]; [|done].
    rewrite forallb_forall in Eo.
    assert (forall m, m ∈ others -> dep !! mv_from m = None) as Ho.
    { intros m Hm. apply elem_of_list_In, Eo, bool_decide_eq_true in Hm. by apply Hst. }
    split; [|split].
    - intros b' H. split; [done|]. intros a d Ha. pose proof (transfers_ok _ _ _ H a d) as Hb.
      rewrite (moved_filter_none d (fun m => mv_from m = a)) in Hb.
      2: { apply Forall_forall. intros m Hm <-. rewrite (Ho _ Hm) in Ha. by destruct Ha. }
      specialize (Hs a d Ha). lia.
    - intros a d H. apply transfers_err in H as (m & Hm & [= -> ->]). by apply Ho.
    - intros a H. by apply transfers_err in H as (m & _ & ?).
  Qed.

  Lemma pay_calls_inv dep txs st post : (forall a, st !! a = None <-> dep !! a = None) ->
    forall calls others n l b, history dep txs = l ++ calls ++ post -> solvent dep l b ->
    (forall b', pay_calls zero st others n b calls = Ok b' -> solvent dep (l ++ calls) b') /\
    (forall a d, pay_calls zero st others n b calls = Err (Uncovered a d) -> dep !! a = None) /\
    (forall a, pay_calls zero st others n b calls = Err (ZeroPaid a) ->
       zero = false /\ exists k, k ∈ calls /\ k_to k = a /\ zero_claim k).
  Proof.
    intros Hst. induction calls as [|k calls IH]; intros others n l b Hh Hs; cbn [pay_calls];
      destruct (pay_others_inv dep l st b (others n) Hst Hs) as (H1 & H2 & H3);
      destruct (pay_others st b (others n)) as [b1|e|] eqn:E1; cbn [rbind]; try done.
    - rewrite app_nil_r. split; [|done]. intros b' [= <-]. by apply H1.
    - split; [done|]. split; [|intros a [= ->]; by destruct (H3 a)]. intros a d [= ->]. by eapply H2.
    - specialize (H1 _ eq_refl). clear H2 H3. cbn [app] in Hh.
      destruct (pay_call_inv _ _ _ _ _ _ Hh H1) as (H4 & H5 & H6).
      destruct (pay_call zero b1 k) as [b2|e|] eqn:E2; cbn [rbind]; [|split; [done|]|done].
      + specialize (H4 _ eq_refl). destruct (IH others (S n) (l ++ [k]) b2) as (I1 & I2 & I3); [by rewrite <- app_assoc|done|].
        split; [|split].
        * intros b' H. specialize (I1 _ H). by rewrite <- app_assoc in I1.
        * exact I2.
        * intros a H. destruct (I3 _ H) as (? & k' & ? & ? & ?). split; [done|]. exists k'. split; [by right|done].
      + split; [intros a d [= ->]; by eapply H5|]. intros a [= ->]. destruct (H6 _ eq_refl) as (? & -> & ?).
        split; [done|]. exists k. split; [by left|done].
    - split; [done|]. split; [|intros a [= ->]; by destruct (H3 a)]. intros a d [= ->]. by eapply H2.
  Qed.

  (** ** Moves *)
  Lemma transfers_app b l1 l2 : transfers b (l1 ++ l2) = let? b1 := transfers b l1 in transfers b1 l2.
  Proof.
    revert b. induction l1 as [|m l1 IH]; intros b; [done|]. cbn [app]. rewrite !transfers_cons.
    destruct (transfer b m); cbn [rbind]; [apply IH|done|done].
  Qed.
  Lemma pay_calls_moves st calls : forall others n b b', pay_calls zero st others n b calls = Ok b' ->
    transfers b (tx_moves others n calls) = Ok b'.
  Proof.
    induction calls as [|k calls IH]; intros others n b b' H; cbn [pay_calls tx_moves] in *;
      apply rbind_ok in H as (b1 & H1 & H); unfold pay_others in H1; apply rbind_ok in H1 as (_ & _ & H1);
      rewrite transfers_app, H1; cbn [rbind].
    - by injection H as <-.
    - apply rbind_ok in H as (b2 & H2 & H). unfold pay_call in H2.
      apply rbind_ok in H2 as (_ & _ & H2). apply rbind_ok in H2 as (b3 & H3 & H2). apply rbind_ok in H2 as (_ & _ & H2).
      rewrite transfers_app, H3. cbn [rbind]. rewrite transfers_app, H2. cbn [rbind]. by apply IH.
  Qed.

  (** ** Histories *)
  Notation fstep := (funded_step keccak wshash sec1 crypto zero).
  Notation frun := (funded_run keccak wshash sec1 crypto zero).
  Notation fhistory := (funded_history keccak wshash sec1 crypto zero).

  Lemma funded_ok s t st' b' calls : fstep s t = Ok (st', b', calls) ->
    system_step keccak wshash sec1 crypto s.1 (bt_tx t) = Ok (st', calls) /\
    pay_calls zero s.1 (bt_others t) 0 s.2 calls = Ok b'.
  Proof.
    unfold funded_step. intros H. apply rbind_ok in H as ([st calls'] & H1%map_err_ok & H).
    apply rbind_ok in H as (b & H2%map_err_ok & [= -> -> ->]). done.
  Qed.
  Lemma sys_snoc dep txs t st' calls : system_step keccak wshash sec1 crypto (sysrun dep txs) t = Ok (st', calls) ->
    sysrun dep (txs ++ [t]) = st' /\ history dep (txs ++ [t]) = history dep txs ++ calls.
  Proof.
    intros H. unfold SystemSpec.sysrun, SystemSpec.history, syslog in *. rewrite run_snoc, log_snoc, bind_app. unfold exec, log1.
    rewrite H. cbn. by rewrite app_nil_r.
  Qed.
  Lemma funded_inv dep b ts : exists txs, txs `sublist_of` (bt_tx <$> ts) /\
    (frun dep b ts).1 = sysrun dep txs /\ fhistory dep b ts = history dep txs /\
    solvent dep (fhistory dep b ts) (frun dep b ts).2.
  Proof.
    induction ts as [|t ts IH] using rev_ind.
    - exists []. split; [done|]. split; [done|]. split; [done|]. split; [constructor|]. intros a d _. cbn. lia.
    - destruct IH as (txs & Hsub & H1 & H2 & H3). unfold funded_run, funded_history in *.
      rewrite run_snoc, log_snoc, fmap_app, bind_app. unfold exec, log1.
      destruct (fstep _ t) as [[[st' b'] calls]|e|] eqn:E; cbn [mbind list_bind fmap list_fmap]; rewrite ?app_nil_r.
      2,3: exists txs; split; [by apply sublist_inserts_r|]; done.
      apply funded_ok in E as [E1 E2]. rewrite H1 in E1. destruct (sys_snoc _ _ _ _ _ E1) as [E3 E4].
      exists (txs ++ [bt_tx t]). split; [by apply sublist_app|]. split; [done|]. cbn [snd fst].
      rewrite E4, H2. split; [done|].
      destruct (pay_calls_inv dep (txs ++ [bt_tx t]) (sysrun dep txs) []) with (calls := calls) (others := bt_others t) (n := 0%nat)
        (l := history dep txs) (b := (run fstep (system_init dep, b) ts).2) as [Hok _].
      { intros a. exact (prefix_domain _ _ _ _ a (prefix_end _ _ _ _ _ _)). }
      { by rewrite app_nil_r. }
      { by rewrite <- H2. }
      apply Hok. by rewrite <- H1.
  Qed.

  Lemma c90_histories dep b ts : exists txs, txs `sublist_of` (bt_tx <$> ts) /\
    (frun dep b ts).1 = sysrun dep txs /\ fhistory dep b ts = history dep txs.
  Proof. destruct (funded_inv dep b ts) as (txs & ? & ? & ? & _). eauto. Qed.

  Lemma c90_rewards_solvent dep b ts a s : (frun dep b ts).1 !! a = Some (CRewards s) ->
    pooled s <= balance (frun dep b ts).2 a (r_denom s).
  Proof.
    intros H. destruct (funded_inv dep b ts) as (txs & _ & H1 & H2 & Hf & Hs).
    pose proof (prefix_end keccak wshash sec1 crypto dep txs) as Hp. rewrite <- H1, <- H2 in Hp.
    pose proof (prefix_alone _ _ _ _ _ _ _ _ a Hp) as Ha. rewrite H in Ha.
    destruct (dep !! a) as [[]|] eqn:Ed; cbn in Ha; try (destruct Ha as [? _]; done); try done; [|by destruct Ha].
    destruct (rewards_covered _ _ _ _ _ _ _ _ _ _ _ Ed _ _ Hp) as (s' & Hs' & Hdn & Hc).
    rewrite H in Hs'. injection Hs' as <-. specialize (Hc (r_denom s)). rewrite bool_decide_eq_true_2 in Hc by done.
    specialize (Hs a (r_denom s)). rewrite Ed in Hs. specialize (Hs ltac:(eauto)). lia.
  Qed.
  Lemma c90_registry_solvent dep b ts a s d : (frun dep b ts).1 !! a = Some (CRegistry s) ->
    owed_in s d <= balance (frun dep b ts).2 a d.
  Proof.
    intros H. destruct (funded_inv dep b ts) as (txs & _ & H1 & H2 & Hf & Hs).
    pose proof (prefix_end keccak wshash sec1 crypto dep txs) as Hp. rewrite <- H1, <- H2 in Hp.
    pose proof (prefix_alone _ _ _ _ _ _ _ _ a Hp) as Ha. rewrite H in Ha.
    destruct (dep !! a) as [[]|] eqn:Ed; cbn in Ha; try (destruct Ha as [? _]; done); try done; [|by destruct Ha].
    destruct (registry_covered _ _ _ _ _ _ _ _ Ed _ _ Hp Hf) as (s' & Hs' & Hc).
    rewrite H in Hs'. injection Hs' as <-. specialize (Hc d).
    specialize (Hs a d). rewrite Ed in Hs. specialize (Hs ltac:(eauto)). lia.
  Qed.

  Lemma funded_err dep b ts t e : fstep (frun dep b ts) t = Err (inr e) ->
    exists txs st calls, (frun dep b ts).1 = sysrun dep txs /\ 
      system_step keccak wshash sec1 crypto (frun dep b ts).1 (bt_tx t) = Ok (st, calls) /\
      history dep (txs ++ [bt_tx t]) = fhistory dep b ts ++ calls ++ [] /\
      solvent dep (fhistory dep b ts) (frun dep b ts).2 /\
      pay_calls zero (frun dep b ts).1 (bt_others t) 0 (frun dep b ts).2 calls = Err e.
  Proof.
    destruct (funded_inv dep b ts) as (txs & _ & H1 & H2 & Hs). unfold funded_step.
    destruct (system_step _ _ _ _ _ (bt_tx t)) as [[st calls]|e'|] eqn:E; cbn [map_err rbind]; [|done|done].
    destruct (pay_calls _ _ _ _ _ _) as [b'|e'|] eqn:Ep; cbn [map_err rbind]; [done| |done]. intros [= <-].
    exists txs, st, calls. split; [done|]. split; [done|]. rewrite H1 in E. destruct (sys_snoc _ _ _ _ _ E) as [_ ->].
    split; [by rewrite app_nil_r, H2|]. split; [exact Hs|exact Ep].
  Qed.
  Lemma run_domain dep b ts a : (frun dep b ts).1 !! a = None <-> dep !! a = None.
  Proof.
    destruct (funded_inv dep b ts) as (txs & _ & H1 & _). rewrite H1.
    exact (prefix_domain _ _ _ _ a (prefix_end _ _ _ _ _ _)).
  Qed.
  Lemma c90_only_outsiders_lack dep b ts t a d : fstep (frun dep b ts) t = Err (inr (Uncovered a d)) ->
    (frun dep b ts).1 !! a = None.
  Proof.
    intros H. apply funded_err in H as (txs & st & calls & H1 & H2 & H3 & H4 & H5). apply run_domain.
    destruct (pay_calls_inv dep (txs ++ [bt_tx t]) (frun dep b ts).1 [] (run_domain dep b ts) calls (bt_others t) 0%nat _ _ H3 H4)
      as (_ & Hu & _). by eapply Hu.
  Qed.
  Lemma c90_zero dep b ts t a : fstep (frun dep b ts) t = Err (inr (ZeroPaid a)) ->
    zero = false /\ exists st calls k, system_step keccak wshash sec1 crypto (frun dep b ts).1 (bt_tx t) = Ok (st, calls) /\
      k ∈ calls /\ k_to k = a /\ zero_claim k.
  Proof.
    intros H. apply funded_err in H as (txs & st & calls & H1 & H2 & H3 & H4 & H5).
    destruct (pay_calls_inv dep (txs ++ [bt_tx t]) (frun dep b ts).1 [] (run_domain dep b ts) calls (bt_others t) 0%nat _ _ H3 H4)
      as (_ & _ & Hz). destruct (Hz _ H5) as (? & k & ? & ? & ?). eauto 10.
  Qed.
  Lemma c90_supply dep b ts d : supply (frun dep b ts).2 d = supply b d.
  Proof.
    unfold funded_run. apply (run_inv fstep (fun s => supply s.2 d = supply b d)); [done|].
    intros s t [st' b'] calls Hs [_ Hp]%funded_ok. cbn. rewrite <- Hs.
    eapply transfers_supply, pay_calls_moves, Hp.
  Qed.
  Lemma c90_moves s t st' b' calls : fstep s t = Ok (st', b', calls) -> forall a d,
    balance b' a d + moved d (filter (fun m => mv_from m = a) (tx_moves (bt_others t) 0 calls)) =
    balance s.2 a d + moved d (filter (fun m => mv_to m = a) (tx_moves (bt_others t) 0 calls)).
  Proof. intros [_ Hp]%funded_ok a d. eapply transfers_ok, pay_calls_moves, Hp. Qed.
End Funded.
