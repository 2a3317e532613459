(** C101 for the whole system. *)
From stdpp Require Import sorting.
From Verif Require Import Base BaseLemmas Text TextLemmas StdModel RouterTypes RegistryTypes OperatorsModel MultisigTypes
  RouterModel GatewayModel NexusModel RewardsModel RewardsSpec RewardsProofs RewardsProofs2 RewardsProofs3 RegistryModel VerifierModel VerifierSpec VerifierProofs VerifierProofs2 VerifierProofs3
  MultisigModel MultisigSpec MultisigProofs MultisigProofs2 MultisigProofs3 EncodingModel ProverModel
  SystemModel SystemSpec SystemProofs SystemProofs2 SystemProofs3 SystemProofs4 SystemProofs8 DeliverySpec DeliveryProofs DeliveryProofs4
  BankModel BankSpec BankProofs BankProofs2 BankProofs3 WageSpec WageProofs.

Section Wages.
  Context (keccak : string -> string) (wshash : worker_set -> string)
          (sec1 : string -> option string)
          (crypto : key_type -> string -> string -> string -> option bool) (zero : bool).
  Notation received := (received keccak wshash sec1 crypto).
  Notation sstep := (system_step keccak wshash sec1 crypto).
  Notation sysrun := (sysrun keccak wshash sec1 crypto).
  Notation history := (history keccak wshash sec1 crypto).
  Notation fstep := (funded_step keccak wshash sec1 crypto zero).
  Notation frun := (funded_run keccak wshash sec1 crypto zero).
  Notation fhistory := (funded_history keccak wshash sec1 crypto zero).

  (** The calls of one transaction. *)
  Lemma matches_at dep txs A RW rep g0 d0 p0 h0 : dep !! RW = Some (DRewards g0 d0 p0 h0) -> is_Some (dep !! A) -> A <> RW ->
    (forall k c subs d, reach keccak wshash sec1 crypto dep (k_chain k) -> k_to k = A -> received k = Ok (c, subs, d) ->
      subs = (fun x => plain RW (BRecord x.1 x.2)) <$> rep k) ->
    forall k ev w, k ∈ history dep txs -> k_to k = RW -> k_sender k = A -> sb_body (k_sub k) = BRecord ev w ->
    exists k', k' ∈ history dep txs /\ k_to k' = A /\ k_env k' = k_env k /\ (ev, w) ∈ rep k'.
  Proof.
    intros HRW HA Hne Hrep k ev w. unfold SystemSpec.history, SystemSpec.syslog.
    assert (Hst : reach keccak wshash sec1 crypto dep (system_init dep)) by (exists []; constructor). revert Hst. generalize (system_init dep).
    induction txs as [|t ts IH]; intros st Hst Hk Ht Hs Hb; [by apply elem_of_nil in Hk|]. cbn [log] in *.
    rewrite bind_app in Hk. apply elem_of_app in Hk.
    assert (Hnext : reach keccak wshash sec1 crypto dep (exec sstep st t)).
    { unfold exec. destruct (sstep st t) as [[st' l]| |] eqn:E; [|done..].
      by eapply (step_matches keccak wshash sec1 crypto dep A RW rep g0 d0 p0 h0 HRW HA Hne Hrep) in E as [? _]. }
    destruct Hk as [Hk|Hk].
    2: { destruct (IH _ Hnext Hk Ht Hs Hb) as (k' & Hk' & H1). exists k'. split; [|done]. rewrite bind_app. apply elem_of_app. by right. }
    unfold log1 in Hk. destruct (sstep st t) as [[st' l]| |] eqn:E; [|by apply elem_of_nil in Hk..].
    cbn [mbind list_bind snd] in Hk. rewrite app_nil_r in Hk.
    pose proof (tx_calls_env keccak wshash sec1 crypto _ _ _ _ E) as Henv. rewrite Forall_forall in Henv.
    pose proof (step_matches keccak wshash sec1 crypto dep A RW rep g0 d0 p0 h0 HRW HA Hne Hrep _ _ _ _ Hst E) as [_ Hm].
    assert (Hr : (ev, w) ∈ recs A RW l).
    { apply elem_of_list_omap. exists k. split; [done|]. rewrite !bool_decide_true by done. cbn [andb]. by rewrite Hb. }
    rewrite Hm in Hr. apply elem_of_list_bind in Hr as (k' & Hr & Hk').
    case_bool_decide as Ht'; [|by apply elem_of_nil in Hr].
    exists k'. split; [|split; [done|]; split; [|done]].
    - rewrite bind_app. apply elem_of_app. left. unfold log1. rewrite E. cbn [mbind list_bind snd]. by rewrite app_nil_r.
    - by rewrite (Henv _ Hk), (Henv _ Hk').
  Qed.

  (** Records of a poll are made in the transaction that ends it. *)
  Lemma ended_once dep txs V vc h1 h2 id : dep !! V = Some (DVerifier vc) ->
    EndPoll h1 id ∈ verifier_ops V (history dep txs) -> EndPoll h2 id ∈ verifier_ops V (history dep txs) -> h1 = h2.
  Proof.
    intros HV. rewrite <- (vlog_full keccak wshash sec1 crypto dep txs V vc (history dep txs) [] HV) by (by rewrite app_nil_r).
    pose proof (finished_run keccak vc (verifier_ops V (history dep txs))) as (_ & Hnd & _). revert Hnd.
    generalize (vlog keccak vc (verifier_ops V (history dep txs))). intros l.
    assert (Hin : forall h (l : list (vop * vout)), EndPoll h id ∈ l.*1 -> id ∈ ended l).
    { clear. intros h l (x & E & Ho)%elem_of_list_fmap. apply elem_of_list_omap. exists x. split; [done|]. by rewrite <- E. }
    induction l as [|[op o] l IH]; [by intros _ ?%elem_of_nil|]. cbn [fmap list_fmap fst].
    intros Hnd [E1|H1]%elem_of_cons [E2|H2]%elem_of_cons.
    - congruence.
    - subst op. apply Hin in H2. change (ended _) with (id :: ended l) in Hnd. by apply NoDup_cons in Hnd as [? _].
    - subst op. apply Hin in H1. change (ended _) with (id :: ended l) in Hnd. by apply NoDup_cons in Hnd as [? _].
    - apply IH; [|done..]. destruct op; try exact Hnd. apply NoDup_cons in Hnd as [_ ?]. done.
  Qed.

  Lemma polls_one_height dep txs V vc g0 d0 p0 h0 : dep !! V = Some (DVerifier vc) -> dep !! vc_rewards vc = Some (DRewards g0 d0 p0 h0) ->
    one_height (rewards_ops (vc_rewards vc) (history dep txs)) V.
  Proof.
    intros HV HRW.
    assert (Hone : forall h ev w, Record_ h V ev w ∈ rewards_ops (vc_rewards vc) (history dep txs) ->
      exists id, ev = dec id /\ EndPoll h id ∈ verifier_ops V (history dep txs)).
    { intros h ev w (k & Hk & E)%elem_of_list_omap. case_bool_decide as Ht; [|done].
      destruct (sb_body (k_sub k)) eqn:Eb; try discriminate E. cbn in E. injection E as <- Hs -> ->.
      destruct (matches_at dep txs V (vc_rewards vc) (vrep keccak V) _ _ _ _ HRW) with (k := k) (ev := ev) (w := w) as (k' & Hk' & Ht' & He & Hr);
        [by rewrite HV|intros E; rewrite E, HRW in HV; discriminate HV| |done..|].
      { intros k' c subs d H1 H2 H3. by eapply vrep_subs. }
      unfold vrep in Hr. destruct (k_chain k' !! V) as [ct|]; [|by apply elem_of_nil in Hr]. destruct ct as [| | |v| | | |]; try by apply elem_of_nil in Hr.
      destruct (verifier_op _ _ _ _) as [op|] eqn:Eo; [|by apply elem_of_nil in Hr].
      destruct (verifier_step keccak v op) as [[v' o]| |] eqn:Es; [|by apply elem_of_nil in Hr..].
      assert (Hop : exists id, op = EndPoll (en_height (k_env k')) id /\ ev = dec id).
      { destruct (sb_body (k_sub k')) eqn:Eb'; try discriminate Eo; cbn in Eo; injection Eo as <-; cbn [verifier_step] in Es.
        - apply verify_messages_ok in Es as (_ & _ & statuses & _ & [(_ & _ & ->)|(_ & workers & snap & tbl & events & H1)]); [by apply elem_of_nil in Hr|].
          destruct H1 as (_ & _ & _ & _ & _ & _ & _ & ->). by apply elem_of_nil in Hr.
        - apply verify_worker_set_ok in Es as (? & ? & ? & ? & ? & _ & _ & _ & _ & _ & _ & ->). by apply elem_of_nil in Hr.
        - apply verifier_vote_ok in Es as (? & ? & _ & _ & _ & ->). by apply elem_of_nil in Hr.
        - apply verifier_end_poll_ok in Es as (vp & p' & _ & _ & _ & ->). cbn [reported] in Hr. eexists. split; [done|].
          apply elem_of_list_fmap in Hr as (x & [= -> _] & Hx). by apply elem_of_list_fmap in Hx as (y & -> & _). }
      destruct Hop as (id & -> & ->). exists id. split; [done|]. rewrite <- He. apply elem_of_list_omap. exists k'. split; [done|].
      by rewrite bool_decide_true by done. }
    intros ev h1 w1 h2 w2 (id & -> & H1)%Hone (id' & ->%dec_inj & H2)%Hone. by eapply ended_once.
  Qed.

  (** The coins are those of the contract's answers. *)
  Lemma coins_got dep txs R c x g0 d0 p0 h0 : dep !! R = Some (DRewards g0 d0 p0 h0) ->
    let i := {| ri_gov := g0; ri_denom := d0; ri_params := p0; ri_height := h0 |} in
    forall pre rest, history dep txs = pre ++ rest -> coins_paid R c x pre = got c x (rlog i (rewards_ops R pre)).
  Proof.
    intros HR i pre. induction pre as [|k pre IH] using rev_ind; intros rest Hh; [done|].
    rewrite <- app_assoc in Hh. cbn [app] in Hh.
    assert (Eo : rewards_ops R (pre ++ [k]) = rewards_ops R pre ++ rewards_ops R [k]) by apply omap_app.
    assert (Ec : coins_paid R c x (pre ++ [k]) = coins_paid R c x pre + coins_paid R c x [k]) by apply lsum_app.
    rewrite Ec, Eo, (IH _ Hh). unfold rlog. rewrite log_app, got_app. f_equal. fold (rrun i (rewards_ops R pre)).
    pose proof (shape_at keccak wshash sec1 crypto _ _ _ _ _ R Hh) as Hs. rewrite HR in Hs. cbn [shape] in Hs.
    change (run rewards_step _ (rewards_ops R pre)) with (rrun i (rewards_ops R pre)) in Hs.
    destruct (history_at keccak wshash sec1 crypto _ _ _ _ _ Hh) as (_ & c0 & subs & d & Hr & _).
    unfold coins_paid, rewards_ops, calls_to. rewrite lsum_cons. cbn [omap list_omap]. case_bool_decide as Ht; [|done].
    unfold SystemProofs.received, receive in Hr. fold (k_to k) in Hr. rewrite Ht, Hs in Hr.
    apply rbind_ok in Hr as (o & Ho%of_option_ok & ([s' out] & H1%map_err_ok & _)%rbind_ok).
    rewrite Ho. cbn [log]. unfold log1.
    change (omap (fun k => if bool_decide (k_to k = R) then _ else None) pre) with (rewards_ops R pre).
    rewrite H1. cbn [app]. unfold got. rewrite lsum_cons. cbn [fst snd].
    change (lsum _ (@nil call)) with 0. change (lsum _ (@nil (rop * list (addr * N)))) with 0. f_equal.
    unfold payments. fold (k_to k). rewrite Ht, Hs.
    destruct (sb_body (k_sub k)) eqn:Eb; try discriminate Ho; cbn [rewards_op] in Ho |- *; injection Ho as <-; try done.
    case_bool_decide; [|done]. rewrite H1. clear.
    induction out as [|y out IH]; [done|]. cbn [fmap list_fmap]. rewrite !lsum_cons, IH. done.
  Qed.

  Lemma funded_blocks h0 txs ts : txs `sublist_of` ts -> in_blocks_from h0 ts -> in_blocks_from h0 txs.
  Proof.
    intros Hsub [Hb Hf]. split.
    - unfold in_blocks in *. eapply sorted_sublist; [|exact Hb]. clear -Hsub. induction Hsub; cbn [fmap list_fmap]; by constructor.
    - rewrite Forall_forall in Hf |- *. intros t Ht. apply Hf. eapply elem_of_submseteq; [exact Ht|]. by apply sublist_submseteq.
  Qed.
  Lemma ops_sorted dep txs r : in_blocks txs -> StronglySorted N.le (RewardsSpec.heights (rewards_ops r (history dep txs))).
  Proof.
    intros Hb. eapply sorted_sublist; [apply rewards_sublist|]. unfold SystemSpec.history, syslog. by apply calls_sorted.
  Qed.

  Lemma rewards_at dep b ts R g0 d0 p0 h0 : dep !! R = Some (DRewards g0 d0 p0 h0) ->
    let i := {| ri_gov := g0; ri_denom := d0; ri_params := p0; ri_height := h0 |} in
    exists txs, txs `sublist_of` (bt_tx <$> ts) /\ (frun dep b ts).1 = sysrun dep txs /\ fhistory dep b ts = history dep txs /\
      (frun dep b ts).1 !! R = Some (CRewards (rrun i (rewards_ops R (fhistory dep b ts)))).
  Proof.
    intros HR i. destruct (c90_histories keccak wshash sec1 crypto zero dep b ts) as (txs & Hsub & E1 & E2).
    exists txs. split; [done|]. split; [done|]. split; [done|]. rewrite E1, E2. exact (the_rewards keccak wshash sec1 crypto dep txs R g0 d0 p0 h0 HR).
  Qed.

  Lemma c101_polls dep b ts V vc g0 d0 p0 h0 : dep !! V = Some (DVerifier vc) -> dep !! vc_rewards vc = Some (DRewards g0 d0 p0 h0) ->
    let i := {| ri_gov := g0; ri_denom := d0; ri_params := p0; ri_height := h0 |} in
    let l := fhistory dep b ts in
    let ops := rewards_ops (vc_rewards vc) l in
    valid_rinit i -> Forall valid_rop ops -> in_blocks (bt_tx <$> ts) ->
    exists s wages, (frun dep b ts).1 !! vc_rewards vc = Some (CRewards s) /\
      (forall n x, wage (poll_attended V l) i ops V n x (wages n x)) /\
      forall x, coins_paid (vc_rewards vc) V x l = lsum (fun n => wages n x) (between 0 (next_epoch s V)).
  Proof.
    intros HV HR i l ops Hi Hops Hb. destruct (rewards_at dep b ts _ _ _ _ _ HR) as (txs & Hsub & E1 & E2 & Hs).
    exists (rrun i ops), (fun n x => owed (rrun i ops) V n x). split; [exact Hs|].
    destruct (c82_polls keccak wshash sec1 crypto dep txs V vc g0 d0 p0 h0 HV HR) as (Hrec & Hnd & _).
    unfold ops, l in *. rewrite E2 in *. split.
    - intros n x. by apply owed_wage.
    - intros x. rewrite (coins_got dep txs _ V x _ _ _ _ HR (history dep txs) []) by (by rewrite app_nil_r).
      apply c101_total; [done|done| |by eapply polls_one_height].
      apply ops_sorted. unfold in_blocks in *. eapply sorted_sublist; [|exact Hb]. clear -Hsub. induction Hsub; cbn [fmap list_fmap]; by constructor.
  Qed.

  Lemma denom_run i ops : r_denom (rrun i ops) = ri_denom i.
  Proof.
    unfold rrun. apply (run_inv rewards_step (fun s => r_denom s = ri_denom i)); [done|].
    intros s op s' out E H. apply rewards_books in H as [-> _]. done.
  Qed.

  Lemma distribute_wages dep b ts R c att g0 d0 p0 h0 : dep !! R = Some (DRewards g0 d0 p0 h0) ->
    let i := {| ri_gov := g0; ri_denom := d0; ri_params := p0; ri_height := h0 |} in
    let ops := rewards_ops R (fhistory dep b ts) in
    valid_rinit i -> Forall valid_rop ops ->
    (forall ev x, (c, ev, x) ∈ records (rlog i ops) <-> exists id, ev = dec id /\ att id x) ->
    NoDup (pool_records c (rlog i ops)) ->
    forall g e a lim s s' out, (frun dep b ts).1 !! R = Some (CRewards s) -> (frun dep b ts).1 !! a = None ->
    rewards_step s (Distribute (en_height e) c lim) = Ok (s', out) ->
    exists st' b' calls wages, fstep (frun dep b ts) (simple g e a R (BDistribute c lim)) = Ok (st', b', calls) /\
      st' !! R = Some (CRewards s') /\ next_epoch s c < next_epoch s' c /\
      (forall n x, wage att i ops c n x (wages n x)) /\
      (forall x, x <> R -> balance b' x d0 = balance (frun dep b ts).2 x d0 +
        lsum (fun n => wages n x) (between (next_epoch s c) (next_epoch s' c))) /\
      forall x d, d <> d0 -> balance b' x d = balance (frun dep b ts).2 x d.
  Proof.
    intros HR i ops Hi Hops Hrec Hnd g e a lim s s' out Hs Ha Hst.
    destruct (rewards_at dep b ts _ _ _ _ _ HR) as (txs & Hsub & E1 & E2 & Hs'). rewrite Hs in Hs'. injection Hs' as ->.
    destruct (c90_distribute keccak wshash sec1 crypto zero dep b ts g e a R c lim _ _ _ Hs Ha Hst) as (st' & b' & calls & Hf & Hn & Hbal).
    fold i in Hst, Hbal, Hs |- *. fold ops in Hst, Hbal, Hs |- *.
    destruct (c18_call_reach i ops _ c lim s' out Hi Hops Hst) as (ep & _ & Hlt & _ & _ & Hnd' & Hin & _).
    exists st', b', calls, (fun n x => owed (rrun i ops) c n x). split; [done|]. split; [done|]. split; [done|].
    split; [intros n x; by apply owed_wage|]. rewrite denom_run in Hbal. cbn [ri_denom i] in Hbal. split.
    - intros x Hx. specialize (Hbal x d0). rewrite bool_decide_false, bool_decide_true in Hbal by naive_solver.
      rewrite N.add_0_r in Hbal. rewrite Hbal. f_equal.
      rewrite (lsum_got out x (fun x => lsum (fun n => owed (rrun i ops) c n x) (between (next_epoch (rrun i ops) c) (next_epoch s' c)))) by done. done.
    - intros x d Hd. specialize (Hbal x d). rewrite !bool_decide_false in Hbal by naive_solver. lia.
  Qed.

  Lemma c101_poll_distribution dep b ts V vc g0 d0 p0 h0 : dep !! V = Some (DVerifier vc) -> dep !! vc_rewards vc = Some (DRewards g0 d0 p0 h0) ->
    let i := {| ri_gov := g0; ri_denom := d0; ri_params := p0; ri_height := h0 |} in
    let l := fhistory dep b ts in
    let R := vc_rewards vc in
    valid_rinit i -> Forall valid_rop (rewards_ops R l) ->
    forall g e a lim s s' out, (frun dep b ts).1 !! R = Some (CRewards s) -> (frun dep b ts).1 !! a = None ->
    rewards_step s (Distribute (en_height e) V lim) = Ok (s', out) ->
    exists st' b' calls wages, fstep (frun dep b ts) (simple g e a R (BDistribute V lim)) = Ok (st', b', calls) /\
      st' !! R = Some (CRewards s') /\ next_epoch s V < next_epoch s' V /\
      (forall n x, wage (poll_attended V l) i (rewards_ops R l) V n x (wages n x)) /\
      (forall x, x <> R -> balance b' x d0 = balance (frun dep b ts).2 x d0 +
        lsum (fun n => wages n x) (between (next_epoch s V) (next_epoch s' V))) /\
      forall x d, d <> d0 -> balance b' x d = balance (frun dep b ts).2 x d.
  Proof.
    intros HV HR i l R Hi Hops. destruct (rewards_at dep b ts _ _ _ _ _ HR) as (txs & Hsub & E1 & E2 & _).
    destruct (c82_polls keccak wshash sec1 crypto dep txs V vc g0 d0 p0 h0 HV HR) as (Hrec & Hnd & _). rewrite <- E2 in Hrec, Hnd.
    by apply distribute_wages.
  Qed.
  Lemma c101_session_distribution dep b ts M gv R gr g0 d0 p0 h0 : dep !! M = Some (DMultisig gv R gr) -> dep !! R = Some (DRewards g0 d0 p0 h0) ->
    let i := {| ri_gov := g0; ri_denom := d0; ri_params := p0; ri_height := h0 |} in
    let l := fhistory dep b ts in
    valid_rinit i -> Forall valid_rop (rewards_ops R l) ->
    forall g e a lim s s' out, (frun dep b ts).1 !! R = Some (CRewards s) -> (frun dep b ts).1 !! a = None ->
    rewards_step s (Distribute (en_height e) M lim) = Ok (s', out) ->
    exists st' b' calls wages, fstep (frun dep b ts) (simple g e a R (BDistribute M lim)) = Ok (st', b', calls) /\
      st' !! R = Some (CRewards s') /\ next_epoch s M < next_epoch s' M /\
      (forall n x, wage (session_attended M l) i (rewards_ops R l) M n x (wages n x)) /\
      (forall x, x <> R -> balance b' x d0 = balance (frun dep b ts).2 x d0 +
        lsum (fun n => wages n x) (between (next_epoch s M) (next_epoch s' M))) /\
      forall x d, d <> d0 -> balance b' x d = balance (frun dep b ts).2 x d.
  Proof.
    intros HM HR i l Hi Hops. destruct (rewards_at dep b ts _ _ _ _ _ HR) as (txs & Hsub & E1 & E2 & _).
    destruct (c82_sessions keccak wshash sec1 crypto dep txs M gv R gr g0 d0 p0 h0 HM HR) as (Hrec & Hnd & _). rewrite <- E2 in Hrec, Hnd.
    by apply distribute_wages.
  Qed.
End Wages.
