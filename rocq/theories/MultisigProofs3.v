(** The C22-C27 statements about the multisig contract. *)
From Verif Require Import Base BaseLemmas Text StdModel StdProofs MapLemmas MultisigTypes MultisigModel
  MultisigSpec MultisigProofs MultisigProofs2.

Lemma signers_weight_no_err sigs ws e : signers_weight sigs ws = Err e -> False.
Proof.
  unfold signers_weight. generalize (btree_iter sigs). intros l.
  assert (H : forall acc : res merror N, (forall x, acc <> Err x) ->
    fold_left (fun (acc : res merror N) '(a, _) =>
                 let? n := acc in let? sg := expect (ws_signers ws !! a) in add_u256 n (sg_weight sg)) l acc <> Err e).
  { induction l as [|[a sg] l IH]; intros acc Ha; cbn [fold_left]; [done|]. apply IH. intros x.
    destruct acc as [n|e'|]; cbn [rbind]; [|by destruct (Ha e')|done].
    destruct (ws_signers ws !! a); cbn [expect rbind]; [|done].
    unfold add_u256, checked. by destruct (_ <? _). }
  by apply H.
Qed.
Lemma sig_verify_no_closed crypto sg msg pk : sig_verify crypto sg msg pk = Err SigningSessionClosed -> False.
Proof. unfold sig_verify. case_bool_decide; [|done]. by destruct (crypto _ _ _ _). Qed.

Section Thm.
  Context (wsid : worker_set -> string) (crypto : key_type -> string -> string -> string -> option bool).
  Context (g r : addr) (p : N) (ops : list mop).
  Notation step := (multisig_step wsid crypto).
  Notation s := (mrun wsid crypto g r p ops).
  Notation l := (mlog wsid crypto g r p ops).

  Lemma started_session id msg ws :
    no_collision wsid ops -> started_with wsid l id msg ws ->
    exists ss, m_sessions s !! id = Some ss /\ ss_id ss = id /\ ss_msg ss = msg /\
      ss_wsid ss = wsid ws /\ m_sets s !! wsid ws = Some ws.
  Proof.
    intros Hnc (a & chain & keys & b & Ha & Hb).
    destruct (inv_run wsid crypto g r p ops Hnc) as (_ & (I1 & I2 & I3) & _).
    apply I3 in Ha as (_ & id' & ss & ws' & Hss & Hw & Hm & Hws & [= <- _]).
    exists ss. split; [done|]. split; [by apply I2|]. split; [done|]. split; [done|].
    apply I1. eauto.
  Qed.

  Lemma started_unique id msg ws msg' ws' :
    no_collision wsid ops -> started_with wsid l id msg ws -> started_with wsid l id msg' ws' ->
    msg' = msg /\ ws' = ws.
  Proof.
    intros Hnc H1 H2. apply started_session in H1 as (ss & Hss & _ & Hm & Hw & Hws); [|done].
    apply started_session in H2 as (ss' & Hss' & _ & Hm' & Hw' & Hws'); [|done]. split; congruence.
  Qed.

  Lemma multisig_of_session id msg ws :
    no_collision wsid ops -> started_with wsid l id msg ws ->
    exists ss, m_sessions s !! id = Some ss /\ ss_msg ss = msg /\ m_sets s !! ss_wsid ss = Some ws /\
      get_multisig s id = Ok {| mu_state := ss_state ss; mu_quorum := ws_threshold ws;
        mu_signers := (fun '(a, sg) => (sg, submitted l id a)) <$> btree_iter (ws_signers ws) |}.
  Proof.
    intros Hnc H. pose proof (started_session _ _ _ Hnc H) as (ss & Hss & Hid & Hm & Hw & Hws).
    exists ss. rewrite Hw. split_and!; try done.
    unfold get_multisig. rewrite Hss. cbn [of_option rbind]. rewrite Hw, Hws. cbn [of_option rbind].
    rewrite Hid. destruct (inv_run wsid crypto g r p ops Hnc) as (_ & _ & (J1 & _)).
    rewrite J1. done.
  Qed.

  Lemma c22_completes id msg ws :
    no_collision wsid ops -> started_with wsid l id msg ws ->
    NoDup (signed_by l id) /\
    exists mu, get_multisig s id = Ok mu /\ mu_quorum mu = ws_threshold ws /\
      ((exists c, mu_state mu = MCompleted c) <-> reached ws (signed_by l id)).
  Proof.
    intros Hnc H. destruct (multisig_of_session _ _ _ Hnc H) as (ss & Hss & Hm & Hws & Hmu).
    destruct (inv_run wsid crypto g r p ops Hnc) as (_ & _ & (J1 & J2 & J3 & J4 & J5 & J6)).
    split; [apply J2|]. eexists. split; [exact Hmu|]. cbn. split; [done|].
    pose proof (J5 _ _ _ Hss Hws) as HJ. destruct (ss_state ss) as [|c]; naive_solver.
  Qed.

  Lemma c23_events id msg ws :
    no_collision wsid ops -> started_with wsid l id msg ws ->
    exists mu, get_multisig s id = Ok mu /\
      completions l id = match mu_state mu with MPending => [] | MCompleted c => [c] end.
  Proof.
    intros Hnc H. destruct (multisig_of_session _ _ _ Hnc H) as (ss & Hss & Hm & Hws & Hmu).
    destruct (inv_run wsid crypto g r p ops Hnc) as (_ & _ & (J1 & J2 & J3 & J4 & J5 & J6)).
    eexists. split; [exact Hmu|]. cbn.
    pose proof (J5 _ _ _ Hss Hws) as HJ. destruct (ss_state ss) as [|c]; naive_solver.
  Qed.

  Lemma c24_stored id msg ws :
    no_collision wsid ops -> started_with wsid l id msg ws ->
    exists mu, get_multisig s id = Ok mu /\
      mu_signers mu = (fun '(a, sg) => (sg, submitted l id a)) <$> btree_iter (ws_signers ws).
  Proof.
    intros Hnc H. destruct (multisig_of_session _ _ _ Hnc H) as (ss & Hss & Hm & Hws & Hmu). eauto.
  Qed.

  Lemma submissions_elem h a id b rw i a' sig c :
    (SubmitSignature h a id b, OutSigned rw i a' sig c) ∈ l -> (a, sig) ∈ submissions l id.
  Proof.
    intros H. unfold submissions. apply elem_of_list_omap. eexists. split; [exact H|]. cbn.
    by rewrite N.eqb_refl.
  Qed.

  Lemma c24_valid h a id b out :
    no_collision wsid ops -> (SubmitSignature h a id b, out) ∈ l ->
    exists msg ws sg sig c,
      started_with wsid l id msg ws /\ ws_signers ws !! a = Some sg /\ sig_bytes sig = b /\
      good_signature crypto sig msg (sg_key sg) /\ submitted l id a = Some sig /\
      out = OutSigned (r, dec id, a) id a sig c.
  Proof.
    intros Hnc Hin.
    destruct (inv_run wsid crypto g r p ops Hnc) as (_ & (I1 & I2 & I3) & (J1 & J2 & J3 & J4 & J5 & J6)).
    destruct (J6 _ _ _ _ _ Hin) as (sig & c & -> & Hb).
    pose proof (submissions_elem _ _ _ _ _ _ _ _ _ Hin) as Hsub.
    destruct (m_sessions s !! id) as [ss|] eqn:Hss.
    - destruct (I2 _ _ Hss) as (_ & _ & ws & Hws & Hst).
      destruct (J4 _ _ _ _ _ Hss Hws Hsub) as (x & Hx & Hg).
      exists (ss_msg ss), ws, x, sig, c. split_and!; try done.
      unfold submitted. apply elem_of_list_to_map_1; [apply J2|done].
    - destruct (J3 _ Hss) as [Hs0 _]. rewrite Hs0 in Hsub. by apply elem_of_nil in Hsub.
  Qed.

  Lemma c24_once h a id b :
    no_collision wsid ops -> a ∈ signed_by l id ->
    is_ok (submit_signature crypto s h a id b) = false.
  Proof.
    intros Hnc Ha. destruct (submit_signature crypto s h a id b) as [[s' out]| |] eqn:Hs; [|done|done].
    apply submit_ok in Hs as (ss & ws & sg & sig & _ & _ & _ & _ & _ & _ & Hnone & _).
    destruct (inv_run wsid crypto g r p ops Hnc) as (_ & _ & (J1 & J2 & J3 & J4 & J5 & J6)).
    rewrite J1 in Hnone. apply not_elem_of_list_to_map_2 in Hnone. done.
  Qed.

  Lemma grace_is : m_grace s = p.
  Proof. by destruct (inv1_run wsid crypto g r p ops) as (_ & _ & ? & _). Qed.

  Lemma c25_closed id msg ws mu h a sg b :
    no_collision wsid ops -> started_with wsid l id msg ws -> get_multisig s id = Ok mu ->
    ws_signers ws !! a = Some sg -> sig_length_ok (pk_type (sg_key sg)) (String.length b) ->
    submit_signature crypto s h a id b = Err SigningSessionClosed <->
    exists c, mu_state mu = MCompleted c /\ c + p < U64 /\ c + p < h.
  Proof.
    intros Hnc H Hmu Ha Hb. destruct (multisig_of_session _ _ _ Hnc H) as (ss & Hss & Hm & Hws & Hmu').
    rewrite Hmu' in Hmu. injection Hmu as <-. cbn [mu_state].
    destruct (signature_try_from (pk_type (sg_key sg)) b) as [sig|] eqn:Hsig;
      [|by apply signature_try_from_none in Hsig].
    unfold submit_signature. rewrite Hss. cbn [of_option rbind]. rewrite Hws. cbn [of_option rbind].
    rewrite Ha. cbn [of_option rbind]. rewrite Hsig. cbn [of_option rbind].
    unfold validate_signature. rewrite grace_is. destruct (ss_state ss) as [|c]; cbn [rbind].
    - split; [|naive_solver]. intros He. exfalso.
      destruct (sig_verify crypto sig (ss_msg ss) (sg_key sg)) as [[]| |] eqn:Hv; cbn [rbind ensure] in He.
      + case_bool_decide; cbn [rbind ensure] in He; [|done].
        destruct (signers_weight _ _) eqn:Hw; cbn [rbind] in He; [done| |done].
        apply signers_weight_no_err in Hw as [].
      + done.
      + injection He as ->. apply sig_verify_no_closed in Hv as [].
      + done.
    - unfold add_u64, checked. destruct (c + p <? U64) eqn:Hov; cbn [rbind].
      + destruct (c + p <? h) eqn:Hc; cbn [negb ensure rbind].
        * split; [|done]. intros _. exists c. split; [done|]. lia.
        * split; [|intros (c' & [= ->] & ? & ?); lia]. intros He. exfalso.
          destruct (sig_verify crypto sig (ss_msg ss) (sg_key sg)) as [[]| |] eqn:Hv; cbn [rbind ensure] in He.
          -- case_bool_decide; cbn [rbind ensure] in He; [|done].
             destruct (signers_weight _ _) eqn:Hw; cbn [rbind] in He; [done| |done].
             apply signers_weight_no_err in Hw as [].
          -- done.
          -- injection He as ->. apply sig_verify_no_closed in Hv as [].
          -- done.
      + split; [done|]. intros (c' & [= ->] & ? & ?). lia.
  Qed.

  (** Acceptance of a submission, exactly. *)
  Lemma c25_accepted id msg ws mu h a b :
    no_collision wsid ops -> started_with wsid l id msg ws -> get_multisig s id = Ok mu ->
    msum (fun a _ => weight_in ws a) (ws_signers ws) < U256 ->
    is_ok (submit_signature crypto s h a id b) = true <->
    (exists sg sig, ws_signers ws !! a = Some sg /\
       signature_try_from (pk_type (sg_key sg)) b = Some sig /\
       good_signature crypto sig msg (sg_key sg)) /\
    a ∉ signed_by l id /\
    (forall c, mu_state mu = MCompleted c -> c + p < U64 /\ h <= c + p).
  Proof.
    intros Hnc H Hmu Htot. destruct (multisig_of_session _ _ _ Hnc H) as (ss & Hss & Hm & Hws & Hmu').
    rewrite Hmu' in Hmu. injection Hmu as <-. cbn [mu_state].
    destruct (inv_run wsid crypto g r p ops Hnc) as (_ & _ & (J1 & J2 & J3 & J4 & J5 & J6)).
    assert (Hin : forall c, is_Some (session_sigs s id !! c) -> is_Some (ws_signers ws !! c)).
    { intros c [x Hx]. rewrite J1 in Hx. apply elem_of_list_to_map_2 in Hx.
      destruct (J4 _ _ _ _ _ Hss Hws Hx) as (y & Hy & _). eauto. }
    destruct (submit_signature crypto s h a id b) as [[s' out]| |] eqn:Hs.
    - split; [|done]. intros _.
      apply submit_ok in Hs as (ss' & ws' & sg & sig & Hss' & Hws' & Ha & Hsig & Hg & Hgr & Hn & _).
      rewrite Hss in Hss'. injection Hss' as <-. rewrite Hws in Hws'. injection Hws' as <-.
      split; [rewrite <- Hm; eauto|]. split.
      + rewrite J1 in Hn. by apply not_elem_of_list_to_map_2.
      + by rewrite grace_is in Hgr.
    - split; [done|]. intros ((sg & sig & Ha & Hsig & Hg) & Hn & Hgr). exfalso.
      enough (Hok : exists s' out, submit_signature crypto s h a id b = Ok (s', out)) by (destruct Hok as (? & ? & Hok); congruence).
      eexists _, _. apply submit_ok. exists ss, ws, sg, sig. rewrite Hm, grace_is.
      split_and!; try done; try reflexivity.
      + rewrite J1. by apply not_elem_of_list_to_map_1.
      + eapply N.le_lt_trans; [|exact Htot]. apply msum_subset. intros c.
        destruct (decide (a = c)) as [<-|Hne]; [eauto|]. by rewrite lookup_insert_ne by done; auto.
    - split; [done|]. intros ((sg & sig & Ha & Hsig & Hg) & Hn & Hgr). exfalso.
      enough (Hok : exists s' out, submit_signature crypto s h a id b = Ok (s', out)) by (destruct Hok as (? & ? & Hok); congruence).
      eexists _, _. apply submit_ok. exists ss, ws, sg, sig. rewrite Hm, grace_is.
      split_and!; try done; try reflexivity.
      + rewrite J1. by apply not_elem_of_list_to_map_1.
      + eapply N.le_lt_trans; [|exact Htot]. apply msum_subset. intros c.
        destruct (decide (a = c)) as [<-|Hne]; [eauto|]. by rewrite lookup_insert_ne by done; auto.
  Qed.

  Lemma c25_overflow id msg ws mu h a sg b c :
    no_collision wsid ops -> started_with wsid l id msg ws -> get_multisig s id = Ok mu ->
    ws_signers ws !! a = Some sg -> sig_length_ok (pk_type (sg_key sg)) (String.length b) ->
    mu_state mu = MCompleted c -> U64 <= c + p ->
    submit_signature crypto s h a id b = Panic.
  Proof.
    intros Hnc H Hmu Ha Hb Hc Hov. destruct (multisig_of_session _ _ _ Hnc H) as (ss & Hss & Hm & Hws & Hmu').
    rewrite Hmu' in Hmu. injection Hmu as <-. cbn [mu_state] in Hc.
    destruct (signature_try_from (pk_type (sg_key sg)) b) as [sig|] eqn:Hsig;
      [|by apply signature_try_from_none in Hsig].
    unfold submit_signature. rewrite Hss. cbn [of_option rbind]. rewrite Hws. cbn [of_option rbind].
    rewrite Ha. cbn [of_option rbind]. rewrite Hsig. cbn [of_option rbind].
    unfold validate_signature. rewrite grace_is, Hc. cbn [rbind].
    unfold add_u64, checked. by rewrite (proj2 (N.ltb_ge _ _) Hov).
  Qed.

  Lemma c26_accepted a w msg chain :
    no_collision wsid ops ->
    is_ok (start_session s a w msg chain) = true <->
    authorized l a /\ String.length msg = 32%nat /\
    (exists b ws, wsid ws = w /\ (RegisterWorkerSet b ws, OutNone) ∈ l) /\
    N.of_nat (length (started_ids l)) + 1 < U64.
  Proof.
    intros Hnc.
    destruct (inv_run wsid crypto g r p ops Hnc) as
      ((I1 & I2 & I3 & I4 & I5 & I6 & I7 & I8 & I9) & (J1 & J2 & J3) & _).
    split.
    - intros Hok. destruct (start_session s a w msg chain) as [[s' out]| |] eqn:Hs; [|done|done].
      apply start_ok in Hs as (ws & Ha & Hl & Hw & Hlt & _). apply J1 in Hw as [Hw [b Hb]].
      split; [by apply I8|]. split; [done|]. split; [eauto|]. by rewrite <- I4.
    - intros (Ha & Hl & (b & ws & Hw & Hb) & Hlt).
      assert (Hs : exists s' out, start_session s a w msg chain = Ok (s', out)).
      { eexists _, _. apply start_ok. exists ws. split_and!; try done; try reflexivity.
        - by apply I8.
        - apply J1. eauto.
        - by rewrite I4. }
      destruct Hs as (s' & out & ->). done.
  Qed.

  Lemma c26_response a w msg chain out :
    no_collision wsid ops -> (StartSession a w msg chain, out) ∈ l ->
    exists id ws, w = wsid ws /\ started_with wsid l id msg ws /\
      out = OutStarted id w (sg_key <$> ws_signers ws) msg chain.
  Proof.
    intros Hnc Hin.
    destruct (inv_run wsid crypto g r p ops Hnc) as (_ & (J1 & J2 & J3) & _).
    pose proof Hin as Hin'. apply J3 in Hin' as (Hl & id & ss & ws & Hss & Hw & Hm & Hws & ->).
    pose proof (proj1 (J1 _ _) Hws) as [Hw' [b Hb]].
    exists id, ws. split; [done|]. split; [|done]. exists a, chain, (sg_key <$> ws_signers ws), b.
    rewrite Hw'. done.
  Qed.

  Lemma c26_ids : started_ids l = N.of_nat <$> seq 1 (length (started_ids l)).
  Proof. apply (inv1_run wsid crypto g r p ops). Qed.

  Lemma c26_governance a auth c out : (SetCaller a auth c, out) ∈ l -> a = g.
  Proof. intros H. by apply (inv1_run wsid crypto g r p ops) in H as [? _]. Qed.

  Lemma c27_key a t :
    get_public_key s a t =
    match last_key l a t with
    | Some b => Ok {| pk_type := t; pk_bytes := b |}
    | None => Err MStdError
    end.
  Proof.
    destruct (inv1_run wsid crypto g r p ops) as (I1 & I2 & I3 & I4 & I5 & I6 & I7 & I8 & I9).
    unfold get_public_key. rewrite <- I6. destruct (m_keys s !! (a, t)) as [b|] eqn:Hb; [|done].
    cbn [of_option rbind].
    rewrite (proj2 (public_key_try_from_some t b {| pk_type := t; pk_bytes := b |})); [done|]. eauto.
  Qed.

  Lemma c27_bad_signature h a id b msg ws sg :
    no_collision wsid ops -> started_with wsid l id msg ws -> ws_signers ws !! a = Some sg ->
    ~ sig_length_ok (pk_type (sg_key sg)) (String.length b) ->
    submit_signature crypto s h a id b = Err InvalidSignatureFormat.
  Proof.
    intros Hnc H Ha Hb. destruct (multisig_of_session _ _ _ Hnc H) as (ss & Hss & Hm & Hws & Hmu').
    unfold submit_signature. rewrite Hss. cbn [of_option rbind]. rewrite Hws. cbn [of_option rbind].
    rewrite Ha. cbn [of_option rbind]. by rewrite (proj2 (signature_try_from_none _ _) Hb).
  Qed.
End Thm.

Lemma c27_bad_key s a t b :
  is_ok (register_pub_key s a t b) = true <-> key_length_ok t (String.length b).
Proof.
  split.
  - intros H. destruct (register_pub_key s a t b) as [[s' out]| |] eqn:Hs; [|done|done].
    by apply register_key_ok in Hs as [? _].
  - intros H. assert (Hs : exists s' out, register_pub_key s a t b = Ok (s', out)).
    { eexists _, _. apply register_key_ok. split; [done|]. split; reflexivity. }
    by destruct Hs as (? & ? & ->).
Qed.

Section Later.
  Context (wsid : worker_set -> string) (crypto : key_type -> string -> string -> string -> option bool).
  Context (g r : addr) (p : N).
  Notation step := (multisig_step wsid crypto).
  Notation mrun := (mrun wsid crypto g r p).
  Notation mlog := (mlog wsid crypto g r p).

  Lemma mlog_app ops1 ops2 : exists l2, mlog (ops1 ++ ops2) = mlog ops1 ++ l2.
  Proof. unfold MultisigSpec.mlog. rewrite log_app. eauto. Qed.

  Lemma no_collision_app ops1 ops2 : no_collision wsid (ops1 ++ ops2) -> no_collision wsid ops1.
  Proof.
    intros H a1 ws1 a2 ws2 H1 H2. apply (H a1 ws1 a2 ws2); apply elem_of_app; by left.
  Qed.

  Lemma started_with_app l l2 id msg ws :
    started_with wsid l id msg ws -> started_with wsid (l ++ l2) id msg ws.
  Proof.
    intros (a & chain & keys & b & Ha & Hb). exists a, chain, keys, b. split; apply elem_of_app; by left.
  Qed.

  Lemma get_multisig_started ops id mu :
    no_collision wsid ops -> get_multisig (mrun ops) id = Ok mu ->
    exists msg ws, started_with wsid (mlog ops) id msg ws.
  Proof.
    intros Hnc H. unfold get_multisig in H. res_inv.
    destruct (inv_run wsid crypto g r p ops Hnc) as (_ & (J1 & J2 & J3) & _).
    apply J2 in Hv as (_ & _ & ws & _ & Hst). eauto.
  Qed.

  Lemma c23_forever ops1 ops2 id mu c :
    no_collision wsid (ops1 ++ ops2) ->
    get_multisig (mrun ops1) id = Ok mu -> mu_state mu = MCompleted c ->
    exists mu', get_multisig (mrun (ops1 ++ ops2)) id = Ok mu' /\ mu_state mu' = MCompleted c.
  Proof.
    intros Hnc Hmu Hc. pose proof (no_collision_app _ _ Hnc) as Hnc1.
    destruct (get_multisig_started _ _ _ Hnc1 Hmu) as (msg & ws & Hst).
    destruct (c23_events _ _ _ _ _ _ _ _ _ Hnc1 Hst) as (mu1 & Hmu1 & Hc1).
    rewrite Hmu in Hmu1. injection Hmu1 as <-. rewrite Hc in Hc1.
    destruct (mlog_app ops1 ops2) as [l2 Hl].
    assert (Hst2 : started_with wsid (mlog (ops1 ++ ops2)) id msg ws) by (rewrite Hl; by apply started_with_app).
    destruct (c23_events _ _ _ _ _ _ _ _ _ Hnc Hst2) as (mu2 & Hmu2 & Hc2).
    exists mu2. split; [done|]. rewrite Hl in Hc2. unfold completions in Hc2. rewrite omap_app in Hc2.
    unfold completions in Hc1. rewrite Hc1 in Hc2. destruct (mu_state mu2); [done|]. by injection Hc2 as -> _.
  Qed.

  Lemma c24_never_replaced ops1 ops2 id a sig :
    submitted (mlog ops1) id a = Some sig -> submitted (mlog (ops1 ++ ops2)) id a = Some sig.
  Proof.
    destruct (mlog_app ops1 ops2) as [l2 ->]. unfold submitted, submissions.
    rewrite omap_app, list_to_map_app. intros H. by apply lookup_union_Some_l.
  Qed.

  Lemma c23_first ops l1 op rw id a sig c l2 msg ws :
    no_collision wsid ops ->
    mlog ops = l1 ++ (op, OutSigned rw id a sig (Some c)) :: l2 ->
    started_with wsid (mlog ops) id msg ws ->
    op = SubmitSignature c a id (sig_bytes sig) /\
    ~ reached ws (signed_by l1 id) /\
    reached ws (signed_by (l1 ++ [(op, OutSigned rw id a sig (Some c))]) id).
  Proof.
    intros Hnc Hl Hst. pose proof Hl as Hl0. unfold MultisigSpec.mlog in Hl.
    apply log_split in Hl as (ops1 & ops2 & s' & -> & Hl1 & Hs & Hl2).
    assert (Hop : op = SubmitSignature c a id (sig_bytes sig)).
    { destruct op as [a' w msg' chain|h a' id' b|a' ws'|a' t b|a' auth c']; cbn [multisig_step] in Hs.
      - by apply start_ok in Hs as (? & _ & _ & _ & _ & _ & ?).
      - apply submit_ok in Hs as (ss & ws' & sg & sig' & Hss & Hws & Hsg & Hsig & Hgood & Hgr & Hnone & Hall & Hlt & _ & Hout).
        injection Hout as -> -> -> -> Hc. f_equal.
        + unfold next_state in Hc. destruct (ss_state ss); [|done]. destruct (_ <=? _); [|done]. by injection Hc.
        + symmetry. apply signature_try_from_some in Hsig. apply Hsig.
      - done.
      - by apply register_key_ok in Hs as (_ & _ & ?).
      - by apply set_caller_ok in Hs as (_ & _ & ?). }
    split; [exact Hop|].
    set (e := (op, OutSigned rw id a sig (Some c))) in *.
    rewrite cons_middle, app_assoc in Hnc.
    pose proof (no_collision_app _ _ Hnc) as Hnc2. pose proof (no_collision_app _ _ Hnc2) as Hnc1.
    assert (Hlog1 : mlog ops1 = l1) by exact Hl1.
    assert (Hlog2 : mlog (ops1 ++ [op]) = l1 ++ [e]).
    { unfold MultisigSpec.mlog. rewrite log_snoc, Hl1. unfold log1. by rewrite Hs. }
    assert (Hst1 : exists msg1 ws1, started_with wsid l1 id msg1 ws1).
    { rewrite Hop in Hs. cbn [multisig_step] in Hs.
      apply submit_ok in Hs as (ss & _ & _ & _ & Hss & _).
      destruct (inv_run wsid crypto g r p ops1 Hnc1) as (_ & (J1 & J2 & J3) & _).
      change (m_sessions (mrun ops1) !! id = Some ss) in Hss.
      apply J2 in Hss as (_ & _ & ws1 & _ & Hst1). rewrite Hlog1 in Hst1. eauto. }
    destruct Hst1 as (msg1 & ws1 & Hst1).
    assert (Hst2 : started_with wsid (l1 ++ [e]) id msg1 ws1) by by apply started_with_app.
    assert (Hst3 : started_with wsid (mlog ((ops1 ++ [op]) ++ ops2)) id msg1 ws1).
    { rewrite <- app_assoc. cbn [app]. rewrite Hl0. by apply started_with_app. }
    assert (Hst4 : started_with wsid (mlog ((ops1 ++ [op]) ++ ops2)) id msg ws).
    { rewrite <- app_assoc. cbn [app]. exact Hst. }
    destruct (started_unique _ _ _ _ _ _ _ _ _ _ _ Hnc Hst4 Hst3) as [-> ->].
    rewrite <- Hlog1 in Hst1. rewrite <- Hlog2 in Hst2.
    destruct (c23_events _ _ _ _ _ _ _ _ _ Hnc1 Hst1) as (mu1 & Hmu1 & Hc1).
    destruct (c23_events _ _ _ _ _ _ _ _ _ Hnc2 Hst2) as (mu2 & Hmu2 & Hc2).
    destruct (c22_completes _ _ _ _ _ _ _ _ _ Hnc1 Hst1) as (_ & mu1' & Hmu1' & _ & Hr1).
    destruct (c22_completes _ _ _ _ _ _ _ _ _ Hnc2 Hst2) as (_ & mu2' & Hmu2' & _ & Hr2).
    rewrite Hmu1 in Hmu1'. injection Hmu1' as <-. rewrite Hmu2 in Hmu2'. injection Hmu2' as <-.
    assert (Hcs : completions (l1 ++ [e]) id = completions l1 id ++ [c]).
    { unfold completions. rewrite omap_app. cbn. by rewrite N.eqb_refl. }
    rewrite Hlog2, Hcs in Hc2. rewrite Hlog1 in Hc1. rewrite <- Hlog1 at 1. rewrite <- Hlog2.
    split.
    - intros Hre. apply Hr1 in Hre as [c1 Hre]. rewrite Hre in Hc1. rewrite Hc1 in Hc2.
      by destruct (mu_state mu2).
    - apply Hr2. destruct (mu_state mu2) as [|c2]; [|eauto]. by destruct (completions l1 id).
  Qed.
End Later.

Lemma c22_positive wsid crypto g r p ops id msg ws :
  no_collision wsid ops -> started_with wsid (mlog wsid crypto g r p ops) id msg ws -> 0 < ws_threshold ws ->
  exists mu, get_multisig (mrun wsid crypto g r p ops) id = Ok mu /\
    ((exists c, mu_state mu = MCompleted c) <->
     ws_threshold ws <= lsum (weight_in ws) (signed_by (mlog wsid crypto g r p ops) id)).
Proof.
  intros Hnc Hst Hpos. destruct (c22_completes _ _ _ _ _ _ _ _ _ Hnc Hst) as (_ & mu & Hmu & _ & Hc).
  exists mu. split; [done|]. rewrite Hc. unfold reached. split; [by intros [_ ?]|].
  intros H. split; [|done]. intros He. rewrite He in H. unfold lsum in H. cbn in H. lia.
Qed.
