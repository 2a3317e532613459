(** Proofs about the multisig contract: invariants relating state and log. *)
From Verif Require Import Base BaseLemmas Text StdModel StdProofs MapLemmas MultisigTypes MultisigModel MultisigSpec.

Lemma signers_weight_aux (ws : worker_set) (l : list (addr * signature)) (acc n : N) :
  fold_left (fun (acc : res merror N) '(a, _) =>
               let? n := acc in
               let? sg := expect (ws_signers ws !! a) in
               add_u256 n (sg_weight sg)) l (Ok acc) = Ok n <->
  (forall a, a ∈ l.*1 -> is_Some (ws_signers ws !! a)) /\
  n = acc + lsum (fun x => weight_in ws x.1) l /\ (l = [] \/ n < U256).
Proof.
  revert acc. induction l as [|[a sg] l IH]; intros acc.
  - cbn [fold_left]. unfold lsum. cbn [fold_right]. split.
    + intros [= <-]. split; [intros a Ha; inversion Ha|]. split; [lia|by left].
    + intros (_ & -> & _). f_equal. lia.
  - cbn [fold_left]. rewrite lsum_cons. cbn [rbind fst].
    unfold weight_in at 1. destruct (ws_signers ws !! a) as [x|] eqn:Hx; cbn [expect rbind].
    + unfold add_u256, checked. destruct (acc + sg_weight x <? U256) eqn:Hlt.
      * rewrite IH. cbn [fmap list_fmap fst]. split.
        -- intros (H1 & -> & H3). split.
           { intros b [->|Hb]%elem_of_cons; [by rewrite Hx|by apply H1]. }
           split; [lia|right]. destruct H3 as [->|H3]; [unfold lsum; cbn [fold_right]; lia|lia].
        -- intros (H1 & -> & H3). split; [intros b Hb; apply H1; by constructor 2|].
           split; [lia|]. destruct H3 as [?|H3]; [done|]. right; lia.
      * split.
        -- intros H. exfalso. revert H. clear. induction l as [|[b c] l IH]; cbn; [done|exact IH].
        -- intros (_ & -> & [?|?]); [done|]. lia.
    + split.
      * intros H. exfalso. revert H. clear. induction l as [|[b c] l IH]; cbn; [done|exact IH].
      * intros (H1 & _). destruct (H1 a) as [y Hy]; [cbn; by constructor|]. congruence.
Qed.

Lemma signers_weight_ok sigs ws n :
  signers_weight sigs ws = Ok n <->
  (forall a, is_Some (sigs !! a) -> is_Some (ws_signers ws !! a)) /\
  n = msum (fun a _ => weight_in ws a) sigs /\ (sigs = ∅ \/ n < U256).
Proof.
  unfold signers_weight. rewrite signers_weight_aux, btree_iter_nil.
  rewrite (lsum_btree_iter (fun a _ => weight_in ws a) sigs).
  setoid_rewrite elem_of_btree_keys. done.
Qed.

Section Proofs.
  Context (crypto : key_type -> string -> string -> string -> option bool).

  Lemma sig_verify_ok sg msg pk b :
    sig_verify crypto sg msg pk = Ok b <->
    sig_type sg = pk_type pk /\ crypto (pk_type pk) msg (sig_bytes sg) (pk_bytes pk) = Some b.
  Proof.
    unfold sig_verify. case_bool_decide as H.
    - rewrite of_option_ok, H. naive_solver.
    - naive_solver.
  Qed.

  Lemma validate_ok ss sg pk p h u :
    validate_signature crypto ss sg pk p h = Ok u <->
    good_signature crypto sg (ss_msg ss) pk /\
    (forall c, ss_state ss = MCompleted c -> c + p < U64 /\ h <= c + p).
  Proof.
    unfold validate_signature, good_signature. destruct u. rewrite rbind_ok. split.
    - intros (v & H1 & H2). apply rbind_ok in H2 as (b & H2 & H3).
      apply sig_verify_ok in H2. apply ensure_ok in H3 as ->. split; [done|].
      intros c Hc. rewrite Hc in H1. apply rbind_ok in H1 as (e & H1 & H4).
      apply add_u64_ok in H1 as [? ->]. apply ensure_ok in H4. lia.
    - intros [H1 H2]. exists tt. split.
      + destruct (ss_state ss) as [|c]; [done|]. destruct (H2 c eq_refl) as [H3 H4].
        rewrite rbind_ok. exists (c + p). rewrite add_u64_ok, ensure_ok. split; [done|]. lia.
      + rewrite rbind_ok. exists true. rewrite sig_verify_ok, ensure_ok. done.
  Qed.

  Definition next_state (ss : session) (ws : worker_set) (sigs : gmap addr signature) (h : N) : ms_state :=
    match ss_state ss with
    | MPending => if ws_threshold ws <=? msum (fun a _ => weight_in ws a) sigs then MCompleted h else MPending
    | MCompleted c => MCompleted c
    end.

  (** One accepted submission. *)
  Lemma submit_ok s h a id b s' out :
    submit_signature crypto s h a id b = Ok (s', out) <->
    exists ss ws sg sig,
      m_sessions s !! id = Some ss /\ m_sets s !! ss_wsid ss = Some ws /\
      ws_signers ws !! a = Some sg /\ signature_try_from (pk_type (sg_key sg)) b = Some sig /\
      good_signature crypto sig (ss_msg ss) (sg_key sg) /\
      (forall c, ss_state ss = MCompleted c -> c + m_grace s < U64 /\ h <= c + m_grace s) /\
      session_sigs s id !! a = None /\
      (forall b, is_Some (session_sigs s id !! b) -> is_Some (ws_signers ws !! b)) /\
      msum (fun a _ => weight_in ws a) (<[a := sig]> (session_sigs s id)) < U256 /\
      let st := next_state ss ws (<[a := sig]> (session_sigs s id)) h in
      s' = {| m_governance := m_governance s; m_rewards := m_rewards s; m_grace := m_grace s;
              m_counter := m_counter s;
              m_sessions := <[ss_id ss := {| ss_id := ss_id ss; ss_wsid := ss_wsid ss;
                                             ss_msg := ss_msg ss; ss_state := st |}]> (m_sessions s);
              m_sigs := <[id := <[a := sig]> (session_sigs s id)]> (m_sigs s);
              m_sets := m_sets s; m_keys := m_keys s; m_callers := m_callers s |} /\
      out = OutSigned (m_rewards s, dec id, a) id a sig
              (match ss_state ss, st with MPending, MCompleted c => Some c | _, _ => None end).
  Proof.
    assert (Hst : forall ss ws sigs n, n = msum (fun a _ => weight_in ws a) sigs ->
      (if bool_decide (ss_state ss = MPending) && (ws_threshold ws <=? n) then MCompleted h
       else ss_state ss) = next_state ss ws sigs h).
    { intros ss ws sigs n ->. unfold next_state. destruct (ss_state ss) as [|c].
      - rewrite bool_decide_true by done. cbn. by destruct (_ <=? _).
      - by rewrite bool_decide_false by done. }
    assert (Hout : forall ss st, ss_state ss = st \/ ss_state ss = MPending ->
      match st with
      | MCompleted c => if bool_decide (ss_state ss = st) then None else Some c
      | MPending => None
      end = match ss_state ss, st with MPending, MCompleted c => Some c | _, _ => None end).
    { intros ss st. destruct (ss_state ss) as [|c], st as [|c']; intros []; try done.
      all: rewrite bool_decide_true by congruence; done. }
    assert (Hor : forall ss ws sigs, ss_state ss = next_state ss ws sigs h \/ ss_state ss = MPending).
    { intros. unfold next_state. destruct (ss_state ss); auto. }
    unfold submit_signature. split.
    - intros H. res_inv. rename v into ss, v0 into ws, v1 into sg, v2 into sig.
      destruct v3, v4. subst s' out.
      match goal with H : validate_signature _ _ _ _ _ _ = _ |- _ => apply validate_ok in H as [Hg Hc] end.
      match goal with H : signers_weight _ _ = _ |- _ => apply signers_weight_ok in H as (Hw1 & Hw2 & Hw3) end.
      exists ss, ws, sg, sig.
      match goal with H : bool_decide (session_sigs _ _ !! _ = None) = true |- _ =>
        apply bool_decide_eq_true_1 in H; rename H into Hnone end.
      split_and!; try done.
      + intros c [x Hx]. apply Hw1. destruct (decide (a = c)) as [->|Hne]; [congruence|].
        rewrite lookup_insert_ne by done. eauto.
      + destruct Hw3 as [Hw3|Hw3]; [by apply insert_non_empty in Hw3|]. lia.
      + rewrite <- (Hst ss ws _ _ eq_refl), <- Hw2. done.
      + rewrite <- (Hst ss ws _ _ eq_refl), <- Hw2, <- Hout; [done|].
        rewrite Hw2, (Hst ss ws _ _ eq_refl). apply Hor.
    - intros (ss & ws & sg & sig & H1 & H2 & H3 & H4 & H5 & H6 & H7 & H8 & H9 & -> & ->).
      rewrite H1. cbn [of_option rbind]. rewrite H2. cbn [of_option rbind]. rewrite H3. cbn [of_option rbind].
      rewrite H4. cbn [of_option rbind].
      assert (Hv : validate_signature crypto ss sig (sg_key sg) (m_grace s) h = Ok tt) by by apply validate_ok.
      rewrite Hv. cbn [rbind]. rewrite bool_decide_true by done. cbn [ensure rbind].
      assert (Hw : signers_weight (<[a:=sig]> (session_sigs s id)) ws =
                   Ok (msum (fun a _ => weight_in ws a) (<[a:=sig]> (session_sigs s id)))).
      { apply signers_weight_ok. split; [|by auto]. intros c Hc.
        destruct (decide (a = c)) as [->|Hne]; [by rewrite H3|].
        rewrite lookup_insert_ne in Hc by done. auto. }
      rewrite Hw. cbn [rbind]. rewrite (Hst ss ws _ _ eq_refl), Hout by apply Hor. done.
  Qed.

  Lemma start_ok s a w msg chain s' out :
    start_session s a w msg chain = Ok (s', out) <->
    exists ws,
      a ∈ m_callers s /\ String.length msg = 32%nat /\ m_sets s !! w = Some ws /\
      m_counter s + 1 < U64 /\
      s' = {| m_governance := m_governance s; m_rewards := m_rewards s; m_grace := m_grace s;
              m_counter := m_counter s + 1;
              m_sessions := <[m_counter s + 1 := {| ss_id := m_counter s + 1; ss_wsid := w; ss_msg := msg;
                                                    ss_state := MPending |}]> (m_sessions s);
              m_sigs := m_sigs s; m_sets := m_sets s; m_keys := m_keys s; m_callers := m_callers s |} /\
      out = OutStarted (m_counter s + 1) w (sg_key <$> ws_signers ws) msg chain.
  Proof.
    unfold start_session, msg_to_sign_of. split.
    - intros H. res_inv. subst. 
      match goal with H : (if ?b then Some _ else None) = Some _ |- _ => destruct b eqn:Hlen; [|done] end.
      match goal with H : Some _ = Some _ |- _ => injection H as <- end.
      apply Nat.eqb_eq in Hlen. 
      match goal with H : bool_decide (a ∈ _) = true |- _ => apply bool_decide_eq_true_1 in H end. eauto 10.
    - intros (ws & H1 & H2 & H3 & H4 & -> & ->). rewrite bool_decide_true by done. cbn [ensure rbind].
      rewrite (proj2 (Nat.eqb_eq _ _) H2). cbn [of_option rbind]. rewrite H3. cbn [of_option rbind].
      unfold add_u64, checked. rewrite (proj2 (N.ltb_lt _ _) H4). done.
  Qed.
End Proofs.
