(** Proofs about the multisig contract: invariants over histories. *)
From Verif Require Import Base BaseLemmas Text StdModel StdProofs MapLemmas MultisigTypes MultisigModel
  MultisigSpec MultisigProofs.

  Lemma public_key_try_from_some t b pk :
    public_key_try_from t b = Some pk <->
    key_length_ok t (String.length b) /\ pk = {| pk_type := t; pk_bytes := b |}.
  Proof.
    unfold public_key_try_from, key_length_ok.
    destruct t; destruct (_ : bool) eqn:Hb;
      rewrite ?orb_true_iff, ?orb_false_iff, ?Nat.eqb_eq, ?Nat.eqb_neq in Hb; naive_solver.
  Qed.
  Lemma signature_try_from_some t b sg :
    signature_try_from t b = Some sg ->
    sig_length_ok t (String.length b) /\ sig_type sg = t /\ sig_bytes sg = b.
  Proof.
    unfold signature_try_from, sig_length_ok.
    destruct t; repeat match goal with |- context [(?x =? ?y)%nat] => destruct (Nat.eqb_spec x y) end; naive_solver.
  Qed.
  Lemma signature_try_from_none t b :
    signature_try_from t b = None <-> ~ sig_length_ok t (String.length b).
  Proof.
    unfold signature_try_from, sig_length_ok.
    destruct t; repeat match goal with |- context [(?x =? ?y)%nat] => destruct (Nat.eqb_spec x y) end; naive_solver.
  Qed.

  Lemma register_key_ok s a t b s' out :
    register_pub_key s a t b = Ok (s', out) <->
    key_length_ok t (String.length b) /\
    s' = {| m_governance := m_governance s; m_rewards := m_rewards s; m_grace := m_grace s;
            m_counter := m_counter s; m_sessions := m_sessions s; m_sigs := m_sigs s;
            m_sets := m_sets s; m_keys := <[(a, t) := b]> (m_keys s); m_callers := m_callers s |} /\
    out = OutKey a {| pk_type := t; pk_bytes := b |}.
  Proof.
    unfold register_pub_key. split.
    - intros H. res_inv. apply public_key_try_from_some in Hv as [? ->]. subst. done.
    - intros (H & -> & ->).
      rewrite (proj2 (public_key_try_from_some t b {| pk_type := t; pk_bytes := b |})); done.
  Qed.

  Lemma set_caller_ok s a auth c s' out :
    set_caller s a auth c = Ok (s', out) <->
    m_governance s = a /\
    s' = {| m_governance := m_governance s; m_rewards := m_rewards s; m_grace := m_grace s;
            m_counter := m_counter s; m_sessions := m_sessions s; m_sigs := m_sigs s;
            m_sets := m_sets s; m_keys := m_keys s;
            m_callers := if auth then {[c]} ∪ m_callers s else m_callers s ∖ {[c]} |} /\
    out = OutCaller auth c.
  Proof.
    unfold set_caller. case_bool_decide as H; cbn [ensure rbind]; naive_solver.
  Qed.

Section Inv.
  Context (wsid : worker_set -> string) (crypto : key_type -> string -> string -> string -> option bool).
  Context (g r : addr) (p : N).
  Notation step := (multisig_step wsid crypto).

  (** Configuration, counter, keys and callers. *)
  Definition inv1 (s : mstate) (l : list (mop * mout)) : Prop :=
    m_governance s = g /\ m_rewards s = r /\ m_grace s = p /\
    m_counter s = N.of_nat (length (started_ids l)) /\
    started_ids l = N.of_nat <$> seq 1 (length (started_ids l)) /\
    (forall a t, m_keys s !! (a, t) = last_key l a t) /\
    (forall a t b, m_keys s !! (a, t) = Some b -> key_length_ok t (String.length b)) /\
    (forall a, a ∈ m_callers s <-> authorized l a) /\
    (forall a auth c out, (SetCaller a auth c, out) ∈ l -> a = g /\ out = OutCaller auth c).

  Lemma inv1_step s l op s' out :
    inv1 s l -> step s op = Ok (s', out) -> inv1 s' (l ++ [(op, out)]).
  Proof.
    intros (H1 & H2 & H3 & H4 & H5 & H6 & H7 & H8 & H9) Hs.
    destruct op as [a w msg chain|h a id b|a ws|a t b|a auth c]; cbn [multisig_step] in Hs.
    - apply start_ok in Hs as (ws & Ha & Hl & Hw & Hlt & -> & ->). unfold inv1. cbn [m_governance m_rewards m_grace m_counter m_keys m_callers].
      assert (Hsi : forall x, started_ids (l ++ [(StartSession a w msg chain, OutStarted x w (sg_key <$> ws_signers ws) msg chain)]) = started_ids l ++ [x]).
      { intros x. unfold started_ids. by rewrite omap_app. }
      rewrite Hsi, app_length. cbn [length].
      split_and!; try done.
      + lia.
      + rewrite Nat.add_1_r, <- seq_N_snoc, <- H5, H4. done.
      + intros b t. unfold last_key. rewrite last_snoc_omap. cbn. apply H6.
      + intros b. unfold authorized. rewrite last_snoc_omap. cbn. apply H8.
      + intros b auth c out [Hin|Hin%elem_of_list_singleton]%elem_of_app; [eauto|done].
    - apply submit_ok in Hs as (ss & ws & sg & sig & _ & _ & _ & _ & _ & _ & _ & _ & _ & -> & ->).
      unfold inv1. cbn [m_governance m_rewards m_grace m_counter m_keys m_callers].
      match goal with |- context [l ++ [?e]] => assert (Hsi : started_ids (l ++ [e]) = started_ids l) end.
      { unfold started_ids. by rewrite omap_app, app_nil_r. }
      rewrite Hsi. split_and!; try done.
      + intros b' t. unfold last_key. rewrite last_snoc_omap. cbn. apply H6.
      + intros b'. unfold authorized. rewrite last_snoc_omap. cbn. apply H8.
      + intros b' auth c out [Hin|Hin%elem_of_list_singleton]%elem_of_app; [eauto|done].
    - injection Hs as <- <-.
      unfold inv1. cbn [m_governance m_rewards m_grace m_counter m_keys m_callers].
      match goal with |- context [l ++ [?e]] => assert (Hsi : started_ids (l ++ [e]) = started_ids l) end.
      { unfold started_ids. by rewrite omap_app, app_nil_r. }
      rewrite Hsi. split_and!; try done.
      + intros b' t. unfold last_key. rewrite last_snoc_omap. cbn. apply H6.
      + intros b'. unfold authorized. rewrite last_snoc_omap. cbn. apply H8.
      + intros b' auth c out [Hin|Hin%elem_of_list_singleton]%elem_of_app; [eauto|done].
    - apply register_key_ok in Hs as (Hl & -> & ->).
      unfold inv1. cbn [m_governance m_rewards m_grace m_counter m_keys m_callers].
      match goal with |- context [l ++ [?e]] => assert (Hsi : started_ids (l ++ [e]) = started_ids l) end.
      { unfold started_ids. by rewrite omap_app, app_nil_r. }
      rewrite Hsi. split_and!; try done.
      + intros a' t'. unfold last_key. rewrite last_snoc_omap. cbn [fst].
        case_bool_decide as Hd.
        * destruct Hd as [-> ->]. by rewrite lookup_insert.
        * rewrite lookup_insert_ne; [apply H6|]. intros [= -> ->]. by apply Hd.
      + intros a' t' b' Hb'. destruct (decide ((a, t) = (a', t'))) as [Heq|Hne].
        * injection Heq as <- <-. rewrite lookup_insert in Hb'. by injection Hb' as <-.
        * rewrite lookup_insert_ne in Hb' by done. eauto.
      + intros b'. unfold authorized. rewrite last_snoc_omap. cbn. apply H8.
      + intros b' auth c out [Hin|Hin%elem_of_list_singleton]%elem_of_app; [eauto|done].
    - apply set_caller_ok in Hs as (Hg & -> & ->).
      unfold inv1. cbn [m_governance m_rewards m_grace m_counter m_keys m_callers].
      match goal with |- context [l ++ [?e]] => assert (Hsi : started_ids (l ++ [e]) = started_ids l) end.
      { unfold started_ids. by rewrite omap_app, app_nil_r. }
      rewrite Hsi. split_and!; try done.
      + intros b' t. unfold last_key. rewrite last_snoc_omap. cbn. apply H6.
      + intros b. unfold authorized. rewrite last_snoc_omap. cbn [fst]. case_bool_decide as Hd.
        * subst b. destruct auth; [set_solver|]. split; [set_solver|congruence].
        * specialize (H8 b). unfold authorized in H8. rewrite <- H8. destruct auth; set_solver.
      + intros b auth' c' out [Hin|Hin%elem_of_list_singleton]%elem_of_app; [eauto|].
        injection Hin as -> -> -> ->. split; [congruence|done].
  Qed.

  Lemma inv1_init : inv1 (multisig_init g r p) [].
  Proof.
    unfold inv1. cbn. split_and!; try done.
    - intros a auth c out H. by apply elem_of_nil in H.
  Qed.

  Lemma inv1_run ops : inv1 (mrun wsid crypto g r p ops) (mlog wsid crypto g r p ops).
  Proof.
    unfold mrun, mlog. apply (run_log_inv step inv1); [apply inv1_init|].
    intros. by eapply inv1_step.
  Qed.

  (** Worker sets and sessions. *)
  Definition inv2 (s : mstate) (l : list (mop * mout)) : Prop :=
    (forall w ws, m_sets s !! w = Some ws <->
                  wsid ws = w /\ exists b, (RegisterWorkerSet b ws, OutNone) ∈ l) /\
    (forall id ss, m_sessions s !! id = Some ss ->
       ss_id ss = id /\ id <= m_counter s /\
       exists ws, m_sets s !! ss_wsid ss = Some ws /\ started_with wsid l id (ss_msg ss) ws) /\
    (forall a w msg chain out, (StartSession a w msg chain, out) ∈ l ->
       String.length msg = 32%nat /\
       exists id ss ws, m_sessions s !! id = Some ss /\ ss_wsid ss = w /\ ss_msg ss = msg /\
         m_sets s !! w = Some ws /\
         out = OutStarted id w (sg_key <$> ws_signers ws) msg chain).

  Lemma inv2_step ops s l op s' out :
    no_collision wsid ops -> (forall e, e ∈ l -> e.1 ∈ ops) -> op ∈ ops ->
    inv2 s l -> step s op = Ok (s', out) -> inv2 s' (l ++ [(op, out)]).
  Proof.
    intros Hnc Hsub Hop (H1 & H2 & H3) Hs.
    assert (Hsw : forall e id msg ws, started_with wsid l id msg ws -> started_with wsid (l ++ [e]) id msg ws).
    { intros e id msg ws (a & chain & keys & b & Ha & Hb). exists a, chain, keys, b.
      split; apply elem_of_app; by left. }
    destruct op as [a w msg chain|h a id b|a ws|a t b|a auth c]; cbn [multisig_step] in Hs.
    - apply start_ok in Hs as (ws & Ha & Hl & Hw & Hlt & -> & ->). unfold inv2. cbn [m_sets m_sessions m_counter].
      split; [|split].
      + intros w' ws'. rewrite H1. split; intros [-> [b Hb]]; (split; [done|]); exists b.
        * apply elem_of_app; by left.
        * apply elem_of_app in Hb as [?|Hb%elem_of_list_singleton]; [done|done].
      + intros id ss. destruct (decide (id = m_counter s + 1)) as [->|Hne].
        * rewrite lookup_insert. intros [= <-]. cbn. split; [done|]. split; [lia|]. exists ws. split; [done|].
          pose proof (proj1 (H1 _ _) Hw) as [<- [b Hb]].
          exists a, chain, (sg_key <$> ws_signers ws), b. split; apply elem_of_app; [right; by apply elem_of_list_singleton|by left].
        * rewrite lookup_insert_ne by done. intros (? & ? & ws' & ? & ?)%H2. split; [done|]. split; [lia|].
          exists ws'. auto.
      + intros a' w' msg' chain' out [Hin|Hin%elem_of_list_singleton]%elem_of_app.
        * apply H3 in Hin as (Hl' & id & ss & ws' & Hss & ? & ? & ? & ?). split; [done|].
          exists id, ss, ws'. split; [|done]. rewrite lookup_insert_ne; [done|].
          apply H2 in Hss. lia.
        * injection Hin as -> -> -> -> ->. split; [done|]. eexists _, _, ws. rewrite lookup_insert.
          split; [reflexivity|]. done.
    - apply submit_ok in Hs as (ss & ws & sg & sig & Hss & Hws & _ & _ & _ & _ & _ & _ & _ & -> & ->).
      pose proof (H2 _ _ Hss) as (Hid & Hle & ws' & Hws' & Hst). assert (ws' = ws) as -> by congruence.
      unfold inv2. cbn [m_sets m_sessions m_counter]. rewrite Hid.
      split; [|split].
      + intros w' ws''. rewrite H1. split; intros [-> [b' Hb]]; (split; [done|]); exists b'.
        * apply elem_of_app; by left.
        * apply elem_of_app in Hb as [?|Hb%elem_of_list_singleton]; [done|done].
      + intros id' ss'. destruct (decide (id = id')) as [<-|Hne].
        * rewrite lookup_insert. intros [= <-]. cbn. split; [done|]. split; [done|]. exists ws. auto.
        * rewrite lookup_insert_ne by done. intros (? & ? & ws' & ? & ?)%H2. split; [done|]. split; [lia|].
          exists ws'. auto.
      + intros a' w' msg' chain' out [Hin|Hin%elem_of_list_singleton]%elem_of_app; [|done].
        apply H3 in Hin as (Hl' & id' & ss' & ws' & Hss' & Hx & Hy & Hz & Hu). split; [done|].
        destruct (decide (id = id')) as [<-|Hne].
        * rewrite Hss in Hss'. injection Hss' as <-. eexists id, _, ws'. rewrite lookup_insert.
          split; [reflexivity|]. done.
        * exists id', ss', ws'. by rewrite lookup_insert_ne by done.
    - injection Hs as <- <-. unfold inv2. cbn [m_sets m_sessions m_counter].
      assert (Hkeep : forall w ws', m_sets s !! w = Some ws' -> <[wsid ws := ws]> (m_sets s) !! w = Some ws').
      { intros w ws' Hw. destruct (decide (wsid ws = w)) as [Heq|Hne]; [|by rewrite lookup_insert_ne].
        subst w. rewrite lookup_insert. apply H1 in Hw as [Heq [b Hb]]. f_equal.
        eapply Hnc; [exact Hop| |symmetry; exact Heq]. exact (Hsub _ Hb). }
      split; [|split].
      + intros w ws'. split.
        * destruct (decide (wsid ws = w)) as [Heq|Hne].
          -- subst w. rewrite lookup_insert. intros [= <-]. split; [done|]. exists a.
             apply elem_of_app; right; by apply elem_of_list_singleton.
          -- rewrite lookup_insert_ne by done. intros [-> [b Hb]]%H1. split; [done|]. exists b. apply elem_of_app; by left.
        * intros [<- [b [Hb|Hb%elem_of_list_singleton]%elem_of_app]].
          -- apply Hkeep, H1. eauto.
          -- injection Hb as -> ->. by rewrite lookup_insert.
      + intros id ss (? & ? & ws' & ? & ?)%H2. split_and!; [done|done|]. exists ws'. auto.
      + intros a' w' msg' chain' out [Hin|Hin%elem_of_list_singleton]%elem_of_app; [|done].
        apply H3 in Hin as (Hl' & id' & ss' & ws' & Hss' & Hx & Hy & Hz & Hu). split; [done|].
        exists id', ss', ws'. split_and!; auto.
    - apply register_key_ok in Hs as (Hl & -> & ->). unfold inv2. cbn [m_sets m_sessions m_counter].
      split; [|split].
      + intros w' ws''. rewrite H1. split; intros [-> [b' Hb]]; (split; [done|]); exists b'.
        * apply elem_of_app; by left.
        * apply elem_of_app in Hb as [?|Hb%elem_of_list_singleton]; [done|done].
      + intros id ss (? & ? & ws' & ? & ?)%H2. split_and!; [done|done|]. exists ws'. auto.
      + intros a' w' msg' chain' out [Hin|Hin%elem_of_list_singleton]%elem_of_app; [|done]. by eapply H3.
    - apply set_caller_ok in Hs as (Hg & -> & ->). unfold inv2. cbn [m_sets m_sessions m_counter].
      split; [|split].
      + intros w' ws''. rewrite H1. split; intros [-> [b' Hb]]; (split; [done|]); exists b'.
        * apply elem_of_app; by left.
        * apply elem_of_app in Hb as [?|Hb%elem_of_list_singleton]; [done|done].
      + intros id ss (? & ? & ws' & ? & ?)%H2. split_and!; [done|done|]. exists ws'. auto.
      + intros a' w' msg' chain' out [Hin|Hin%elem_of_list_singleton]%elem_of_app; [|done]. by eapply H3.
  Qed.

  (** Signatures and completion. *)
  Definition inv3 (s : mstate) (l : list (mop * mout)) : Prop :=
    (forall id, session_sigs s id = list_to_map (submissions l id)) /\
    (forall id, NoDup (signed_by l id)) /\
    (forall id, m_sessions s !! id = None -> submissions l id = [] /\ completions l id = []) /\
    (forall id ss ws a sg, m_sessions s !! id = Some ss -> m_sets s !! ss_wsid ss = Some ws ->
       (a, sg) ∈ submissions l id ->
       exists x, ws_signers ws !! a = Some x /\ good_signature crypto sg (ss_msg ss) (sg_key x)) /\
    (forall id ss ws, m_sessions s !! id = Some ss -> m_sets s !! ss_wsid ss = Some ws ->
       match ss_state ss with
       | MPending => completions l id = [] /\ ~ reached ws (signed_by l id)
       | MCompleted c => completions l id = [c] /\ reached ws (signed_by l id)
       end) /\
    (forall h a id b out, (SubmitSignature h a id b, out) ∈ l ->
       exists sig c, out = OutSigned (r, dec id, a) id a sig c /\ sig_bytes sig = b).

  Lemma inv3_step ops s l op s' out :
    no_collision wsid ops -> (forall e, e ∈ l -> e.1 ∈ ops) -> op ∈ ops ->
    inv1 s l -> inv2 s l -> inv3 s l -> step s op = Ok (s', out) -> inv3 s' (l ++ [(op, out)]).
  Proof.
    intros Hnc Hsub Hop I1 I2 (H1 & H2 & H3 & H4 & H5 & H6) Hs.
    assert (I2' : inv2 s' (l ++ [(op, out)])) by by eapply inv2_step.
    destruct op as [a w msg chain|h a id b|a ws|a t b|a auth c]; cbn [multisig_step] in Hs.
    2: {
      apply submit_ok in Hs as (ss & ws & sg & sig & Hss & Hws & Hsg & Hsig & Hgood & Hgr & Hnone & Hall & Hlt & -> & ->).
      assert (Hid : ss_id ss = id) by by apply I2.
      cbv zeta in I2' |- *. rewrite Hid in *.
      set (st := next_state ss ws (<[a:=sig]> (session_sigs s id)) h) in *.
      set (comp := match ss_state ss with MPending => match st with MPending => None | MCompleted c => Some c end | MCompleted _ => None end) in *.
      match goal with |- inv3 _ (l ++ [?e]) => set (ev := e) in * end.
      assert (Hsn : forall i, submissions (l ++ [ev]) i = submissions l i ++ if id =? i then [(a, sig)] else []).
      { intros i. unfold submissions. rewrite omap_app. f_equal. cbn. by destruct (id =? i). }
      assert (Hcn : forall i, completions (l ++ [ev]) i = completions l i ++ if id =? i then option_list comp else []).
      { intros i. unfold completions. rewrite omap_app. f_equal. cbn. destruct comp; cbn; by destruct (id =? i). }
      assert (Hfresh : a ∉ signed_by l id).
      { unfold signed_by. rewrite (H1 id) in Hnone. by apply not_elem_of_list_to_map_2. }
      assert (Hnd : forall i, NoDup (signed_by (l ++ [ev]) i)).
      { intros i. unfold signed_by. rewrite Hsn, fmap_app. destruct (id =? i) eqn:Hi; cbn.
        - apply N.eqb_eq in Hi as <-. apply NoDup_app. split; [apply H2|]. split.
          + intros x Hx ->%elem_of_list_singleton. done.
          + apply NoDup_singleton.
        - rewrite app_nil_r. apply H2. }
      unfold inv3. cbn [m_sets m_sessions]. split_and!.
      - intros i. unfold session_sigs at 1. cbn [m_sigs]. rewrite Hsn.
        destruct (N.eqb_spec id i) as [<-|Hne].
        + rewrite lookup_insert. cbn. rewrite H1. symmetry. by apply list_to_map_snoc_fresh.
        + rewrite lookup_insert_ne by done. rewrite app_nil_r. apply H1.
      - exact Hnd.
      - intros i. destruct (decide (id = i)) as [<-|Hne]; [by rewrite lookup_insert|].
        rewrite lookup_insert_ne by done. intros Hi. rewrite Hsn, Hcn.
        rewrite (proj2 (N.eqb_neq id i) Hne), !app_nil_r. auto.
      - intros i ss' ws' a' sg' Hss' Hws' Hin. rewrite Hsn in Hin. apply elem_of_app in Hin as [Hin|Hin].
        + destruct (decide (id = i)) as [<-|Hne].
          * rewrite lookup_insert in Hss'. injection Hss' as <-. cbn in *. eauto.
          * rewrite lookup_insert_ne in Hss' by done. eauto.
        + destruct (N.eqb_spec id i) as [<-|Hne]; [|by apply elem_of_nil in Hin].
          apply elem_of_list_singleton in Hin as [= -> ->].
          rewrite lookup_insert in Hss'. injection Hss' as <-. cbn in *.
          assert (ws' = ws) as -> by congruence. eauto.
      - intros i ss' ws' Hss' Hws'. rewrite Hcn. unfold signed_by. rewrite Hsn.
        destruct (N.eqb_spec id i) as [<-|Hne].
        + rewrite lookup_insert in Hss'. injection Hss' as <-. cbn [ss_state ss_wsid] in *.
          assert (ws' = ws) as -> by congruence.
          pose proof (H5 _ _ _ Hss Hws) as Hold.
          assert (Hsum : msum (fun a _ => weight_in ws a) (<[a:=sig]> (session_sigs s id)) =
                         lsum (weight_in ws) (submissions l id ++ [(a, sig)]).*1).
          { rewrite H1, <- list_to_map_snoc_fresh by done. rewrite msum_list_to_map; [done|].
            specialize (Hnd id). unfold signed_by in Hnd. rewrite Hsn in Hnd. by rewrite N.eqb_refl in Hnd. }
          subst comp. subst st. unfold next_state. rewrite Hsum.
          destruct (ss_state ss) as [|c].
          * destruct Hold as [-> Hn]. destruct (N.leb_spec (ws_threshold ws) (lsum (weight_in ws) (submissions l id ++ [(a, sig)]).*1)) as [Hle|Hgt]; cbn.
            -- split; [done|]. split; [|done]. rewrite fmap_app. cbn. by destruct ((submissions l id).*1).
            -- split; [done|]. intros [_ Hle]. lia.
          * destruct Hold as [-> [Hne Hle]]. split; [done|]. split.
            -- rewrite fmap_app. cbn. by destruct ((submissions l id).*1).
            -- rewrite fmap_app, lsum_app. unfold signed_by in Hle. lia.
        + rewrite lookup_insert_ne in Hss' by done. rewrite !app_nil_r. by apply H5.
      - intros h' a' id' b' out [Hin|Hin%elem_of_list_singleton]%elem_of_app; [eauto|].
        unfold ev in Hin. injection Hin as -> -> -> -> ->.
        destruct I1 as (_ & -> & _). exists sig, comp. split; [done|].
        apply signature_try_from_some in Hsig. apply Hsig. }
    all: lazymatch goal with |- inv3 _ (?l ++ [?e]) => assert (Hsn : forall i, submissions (l ++ [e]) i = submissions l i)
        by (intros i; unfold submissions; rewrite omap_app; cbn; apply app_nil_r) end.
    1: apply start_ok in Hs as (ws & Ha & Hl & Hw & Hlt & -> & ->).
    2: injection Hs as <- <-.
    3: apply register_key_ok in Hs as (Hl & -> & ->).
    4: apply set_caller_ok in Hs as (Hg & -> & ->).
    all: lazymatch goal with |- inv3 _ (?l ++ [?e]) => assert (Hcn : forall i, completions (l ++ [e]) i = completions l i)
        by (intros i; unfold completions; rewrite omap_app; cbn; apply app_nil_r) end.
    all: unfold inv3, signed_by; cbn [m_sets m_sessions]; setoid_rewrite Hsn; setoid_rewrite Hcn.
    all: (split; [exact H1|]); (split; [exact H2|]).
    all: lazymatch goal with |- ?A /\ ?B /\ ?C /\ ?D => assert D end;
      [intros ????? [Hin|Hin%elem_of_list_singleton]%elem_of_app; [eauto|done]|].
    2: { (* registering a worker set *)
      split_and!; [exact H3| | |done].
      - intros id ss ws' a' sg' Hss Hws' Hin.
        assert (Hx : ws' = ws'). done.
        destruct (proj1 (proj2 I2) _ _ Hss) as (_ & _ & ws0 & Hw0 & _).
        destruct (proj1 (proj2 I2') _ _ Hss) as (_ & _ & ws1 & Hw1 & _). cbn [m_sets] in Hw1.
        rewrite Hws' in Hw1. injection Hw1 as <-.
        assert (ws' = ws0) as ->.
        { destruct (proj1 (proj1 I2 _ _) Hw0) as [He [b0 Hb0]].
          destruct (proj1 (proj1 I2' (ss_wsid ss) ws') Hws') as [He' [b1 Hb1]].
          eapply Hnc; [| |by rewrite He, He'].
          - apply elem_of_app in Hb1 as [Hb1|Hb1%elem_of_list_singleton]; [exact (Hsub _ Hb1)|].
            injection Hb1 as -> ->. exact Hop.
          - exact (Hsub _ Hb0). }
        eauto.
      - intros id ss ws' Hss Hws'.
        destruct (proj1 (proj2 I2) _ _ Hss) as (_ & _ & ws0 & Hw0 & _).
        assert (ws' = ws0) as ->.
        { destruct (proj1 (proj1 I2 _ _) Hw0) as [He [b0 Hb0]].
          destruct (proj1 (proj1 I2' (ss_wsid ss) ws') Hws') as [He' [b1 Hb1]].
          eapply Hnc; [| |by rewrite He, He'].
          - apply elem_of_app in Hb1 as [Hb1|Hb1%elem_of_list_singleton]; [exact (Hsub _ Hb1)|].
            injection Hb1 as -> ->. exact Hop.
          - exact (Hsub _ Hb0). }
        rewrite Hsn, Hcn. by apply H5. }
    2: split_and!; [exact H3|exact H4|intros id ss ws; rewrite Hsn, Hcn; apply H5|done].
    2: split_and!; [exact H3|exact H4|intros id ss ws; rewrite Hsn, Hcn; apply H5|done].
    (* starting a session *)
    assert (Hnew : m_sessions s !! (m_counter s + 1) = None).
    { destruct (m_sessions s !! (m_counter s + 1)) as [ss|] eqn:Hss; [|done]. apply I2 in Hss. lia. }
    destruct (H3 _ Hnew) as [Hs0 Hc0].
    split_and!; [| | |done].
    - intros id Hid. apply H3. destruct (decide (id = m_counter s + 1)) as [->|Hne]; [done|].
      by rewrite lookup_insert_ne in Hid by done.
    - intros id ss ws' a' sg' Hss Hws' Hin. destruct (decide (id = m_counter s + 1)) as [->|Hne].
      + rewrite Hs0 in Hin. by apply elem_of_nil in Hin.
      + rewrite lookup_insert_ne in Hss by done. eauto.
    - intros id ss ws' Hss Hws'. rewrite Hsn, Hcn. destruct (decide (id = m_counter s + 1)) as [->|Hne].
      + rewrite lookup_insert in Hss. injection Hss as <-. cbn. split; [done|]. rewrite Hs0. by intros [? _].
      + rewrite lookup_insert_ne in Hss by done. by apply H5.
  Qed.

  Lemma inv2_init : inv2 (multisig_init g r p) [].
  Proof.
    unfold inv2. cbn. split_and!.
    - intros w ws. rewrite lookup_empty. split; [done|]. intros [_ [b Hb]]. by apply elem_of_nil in Hb.
    - intros id ss. by rewrite lookup_empty.
    - intros a w msg chain out Hin. by apply elem_of_nil in Hin.
  Qed.
  Lemma inv3_init : inv3 (multisig_init g r p) [].
  Proof.
    unfold inv3. split_and!.
    - done.
    - intros id. constructor.
    - done.
    - intros id ss ws a sg _ _ Hin. by apply elem_of_nil in Hin.
    - intros id ss ws Hss. cbn [multisig_init m_sessions] in Hss. by rewrite lookup_empty in Hss.
    - intros h a id b out Hin. by apply elem_of_nil in Hin.
  Qed.

  Lemma inv_run ops :
    no_collision wsid ops ->
    inv1 (mrun wsid crypto g r p ops) (mlog wsid crypto g r p ops) /\
    inv2 (mrun wsid crypto g r p ops) (mlog wsid crypto g r p ops) /\
    inv3 (mrun wsid crypto g r p ops) (mlog wsid crypto g r p ops).
  Proof.
    intros Hnc. unfold mrun, mlog.
    enough (H : (fun s l => (forall e, e ∈ l -> e.1 ∈ ops) /\ inv1 s l /\ inv2 s l /\ inv3 s l)
                  (run step (multisig_init g r p) ops) (log step (multisig_init g r p) ops)) by apply H.
    apply (run_log_inv_ops step (fun op => op ∈ ops)).
    - apply Forall_forall. auto.
    - split; [intros e He; by apply elem_of_nil in He|]. split; [apply inv1_init|].
      split; [apply inv2_init|apply inv3_init].
    - intros s l op s' out Hop (Hsub & I1 & I2 & I3) Hs.
      split; [|split; [by eapply inv1_step|split; [by eapply inv2_step|by eapply inv3_step]]].
      intros e [He|He%elem_of_list_singleton]%elem_of_app; [auto|]. by subst e.
  Qed.
End Inv.
