(** The composed history is a history of each contract. *)
From stdpp Require Import sorting.
From Verif Require Import Base BaseLemmas MapLemmas Text StdModel StdSpec StdProofs RegistryTypes RouterTypes
  MultisigTypes OperatorsModel MultisigModel MultisigSpec MultisigProofs MultisigProofs2 MultisigProofs3
  EncodingModel EncodingSpec EncodingProofs4 EncodingProofs5 ProverModel ProverSpec ProverProofs ProverProofs2
  ProverProofs3 ProverProofs4 SigningModel SigningSpec.

(** ** The batch last made under an id *)
Section LastBuilt.
  Context (keccak : string -> string) (wshash : worker_set -> string) (sec1 : string -> option string).
  Notation built := (last_built keccak wshash sec1).
  Notation builds := (builds keccak wshash sec1).

  Lemma last_built_snoc c l op out bid b : built c (l ++ [(op, out)]) bid b <->
    (builds c l op b /\ b_id b = bid) \/ (built c l bid b /\ forall b', builds c l op b' -> b_id b' <> bid).
  Proof.
    split.
    - intros (l1 & o1 & x1 & l2 & Hl & Hb & Hid & Hlast). destruct l2 as [|[o2 x2] l2 _] using rev_ind.
      + apply app_inj_tail in Hl as [-> [= -> ->]]. by left.
      + rewrite app_comm_cons, app_assoc in Hl. apply app_inj_tail in Hl as [-> [= <- <-]]. right. split.
        * exists l1, o1, x1, l2. split_and!; try done. intros la o' x' lb b' -> Hb'.
          apply (Hlast la o' x' (lb ++ [(op, out)]) b'); [|done]. by rewrite <- app_assoc.
        * intros b' Hb'. apply (Hlast l2 op out [] b'); done.
    - intros [[Hb <-]|[(l1 & o1 & x1 & l2 & -> & Hb & Hid & Hlast) Hno]].
      + exists l, op, out, []. split_and!; try done. intros la ? ? lb ? Hl. by destruct la.
      + exists l1, o1, x1, (l2 ++ [(op, out)]). rewrite <- app_assoc. split_and!; try done.
        intros la op' out' lb b' Hl Hbu'. destruct lb as [|z lb _] using rev_ind.
        * apply app_inj_tail in Hl as [-> [= -> ->]]. by apply Hno.
        * rewrite app_comm_cons, app_assoc in Hl. apply app_inj_tail in Hl as [-> _]. by eapply Hlast.
  Qed.

  Lemma last_built_unique c l bid b b' : built c l bid b -> built c l bid b' -> b = b'.
  Proof.
    induction l as [|[op out] l IH] using rev_ind.
    - intros (l1 & ? & ? & ? & Hl & _). by destruct l1.
    - rewrite !last_built_snoc. intros [[H1 E1]|[H1 N1]] [[H2 E2]|[H2 N2]].
      + by eapply builds_unique.
      + by destruct (N2 _ H1).
      + by destruct (N1 _ H2).
      + auto.
  Qed.

  Lemma last_built_kept c l l2 bid b : built c l bid b -> not_rebuilt keccak wshash sec1 c l l2 bid ->
    built c (l ++ l2) bid b.
  Proof.
    intros Hb. induction l2 as [|[op out] l2 IH] using rev_ind; intros Hn; [by rewrite app_nil_r|].
    rewrite app_assoc. apply last_built_snoc. right. split.
    - apply IH. intros ka o x kb b' -> Hb'. apply (Hn ka o x (kb ++ [(op, out)]) b'); [|done].
      by rewrite <- app_assoc.
    - intros b' Hb'. apply (Hn l2 op out [] b'); done.
  Qed.
End LastBuilt.

Section Signing.
  Context (keccak : string -> string) (wshash : worker_set -> string)
          (sec1 : string -> option string) (recover : string -> string -> string -> option N)
          (crypto : key_type -> string -> string -> string -> option bool).
  Context (c : pconfig) (me g r : addr) (p : N).
  Notation step := (signing_step keccak wshash sec1 crypto c me).
  Notation run_ := (srun keccak wshash sec1 crypto c me g r p).
  Notation log_ := (slog keccak wshash sec1 crypto c me g r p).
  Notation wsid := (worker_set_id wshash).
  Notation mrun := (mrun wsid crypto g r p).
  Notation mlog := (mlog wsid crypto g r p).
  Notation prun := (prun keccak wshash sec1 c).
  Notation plog := (plog keccak wshash sec1 c).
  Notation session_start := (session_start keccak wshash sec1 c).

  Lemma multisig_trace_snoc l e : multisig_trace (l ++ [e]) = multisig_trace l ++ [(so_mop e.2, so_mout e.2)].
  Proof. unfold multisig_trace. by rewrite fmap_app. Qed.
  Lemma prover_trace_snoc l e : prover_trace (l ++ [e]) =
    prover_trace l ++ match so_prover e.2 with Some x => [x] | None => [] end.
  Proof. unfold prover_trace. rewrite omap_app. cbn. by destruct (so_prover e.2). Qed.

  Record sinv (s : ssys) (l : list (sop * sout)) : Prop := {
    si_mrun : sy_multisig s = mrun (multisig_trace l).*1;
    si_mlog : mlog (multisig_trace l).*1 = multisig_trace l;
    si_prun : sy_prover s = prun (prover_trace l).*1;
    si_plog : plog (prover_trace l).*1 = prover_trace l;
    si_cur : forall ws, pv_current (sy_prover s) = Some ws -> (RegisterWorkerSet me ws, OutNone) ∈ multisig_trace l;
    si_start : forall k1 e k2 bid id, prover_trace l = k1 ++ e :: k2 -> px_event e.2 = Some (bid, id) ->
      exists cur b, b_id b = bid /\ session_start k1 e id cur b /\
        exists digest, msg_digest keccak b = Ok digest /\ started_with wsid (multisig_trace l) id digest cur;
  }.

  (** A step of the system is a step of each contract. *)
  Lemma signing_step_ok s op s' out : step s op = Ok (s', out) ->
    multisig_step wsid crypto (sy_multisig s) (so_mop out) = Ok (sy_multisig s', so_mout out) /\
    match so_prover out with
    | Some (po, px) => prover_step keccak wshash sec1 c (sy_prover s) po = Ok (sy_prover s', px) /\
        so_mop out = message_op me (px_msg px) /\
        match px_event px with Some (_, id) => response_data (so_mout out) = Some id | None => True end
    | None => sy_prover s' = sy_prover s
    end.
  Proof.
    destruct op as [call env|mo]; cbn [signing_step].
    - intros H. apply rbind_ok in H as ([p1 m] & He & H). apply map_err_ok in He.
      apply rbind_ok in H as ([ms o] & Hm & H). apply map_err_ok in Hm.
      destruct m as [to id dg ch|to ws].
      + apply rbind_ok in H as ([p2 ev] & Hr & H). apply map_err_ok in Hr. injection H as <- <-. cbn.
        split; [done|]. unfold prover_step. cbn [po_env po_call po_multisig]. rewrite He. cbn [rbind of_option].
        rewrite Hr. cbn. split; [done|]. split; [done|].
        unfold prover_reply in Hr. res_inv. subst. cbn. done.
      + injection H as <- <-. cbn. split; [done|]. unfold prover_step. cbn [po_env po_call po_multisig].
        rewrite He. done.
    - intros H. apply rbind_ok in H as ([ms o] & Hm & H). apply map_err_ok in Hm. injection H as <- <-. done.
  Qed.

  Lemma started_with_app l e id msg ws : started_with wsid l id msg ws -> started_with wsid (l ++ [e]) id msg ws.
  Proof.
    intros (a & ch & keys & b & H1 & H2). exists a, ch, keys, b. split; apply elem_of_app; by left.
  Qed.

  Lemma start_out s a id msg ch s' o : multisig_step wsid crypto s (StartSession a id msg ch) = Ok (s', o) ->
    exists n keys, o = OutStarted n id keys msg ch.
  Proof.
    cbn. unfold start_session. intros H. res_inv. subst.
    unfold msg_to_sign_of in *. repeat case_match; simplify_eq/=. eauto.
  Qed.

  Lemma signing_inv s l op s' out : sinv s l -> step s op = Ok (s', out) -> sinv s' (l ++ [(op, out)]).
  Proof.
    intros [H1 H2 H3 H4 H5 H6] Hs. apply signing_step_ok in Hs as [Hm Hp].
    assert (forall ws, (RegisterWorkerSet me ws, OutNone) ∈ multisig_trace l ->
      (RegisterWorkerSet me ws, OutNone) ∈ multisig_trace (l ++ [(op, out)])) as Hkeep.
    { intros ws Hw. rewrite multisig_trace_snoc. apply elem_of_app. by left. }
    destruct (so_prover out) as [[po px]|] eqn:Eo.
    - destruct Hp as (Hp & Hmsg & Hev).
      assert (prover_trace (l ++ [(op, out)]) = prover_trace l ++ [(po, px)]) as Et.
      { rewrite prover_trace_snoc. cbn. by rewrite Eo. }
      assert (pinv keccak wshash sec1 c (sy_prover s) (prover_trace l)) as Hpi.
      { pose proof (pinv_run keccak wshash sec1 c (prover_trace l).*1) as Hi. by rewrite H4, <- H3 in Hi. }
      pose proof (step_effect _ _ _ _ _ _ _ _ Hp) as Heff.
      constructor.
      + rewrite multisig_trace_snoc, fmap_app. cbn. unfold MultisigSpec.mrun. rewrite run_snoc. unfold exec.
        unfold MultisigSpec.mrun in H1. by rewrite <- H1, Hm.
      + rewrite multisig_trace_snoc, fmap_app. cbn. unfold MultisigSpec.mlog. rewrite log_snoc. unfold log1.
        unfold MultisigSpec.mrun in H1. unfold MultisigSpec.mlog in H2. by rewrite <- H1, Hm, H2.
      + rewrite Et, fmap_app. cbn. unfold ProverSpec.prun. rewrite run_snoc. unfold exec.
        unfold ProverSpec.prun in H3. by rewrite <- H3, Hp.
      + rewrite Et, fmap_app. cbn. unfold ProverSpec.plog. rewrite log_snoc. unfold log1.
        unfold ProverSpec.prun in H3. unfold ProverSpec.plog in H4. by rewrite <- H3, Hp, H4.
      + intros ws Hws. destruct Heff as [w Hcall Hcur Hw|w o Hcall Hnext Ho Hver|? ? ? ? ? ? Hcall Hcur _ _ _
           |? ? ? ? ? ? ? ? Hcall Hcur _ _ _ _ [_ ->] _|? ? ? ? ? ? Hcall Hcur _ _ _ [_ ->] _]; cbn in Hws;
          try (by apply Hkeep, H5); injection Hws as <-; cbn in Hmsg; rewrite Hmsg in Hm; cbn in Hm;
          injection Hm as _ Ho'; rewrite multisig_trace_snoc; cbn; rewrite Hmsg, <- Ho';
          apply elem_of_app; right; by left.
      + rewrite Et. intros k1 e k2 bid id Hl He. destruct k2 as [|z k2 _] using rev_ind.
        * apply app_inj_tail in Hl as [<- <-]. cbn in He, Hev. rewrite He in Hev.
          assert (exists cur b, b_id b = bid /\ pv_current (sy_prover s) = Some cur /\ asks_to_sign keccak wshash c px cur b id /\
            pv_batches (sy_prover s') !! bid = Some b) as (cur & b & Hb & Hcur & Hask & Hst).
          { destruct Heff as [w Hcall Hcur Hw|w o Hcall Hnext Ho Hver|? cur ? b i px Hcall Hcur _ Hbb Hask
              |? cur ? ? b i ? px Hcall Hcur _ _ _ _ [_ ->] Hask|cur ? b i ? px Hcall Hcur _ _ _ [_ ->] Hask]; try done;
              exists cur, b; destruct (Hask) as (dg & Hd1 & Hd2 & Hd3); rewrite Hd3 in He; injection He as <- <-;
              (split; [done|]; split; [done|]; split; [done|]); cbn; [|by rewrite lookup_insert..].
            destruct (pi_made _ _ _ _ _ _ Hpi _ _ Hbb) as [-> _]. done. }
          exists cur, b. split; [done|].
          pose proof (pi_sets _ _ _ _ _ _ Hpi) as Hsets. rewrite Hcur in Hsets.
          split; [split; [by eexists|split; [done|]]|].
          -- rewrite Hb. assert (pv_batches (prun ((prover_trace l).*1 ++ [po])) !! bid = Some b) as Hst'.
             { unfold ProverSpec.prun. rewrite run_snoc. unfold exec. unfold ProverSpec.prun in H3.
               by rewrite <- H3, Hp. }
             apply batches_built in Hst'. replace (plog ((prover_trace l).*1 ++ [po])) with (prover_trace l ++ [(po, px)]) in Hst'; [done|].
             unfold ProverSpec.plog. rewrite log_snoc. unfold log1.
             unfold ProverSpec.prun in H3. unfold ProverSpec.plog in H4. by rewrite <- H3, Hp, H4.
          -- destruct Hask as (dg & Hd1 & Hd2 & Hd3). exists dg. split; [done|].
             rewrite Hd2 in Hmsg. cbn in Hmsg. rewrite Hmsg in Hm.
             destruct (start_out _ _ _ _ _ _ _ Hm) as (n & keys & Ho). rewrite Ho in Hev. injection Hev as <-.
             exists me, (pc_chain c), keys, me. rewrite multisig_trace_snoc. cbn. rewrite Hmsg, Ho.
             split; [apply elem_of_app; right; by left|]. apply elem_of_app. left. by apply H5.
        * rewrite app_comm_cons, app_assoc in Hl. apply app_inj_tail in Hl as [Hl _].
          destruct (H6 _ _ _ _ _ Hl He) as (cur & b & Hb & Hst & dg & Hdg & Hw). exists cur, b. split; [done|].
          split; [done|]. exists dg. split; [done|]. rewrite multisig_trace_snoc. by apply started_with_app.
    - assert (prover_trace (l ++ [(op, out)]) = prover_trace l) as Et.
      { rewrite prover_trace_snoc. cbn. by rewrite Eo, app_nil_r. }
      constructor; try (rewrite Et; rewrite ?Hp; done).
      + rewrite multisig_trace_snoc, fmap_app. cbn. unfold MultisigSpec.mrun. rewrite run_snoc. unfold exec.
        unfold MultisigSpec.mrun in H1. by rewrite <- H1, Hm.
      + rewrite multisig_trace_snoc, fmap_app. cbn. unfold MultisigSpec.mlog. rewrite log_snoc. unfold log1.
        unfold MultisigSpec.mrun in H1. unfold MultisigSpec.mlog in H2. by rewrite <- H1, Hm, H2.
      + intros ws Hws. rewrite Hp in Hws. by apply Hkeep, H5.
      + rewrite Et. intros k1 e k2 bid id Hl He.
        destruct (H6 _ _ _ _ _ Hl He) as (cur & b & Hb & Hst & dg & Hdg & Hw). exists cur, b. split; [done|].
        split; [done|]. exists dg. split; [done|]. rewrite multisig_trace_snoc. by apply started_with_app.
  Qed.

  Lemma sinv_run ops : sinv (run_ ops) (log_ ops).
  Proof.
    unfold srun, slog. apply (run_log_inv step sinv).
    - constructor; try done. cbn. intros k1 e k2 bid id Hl. by destruct k1.
    - intros. by eapply signing_inv.
  Qed.
End Signing.
