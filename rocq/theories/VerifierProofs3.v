From Verif Require Import Base BaseLemmas Text TextLemmas StdModel StdSpec StdProofs
  RouterTypes RegistryTypes OperatorsModel VerifierModel VerifierSpec VerifierProofs VerifierProofs2.

Lemma poll_after_ballot t l0 snap id expires size ops a :
  snapshot_new (E:=verror) t l0 = Ok snap ->
  stored_ballot (poll_after snap id expires size ops) a =
  match s_participants snap !! a with
  | Some _ => first_ballot expires size ops a | None => None end.
Proof.
  intros Hs. apply (snapshot_new_err_irrel (F:=unit)) in Hs.
  destruct (c03 t l0 snap id expires size ops Hs) as (_ & _ & H1 & H2).
  destruct (s_participants snap !! a) eqn:Ha; [apply H1; eauto|by apply H2].
Qed.

Section Proofs.
  Context (k : string -> string) (cfg : vconfig).
  Local Notation inv := (inv k cfg).

  (** *** C11 *)
  Definition ballots (s : vstate) (l : list (vop * vout)) : Prop :=
    forall id a b, (exists h out, (Vote h a id b, out) ∈ l) <->
      (exists vp, v_polls s !! id = Some vp /\ stored_ballot (vpoll_poll vp) a = Some b).

  Lemma ballots_open s l op out id vp :
    inv s l -> ballots s l -> (forall h a i b, op <> Vote h a i b) -> v_polls s !! id = None ->
    (forall a, stored_ballot (vpoll_poll vp) a = None) ->
    forall i a b, (exists h out', (Vote h a i b, out') ∈ l ++ [(op, out)]) <->
      (exists vp', <[id:=vp]> (v_polls s) !! i = Some vp' /\ stored_ballot (vpoll_poll vp') a = Some b).
  Proof.
    intros Hinv HJ Hop Hid Hnew i a b.
    assert ((exists h out', (Vote h a i b, out') ∈ l ++ [(op, out)]) <->
            (exists h out', (Vote h a i b, out') ∈ l)) as ->.
    { split; intros (h & o & H); exists h, o; [|apply elem_of_app; by left].
      apply elem_of_app in H as [H|H]; [done|]. apply elem_of_list_singleton in H. exfalso.
      injection H as H _. by eapply Hop. }
    rewrite (HJ i a b). destruct (decide (id = i)) as [<-|Hne].
    - rewrite lookup_insert, Hid. split; [naive_solver|]. intros (vp' & [= <-] & H). by rewrite Hnew in H.
    - by rewrite lookup_insert_ne.
  Qed.

  Lemma ballots_new id snap expires size a :
    stored_ballot (poll_new id snap expires size) a = None.
  Proof.
    unfold stored_ballot, poll_new. cbn. rewrite lookup_fmap. by destruct (s_participants snap !! a).
  Qed.

  Lemma ballots_step s l op s' out :
    inv s l -> ballots s l -> verifier_step k s op = Ok (s', out) -> ballots s' (l ++ [(op, out)]).
  Proof.
    intros Hinv HJ Hstep. pose proof Hinv as [Hc Hp Hm Hw]. unfold ballots in *.
    assert (v_polls s !! (v_poll_id s + 1) = None) as Hfresh.
    { destruct (v_polls s !! (v_poll_id s + 1)) as [vp|] eqn:Hvp; [|done]. apply Hp in Hvp as [? _]. lia. }
    destruct op as [h reg ms|h reg mid o|h a id vs|h id]; cbn in Hstep.
    - apply verify_messages_ok in Hstep as (Hne & Hch & statuses & Hst & [(Ht & -> & ->)|(Ht & Hopen)]).
      + intros id a b. rewrite <- (HJ id a b). split; intros (h' & o & H); exists h', o; [|apply elem_of_app; by left].
        apply elem_of_app in H as [H|H]; [done|]. by apply elem_of_list_singleton in H.
      + destruct Hopen as (workers & snap & tbl & events & Hreg & Hsn & Hid & Hex & Htbl & Hev & -> & ->).
        intros id a b. eapply ballots_open; eauto. intros; apply ballots_new.
    - apply verify_worker_set_ok in Hstep as (st & workers & snap & tx & idx & Hst & Hnv & Hreg & Hsn & Hpm & -> & ->).
      intros id a b. eapply ballots_open; eauto. intros; apply ballots_new.
    - apply verifier_vote_ok in Hstep as (vp & p' & Hid & Hv & -> & ->).
      destruct (Hp _ _ Hid) as [_ (l1 & e & l2 & ex & ws & x & snap & [Hl Ho Hs Hpo _ _])].
      assert (p' = poll_after snap id ex (subject_size x) (poll_ops id l2 ++ [PVote h a vs])) as Hp'.
      { apply poll_step_run. cbn. subst vp. rewrite subject_poll_poll in Hv. by rewrite Hv. }
      assert (vpoll_poll (match vp with MessagesPoll _ => MessagesPoll p' | WorkerSetPoll _ => WorkerSetPoll p' end) = p')
        as Hpp by (by destruct vp).
      rewrite Hpo, subject_poll_poll in Hv.
      assert (is_ok (poll_cast_vote (poll_after snap id ex (subject_size x) (poll_ops id l2)) h a vs) = true) as Hok
        by (by rewrite Hv).
      apply poll_after_vote_iff in Hok as ([w Hw'] & Hh & Hlen & Hnone); [|exact (snapshot_sum_lt _ _ _ Hs)].
      intros i c b. cbn. destruct (decide (i = id)) as [->|Hne].
      + rewrite lookup_insert. split.
        * intros (h' & o & H). eexists. split; [done|]. rewrite Hpp, Hp'.
          rewrite (poll_after_ballot _ _ _ _ _ _ _ _ Hs), first_ballot_app.
          apply elem_of_app in H as [H|H].
          -- assert (exists vp', v_polls s !! id = Some vp' /\ stored_ballot (vpoll_poll vp') c = Some b) as (vp' & Hvp' & Hb)
               by (apply HJ; eauto).
             rewrite Hid in Hvp'. injection Hvp' as <-. rewrite Hpo, subject_poll_poll in Hb.
             rewrite (poll_after_ballot _ _ _ _ _ _ _ _ Hs) in Hb.
             destruct (s_participants snap !! c); [|done]. by rewrite Hb.
          -- apply elem_of_list_singleton in H. injection H as -> -> -> _. rewrite Hw', Hnone. cbn.
             rewrite bool_decide_eq_true_2 by done. rewrite (proj2 (N.ltb_lt _ _) Hh).
             rewrite (proj2 (Nat.eqb_eq _ _) Hlen). done.
        * intros (vp' & [= <-] & Hb). rewrite Hpp, Hp' in Hb.
          rewrite (poll_after_ballot _ _ _ _ _ _ _ _ Hs), first_ballot_app in Hb.
          destruct (s_participants snap !! c) eqn:Hpc; [|done].
          destruct (first_ballot ex (subject_size x) (poll_ops id l2) c) as [b'|] eqn:Hfb.
          -- injection Hb as ->. assert (exists h out, (Vote h c id b, out) ∈ l) as (h' & o' & H').
             { apply HJ. exists vp. split; [done|]. rewrite Hpo, subject_poll_poll.
               rewrite (poll_after_ballot _ _ _ _ _ _ _ _ Hs), Hpc. done. }
             exists h', o'. apply elem_of_app. by left.
          -- cbn in Hb. destruct (bool_decide (a = c)) eqn:Hac; [|done].
             apply bool_decide_eq_true in Hac as ->.
             destruct (_ && _); [|done]. injection Hb as ->. exists h, (OutVoted id c).
             apply elem_of_app. right. by apply elem_of_list_singleton.
      + rewrite lookup_insert_ne by done. rewrite <- (HJ i c b).
        split; intros (h' & o & H); exists h', o; [|apply elem_of_app; by left].
        apply elem_of_app in H as [H|H]; [done|]. apply elem_of_list_singleton in H. by injection H as ? ? ? ?.
    - apply verifier_end_poll_ok in Hstep as (vp & p' & Hid & Hv & -> & ->).
      destruct (Hp _ _ Hid) as [_ (l1 & e & l2 & ex & ws & x & snap & [Hl Ho Hs Hpo _ _])].
      assert (p' = poll_after snap id ex (subject_size x) (poll_ops id l2 ++ [PFinish h])) as Hp'.
      { apply poll_step_run. cbn. subst vp. rewrite subject_poll_poll in Hv. by rewrite Hv. }
      assert (forall a, stored_ballot (vpoll_poll (match vp with MessagesPoll _ => MessagesPoll p' | WorkerSetPoll _ => WorkerSetPoll p' end)) a
        = stored_ballot (vpoll_poll vp) a) as Hsame.
      { intros a. assert (vpoll_poll (match vp with MessagesPoll _ => MessagesPoll p' | WorkerSetPoll _ => WorkerSetPoll p' end) = p')
          as -> by (by destruct vp).
        rewrite Hp', Hpo, subject_poll_poll, !(poll_after_ballot _ _ _ _ _ _ _ _ Hs), first_ballot_app. cbn.
        destruct (s_participants snap !! a); [|done]. by destruct (first_ballot _ _ _ a). }
      intros i a b. assert ((exists h0 out, (Vote h0 a i b, out) ∈ l ++ [(EndPoll h id, OutEnded
              ((fun a => (vc_rewards (v_config s), dec id, a)) <$> ps_consensus_participants (poll_state_of p'))
              (poll_state_of p'))]) <->
              (exists h0 out, (Vote h0 a i b, out) ∈ l)) as ->.
      { split; intros (h' & o & H); exists h', o; [|apply elem_of_app; by left].
        apply elem_of_app in H as [H|H]; [done|]. by apply elem_of_list_singleton in H. }
      rewrite (HJ i a b). cbn. destruct (decide (id = i)) as [<-|Hne].
      + rewrite lookup_insert. split.
        * intros (vp' & Hvp' & Hb). eexists. split; [done|]. rewrite Hsame. congruence.
        * intros (vp' & [= <-] & Hb). exists vp. split; [done|]. by rewrite <- Hsame.
      + by rewrite lookup_insert_ne.
  Qed.

  Lemma ballots_run ops : ballots (vrun k cfg ops) (vlog k cfg ops).
  Proof.
    cut (inv (vrun k cfg ops) (vlog k cfg ops) /\ ballots (vrun k cfg ops) (vlog k cfg ops)); [tauto|].
    unfold vrun, vlog. apply (run_log_inv _ (fun s l => inv s l /\ ballots s l)).
    - split; [apply inv_init|]. intros id a b. cbn. split.
      + intros (h & o & H). set_solver.
      + intros (vp & H & _). by rewrite lookup_empty in H.
    - intros s l op s' out [Hi HJ] Hstep. split; [by eapply inv_step|by eapply ballots_step].
  Qed.

  Lemma c11_reports ops l1 h id recs res l2 :
    vlog k cfg ops = l1 ++ (EndPoll h id, OutEnded recs res) :: l2 ->
    exists parts, recs = (fun a => (vc_rewards cfg, dec id, a)) <$> parts /\ NoDup parts /\
      ps_poll_id res = id /\
      forall a, a ∈ parts <->
        exists h' ballot out, (Vote h' a id ballot, out) ∈ l1 /\
          forall i v, ps_results res !! i = Some (Some v) -> ballot !! i = Some v.
  Proof.
    intros Hl. apply log_split in Hl as (ops1 & ops2 & s' & -> & <- & Hstep & _).
    change (run (verifier_step k) (verifier_init cfg) ops1) with (vrun k cfg ops1) in Hstep.
    change (log (verifier_step k) (verifier_init cfg) ops1) with (vlog k cfg ops1).
    pose proof (inv_run k cfg ops1) as [Hc Hp _ _]. pose proof (ballots_run ops1) as HJ.
    cbn in Hstep. apply verifier_end_poll_ok in Hstep as (vp & p' & Hid & Hv & _ & Hout).
    injection Hout as -> ->. rewrite Hc.
    destruct (Hp _ _ Hid) as [_ (l1 & e & l2' & ex & ws & x & snap & [_ Ho Hs Hpo _ _])].
    assert (p' = poll_after snap id ex (subject_size x) (poll_ops id l2' ++ [PFinish h])) as Hp'.
    { apply poll_step_run. cbn. subst vp. rewrite subject_poll_poll in Hv. by rewrite Hv. }
    rewrite Hp'. pose proof (snapshot_new_err_irrel (F:=unit) _ _ _ Hs) as Hsu.
    destruct (c06 (E:=unit) _ _ _ id ex (subject_size x) (poll_ops id l2' ++ [PFinish h]) Hsu)
      as (Hnd & Hin & Hpid & _ & Hres).
    eexists. split; [reflexivity|]. split_and!; [done|done|].
    intros a. rewrite Hin. split.
    - intros ([w Hpart] & b & Hfb & Hag).
      assert (exists h out, (Vote h a id b, out) ∈ vlog k cfg ops1) as (h' & o' & H').
      { apply HJ. exists vp. split; [done|]. rewrite Hpo, subject_poll_poll.
        rewrite (poll_after_ballot _ _ _ _ _ _ _ _ Hs), Hpart.
        rewrite first_ballot_app in Hfb. by destruct (first_ballot _ _ (poll_ops id l2') a). }
      exists h', b, o'. split; [done|]. intros i v Hi. apply Hag. by apply Hres.
    - intros (h' & b & o' & Hvote & Hag).
      assert (exists vp, v_polls (vrun k cfg ops1) !! id = Some vp /\ stored_ballot (vpoll_poll vp) a = Some b)
        as (vp' & Hvp' & Hb) by (apply HJ; eauto).
      rewrite Hid in Hvp'. injection Hvp' as <-. rewrite Hpo, subject_poll_poll in Hb.
      rewrite (poll_after_ballot _ _ _ _ _ _ _ _ Hs) in Hb.
      destruct (s_participants snap !! a) as [w|] eqn:Hpart; [|done]. split; [eauto|].
      exists b. split; [by rewrite first_ballot_app, Hb|]. intros i v Hi. apply Hag. by apply Hres.
  Qed.

  Definition finished_inv (s : vstate) (l : list (vop * vout)) : Prop :=
    (forall id, id ∈ ended l -> exists vp, v_polls s !! id = Some vp /\ poll_status_ (vpoll_poll vp) = Finished) /\
    NoDup (ended l) /\ NoDup (all_reported l) /\
    (forall r, r ∈ all_reported l -> exists id, id ∈ ended l /\ r.1.2 = dec id).

  Lemma finished_stays s l op s' out id vp :
    inv s l -> verifier_step k s op = Ok (s', out) ->
    v_polls s !! id = Some vp -> poll_status_ (vpoll_poll vp) = Finished ->
    (exists vp', v_polls s' !! id = Some vp' /\ poll_status_ (vpoll_poll vp') = Finished) /\
    forall h, op <> EndPoll h id.
  Proof.
    intros Hinv Hstep Hvp Hf. pose proof Hinv as [Hc Hp Hm Hw].
    assert (forall pop p', poll_step (vpoll_poll vp) pop = Ok (p', ()) ->
      poll_status_ p' = Finished /\ forall h, pop <> PFinish h) as Hkeep.
    { intros pop p' Hps. destruct (Hp _ _ Hvp) as [_ (l1 & e & l2 & ex & ws & x & snap & [Hl Ho Hs Hpo _ _])].
      subst vp. rewrite subject_poll_poll in *. pose proof (poll_step_run _ _ _ _ _ _ _ Hps) as ->.
      apply (poll_after_status _ _ _ _ _ _ _ Hs) in Hf. split.
      - apply (poll_after_status _ _ _ _ _ _ _ Hs). rewrite finish_called_app, Hf. done.
      - intros h ->. cbn in Hps.
        assert (is_ok (poll_finish (poll_after snap id ex (subject_size x) (poll_ops id l2)) h) = true) as Hok.
        { destruct (poll_finish _ h); [done|done|done]. }
        apply (poll_after_expired_finish _ _ _ _ _ _ _ _ Hs) in Hok as [? _]. congruence. }
    destruct op as [h reg ms|h reg mid o|h a i vs|h i]; cbn in Hstep.
    - split; [|done].
      apply verify_messages_ok in Hstep as (Hne & Hch & statuses & Hst & [(Ht & -> & ->)|(Ht & Hopen)]); [eauto|].
      destruct Hopen as (workers & snap & tbl & events & Hreg & Hsn & Hid & Hex & Htbl & Hev & -> & ->).
      cbn. exists vp. split; [|done]. rewrite lookup_insert_ne; [done|].
      destruct (Hp _ _ Hvp) as [? _]. lia.
    - split; [|done].
      apply verify_worker_set_ok in Hstep as (st & workers & snap & tx & ix & Hst & Hnv & Hreg & Hsn & Hpm & -> & ->).
      cbn. exists vp. split; [|done]. rewrite lookup_insert_ne; [done|].
      destruct (Hp _ _ Hvp) as [? _]. lia.
    - split; [|done]. apply verifier_vote_ok in Hstep as (vp1 & p' & Hid & Hv & -> & ->). cbn.
      destruct (decide (i = id)) as [->|].
      + rewrite lookup_insert. eexists. split; [done|].
        rewrite Hvp in Hid. injection Hid as <-. destruct (Hkeep (PVote h a vs) p') as [? _].
        { cbn. by rewrite Hv. } by destruct vp.
      + rewrite lookup_insert_ne by done. eauto.
    - apply verifier_end_poll_ok in Hstep as (vp1 & p' & Hid & Hv & -> & ->). cbn.
      destruct (decide (i = id)) as [->|Hne].
      + rewrite Hvp in Hid. injection Hid as <-. destruct (Hkeep (PFinish h) p') as [_ Habs].
        { cbn. by rewrite Hv. } by destruct (Habs h).
      + rewrite lookup_insert_ne by done. split; [eauto|]. intros h' [= _ ?]. done.
  Qed.

  Lemma ended_snoc l e :
    ended (l ++ [e]) = ended l ++ match e.1 with EndPoll _ id => [id] | _ => [] end.
  Proof. unfold ended. rewrite omap_app. cbn. by destruct (e.1). Qed.
  Lemma all_reported_snoc l e : all_reported (l ++ [e]) = all_reported l ++ reported e.2.
  Proof. unfold all_reported. rewrite bind_app. cbn. by rewrite app_nil_r. Qed.

  Lemma finished_run ops : finished_inv (vrun k cfg ops) (vlog k cfg ops).
  Proof.
    cut (inv (vrun k cfg ops) (vlog k cfg ops) /\ finished_inv (vrun k cfg ops) (vlog k cfg ops)); [tauto|].
    unfold vrun, vlog. apply (run_log_inv _ (fun s l => inv s l /\ finished_inv s l)).
    { split; [apply inv_init|]. split_and!; try constructor; cbn; set_solver. }
    intros s l op s' out [Hi (HF & Hnd & Hr & Hrid)] Hstep. split; [by eapply inv_step|].
    assert (forall id, id ∈ ended l ->
      (exists vp', v_polls s' !! id = Some vp' /\ poll_status_ (vpoll_poll vp') = Finished) /\
      forall h, op <> EndPoll h id) as Hst.
    { intros id Hid. apply HF in Hid as (vp & Hvp & Hfin). by eapply finished_stays. }
    unfold finished_inv. rewrite ended_snoc, all_reported_snoc. cbn [fst snd].
    assert ((exists h id, op = EndPoll h id) \/
            (match op with EndPoll _ id => [id] | _ => [] end = [] /\ reported out = [])) as [(h & id & ->)|[-> ->]].
    { destruct op as [h reg ms|h reg mid o|h a i vs|h i]; cbn in Hstep; [right..|left; eauto].
      - apply verify_messages_ok in Hstep as (Hne & Hch & statuses & Hst' & [(Ht & -> & ->)|(Ht & Hopen)]); [done|].
        by destruct Hopen as (? & ? & ? & ? & ? & ? & ? & ? & ? & ? & -> & ->).
      - by apply verify_worker_set_ok in Hstep as (? & ? & ? & ? & ? & _ & _ & _ & _ & _ & -> & ->).
      - by apply verifier_vote_ok in Hstep as (? & ? & _ & _ & -> & ->). }
    2: { rewrite !app_nil_r. split_and!; try done. intros id Hid. by apply Hst. }
    assert (id ∉ ended l) as Hnew. { intros Hid. apply Hst in Hid as [_ Habs]. by apply (Habs h). }
    cbn in Hstep. apply verifier_end_poll_ok in Hstep as (vp & p' & Hid & Hv & -> & ->). cbn [reported].
    split_and!.
    - intros i [Hin|Hin]%elem_of_app.
      + apply Hst in Hin as [? _]. done.
      + apply elem_of_list_singleton in Hin as ->. cbn. rewrite lookup_insert. eexists. split; [done|].
        assert (poll_status_ p' = Finished); [|by destruct vp].
        unfold poll_finish in Hv. destruct (bool_decide _); [done|]. destruct (_ <? _); [done|]. by injection Hv as <-.
    - apply NoDup_app. split_and!; [done| |repeat constructor; set_solver].
      intros i Hin Heq%elem_of_list_singleton. by subst.
    - apply NoDup_app. split_and!; [done| |].
      + intros r Hin Hr'. apply Hrid in Hin as (i & Hii & Hd).
        apply elem_of_list_fmap in Hr' as (a & -> & _). cbn in Hd. apply dec_inj in Hd as ->. done.
      + apply NoDup_fmap_2; [intros ? ? [=]; done|].
        destruct (i_polls _ _ _ _ Hi _ _ Hid) as [_ (l1 & e & l2' & ex & ws & x & snap & [_ Ho Hs Hpo _ _])].
        assert (p' = poll_after snap id ex (subject_size x) (poll_ops id l2' ++ [PFinish h])) as ->.
        { apply poll_step_run. cbn. subst vp. rewrite subject_poll_poll in Hv. by rewrite Hv. }
        apply (c06 (E:=verror) _ _ _ id ex (subject_size x) (poll_ops id l2' ++ [PFinish h]) Hs).
    - intros r [Hin|Hin]%elem_of_app.
      + apply Hrid in Hin as (i & Hi' & ?). exists i. split; [apply elem_of_app; by left|done].
      + apply elem_of_list_fmap in Hin as (a & -> & _). exists id. split; [|done].
        apply elem_of_app. right. by apply elem_of_list_singleton.
  Qed.

  (** *** C12 *)
  Lemma owner_step s l op s' out key c :
    inv s l -> verifier_step k s op = Ok (s', out) -> v_messages s !! key = Some c ->
    exists c', v_messages s' !! key = Some c' /\ c_content c' = c_content c.
  Proof.
    intros Hinv Hstep Hc. destruct op as [h reg ms|h reg mid o|h a i vs|h i]; cbn in Hstep.
    - apply verify_messages_ok in Hstep as (Hne & Hch & statuses & Hst & [(Ht & -> & ->)|(Ht & Hopen)]); [eauto|].
      destruct Hopen as (workers & snap & tbl & events & Hreg & Hsn & Hid & Hex & Htbl & Hev & -> & ->).
      cbn. apply save_messages_ok in Htbl as (T1 & T2 & T3).
      destruct (decide (key ∈ message_key k <$> List.filter (wants_poll k s) ms)) as [Hin|Hno].
      + apply elem_of_list_fmap in Hin as (m & -> & Hm). destruct (T2 _ Hm) as (c' & Hc' & _).
        exists c'. split; [done|]. destruct (T1 _ _ Hc') as [[_ Hno]|(_ & Hk & _ & Hidx)]; [by destruct (Hno _ Hm)|].
        apply elem_of_list_lookup_2, elem_of_list_In, filter_In in Hidx as [_ Hw].
        unfold wants_poll, message_status in Hw. rewrite <- Hk, Hc in Hw. cbn in Hw.
        case_bool_decide; [done|done].
      + rewrite T3; [eauto|]. intros m Hm <-. apply Hno. by apply elem_of_list_fmap_1.
    - apply verify_worker_set_ok in Hstep as (? & ? & ? & ? & ? & _ & _ & _ & _ & _ & -> & ->). eauto.
    - apply verifier_vote_ok in Hstep as (? & ? & _ & _ & -> & ->). eauto.
    - apply verifier_end_poll_ok in Hstep as (? & ? & _ & _ & -> & ->). eauto.
  Qed.

  Lemma owner_run ops ops' key c :
    v_messages (vrun k cfg ops) !! key = Some c ->
    exists c', v_messages (vrun k cfg (ops ++ ops')) !! key = Some c' /\ c_content c' = c_content c.
  Proof.
    unfold vrun. rewrite run_app. pose proof (inv_run k cfg ops) as Hinv. unfold vrun, vlog in Hinv.
    revert Hinv. generalize (run (verifier_step k) (verifier_init cfg) ops) as s.
    generalize (log (verifier_step k) (verifier_init cfg) ops) as l.
    revert c. induction ops' as [|op ops' IH]; intros c l s Hinv Hc; [eauto|].
    cbn [run]. unfold exec. destruct (verifier_step k s op) as [[s' out]| |] eqn:Hs; [|by eauto..].
    destruct (owner_step _ _ _ _ _ _ _ Hinv Hs Hc) as (c1 & Hc1 & <-).
    eapply IH; [eapply inv_step; eauto|done].
  Qed.

  Lemma verify_stores s h reg m s' out :
    verify_messages k s h reg [m] = Ok (s', out) ->
    exists c, v_messages s' !! message_key k m = Some c /\ c_content c = m.
  Proof.
    intros H. apply verify_messages_ok in H as (Hne & Hch & statuses & Hst & [(Ht & -> & ->)|(Ht & Hopen)]).
    - cbn in Ht. destruct (wants_poll k s m) eqn:Hw; [done|].
      inversion Hst as [|? ? ? ? (st & Hs & _) _]; subst.
      unfold wants_poll in Hw. rewrite Hs in Hw. unfold message_status, verification_status in Hs.
      destruct (v_messages s !! message_key k m) as [c|]; [|by injection Hs as <-].
      case_bool_decide; [|done]. eauto.
    - destruct Hopen as (workers & snap & tbl & events & Hreg & Hsn & Hid & Hex & Htbl & Hev & -> & ->). cbn.
      cbn in Htbl, Ht. destruct (wants_poll k s m); [|done].
      apply save_messages_ok in Htbl as (T1 & T2 & T3). destruct (T2 m) as (c & Hc & _); [left|].
      exists c. split; [done|]. destruct (T1 _ _ Hc) as [[_ Hno]|(_ & _ & _ & Hidx)].
      + destruct (Hno m); [left|done].
      + apply elem_of_list_lookup_2, elem_of_list_singleton in Hidx. done.
  Qed.

  Lemma c12_blocked ops h reg m m' ops' :
    is_ok (verify_messages k (vrun k cfg ops) h reg [m]) = true ->
    m' <> m -> message_key k m' = message_key k m ->
    let s := vrun k cfg (ops ++ VerifyMessages h reg [m] :: ops') in
    message_status k s m' = Panic /\
    forall h' reg' ms, m' ∈ ms -> is_ok (verify_messages k s h' reg' ms) = false.
  Proof.
    intros Hok Hne Hkey s.
    assert (message_status k s m' = Panic) as Hp.
    { unfold s. replace (ops ++ VerifyMessages h reg [m] :: ops') with ((ops ++ [VerifyMessages h reg [m]]) ++ ops')
        by (by rewrite <- app_assoc).
      assert (exists c, v_messages (vrun k cfg (ops ++ [VerifyMessages h reg [m]])) !! message_key k m = Some c /\ c_content c = m)
        as (c & Hc & Hcm).
      { unfold vrun. rewrite run_snoc. unfold exec. cbn [verifier_step].
        change (run (verifier_step k) (verifier_init cfg) ops) with (vrun k cfg ops).
        destruct (verify_messages k (vrun k cfg ops) h reg [m]) as [[s' out]| |] eqn:Hv; [|done..].
        by eapply verify_stores. }
      destruct (owner_run _ ops' _ _ Hc) as (c' & Hc' & Hcc).
      unfold message_status, verification_status. rewrite Hkey, Hc'.
      rewrite bool_decide_eq_false_2; [done|]. congruence. }
    split; [done|]. intros h' reg' ms Hin.
    destruct (verify_messages k s h' reg' ms) as [[s' out]| |] eqn:Hv; [|done..].
    apply verify_messages_ok in Hv as (_ & _ & statuses & Hst & _). exfalso.
    apply elem_of_list_lookup in Hin as [i Hi].
    destruct (Forall2_lookup_l _ _ _ _ _ Hst Hi) as (r & _ & st & Hs & _). congruence.
  Qed.

  (** *** C13 *)
  Lemma c13_restart ops h reg mid o s' out ops' :
    valid_vconfig cfg ->
    verify_worker_set k (vrun k cfg ops) h reg mid o = Ok (s', out) ->
    Forall (fun op => match op with
                      | Vote _ _ id _ => opened_id out <> Some id
                      | EndPoll _ _ => True | _ => False end) ops' ->
    worker_set_status k (vrun k cfg (ops ++ VerifyWorkerSet h reg mid o :: ops')) o <> Ok Verified.
  Proof.
    intros Hcfg Hv Hops.
    assert (vrun k cfg (ops ++ VerifyWorkerSet h reg mid o :: ops') = run (verifier_step k) s' ops') as ->.
    { unfold vrun in *. rewrite run_app. cbn [run]. unfold exec. cbn [verifier_step]. by rewrite Hv. }
    apply verify_worker_set_ok in Hv as (st & workers & snap & tx & ix & Hst & Hnv & Hreg & Hsn & Hpm & -> & ->).
    cbn [opened_id metadata pm_poll_id] in Hops. rewrite run_cfg in *.
    set (id := v_poll_id (vrun k cfg ops) + 1) in *.
    match goal with |- context [run _ ?s0 _] => set (s1 := s0) end.
    assert (v_worker_sets s1 !! operators_key k o = Some (Build_poll_content o id 0)) as Hset
      by (cbn; by rewrite lookup_insert).
    assert (exists fs, (forall h a vs, PVote h a vs ∉ fs) /\ v_polls s1 !! id =
      Some (WorkerSetPoll (poll_after snap id (h + vc_expiry cfg) 1 fs))) as Hpoll.
    { exists []. split; [set_solver|]. cbn. by rewrite lookup_insert. }
    revert Hset Hpoll. generalize s1 as s. clear s1 Hst Hnv.
    induction Hops as [|op ops' Hop Hops IH]; intros s Hset (fs & Hfs & Hpoll).
    - cbn. unfold worker_set_status, verification_status. rewrite Hset.
      case_bool_decide; [|done]. cbn [c_poll c_index]. rewrite Hpoll. cbn [vpoll_poll].
      assert (poll_consensus (poll_after snap id (h + vc_expiry cfg) 1 fs) (N.to_nat 0) <> Ok (Some SucceededOnChain)) as Hno.
      { intros Hcons. pose proof (valid_majority _ _ _ Hcfg Hsn) as Hmaj.
        apply (c04_iff _ _ _ _ _ _ _ _ Hmaj) in Hcons; [|cbn; lia].
        assert (weight_for (s_participants snap) (h + vc_expiry cfg) 1 fs (N.to_nat 0) SucceededOnChain = 0) as Hz.
        { unfold weight_for. apply msum_zero. intros a w _.
          destruct (first_ballot _ _ fs a) as [b|] eqn:Hfb; [|done].
          apply (first_ballot_in k) in Hfb as (h' & Hin & _). exfalso. exact (Hfs _ _ _ Hin). }
        apply majority_quorum in Hmaj as (_ & Hqpos & _). rewrite Hz in Hcons. lia. }
      destruct (poll_consensus _ _) as [[[]|]| |]; try done; case_bool_decide; done.
    - cbn [run]. unfold exec. destruct (verifier_step k s op) as [[s2 out]| |] eqn:Hs; [|by eauto..].
      destruct op as [| |h' a i vs|h' i]; [done|done| |]; cbn in Hs.
      + apply verifier_vote_ok in Hs as (vp & p' & Hid & Hv & -> & ->). apply IH; [done|].
        exists fs. split; [done|]. cbn. rewrite lookup_insert_ne; [done|]. congruence.
      + apply verifier_end_poll_ok in Hs as (vp & p' & Hid & Hv & -> & ->). apply IH; [done|].
        destruct (decide (i = id)) as [->|Hne].
        * exists (fs ++ [PFinish h']). split.
          -- intros ? ? ? [Hin|Hin]%elem_of_app; [by eapply Hfs|set_solver].
          -- cbn. rewrite lookup_insert. rewrite Hpoll in Hid. injection Hid as <-. do 2 f_equal.
             apply poll_step_run. cbn in *. by rewrite Hv.
        * exists fs. split; [done|]. cbn. by rewrite lookup_insert_ne.
  Qed.

End Proofs.

Lemma preimage_inj m m' :
  wf_message m -> wf_message m' ->
  String.length (cc_id (m_cc m)) = String.length (cc_id (m_cc m')) ->
  String.length (m_src m) = String.length (m_src m') ->
  String.length (m_dchain m) = String.length (m_dchain m') ->
  message_preimage m = message_preimage m' -> m = m'.
Proof.
  intros (Hc & _ & _ & _ & _ & Hh) (Hc' & _ & _ & _ & _ & Hh') Hid Hsrc Hdc.
  unfold message_preimage, ccid_to_string.
  assert (forall c, wf_chain c -> contains ID_SEPARATOR c = false) as Hnc.
  { intros c. unfold wf_chain, chain_name_of. destruct (contains _ c); done. }
  destruct m as [[c i] s d a h], m' as [[c' i'] s' d' a' h']. cbn [m_cc m_src m_dchain m_daddr m_hash cc_chain cc_id] in *.
  rewrite !app_assoc_str. cbn. intros H.
  apply sep_app_inj in H as [-> H]; [|by apply Hnc..].
  apply app_inj_len_str in H as [-> H]; [|done].
  apply app_inj_len_str in H as [-> H]; [|done].
  apply app_inj_len_str in H as [-> H]; [|done].
  apply app_inj_len_r_str in H as [-> ->]; [done|congruence].
Qed.

(** *** C63 *)
Lemma c63_canonical m m' tx tx' n n' ev :
  cc_id (m_cc m) = tx +:+ String ID_SEPARATOR (dec n) ->
  cc_id (m_cc m') = tx' +:+ String ID_SEPARATOR (dec n') ->
  n < U64 -> n' < U64 ->
  tx_event_of m = Ok ev -> tx_event_of m' = Ok ev ->
  cc_id (m_cc m) = cc_id (m_cc m').
Proof.
  intros Hm Hm' Hn Hn'. unfold tx_event_of, parse_message_id.
  assert (forall tx n x, n < U64 -> split ID_SEPARATOR (tx +:+ String ID_SEPARATOR (dec n)) = x ->
     match x with [a; b] => a = tx /\ b = dec n | _ => True end) as Hsp.
  { intros t z x Hz <-. destruct (split ID_SEPARATOR (t +:+ String ID_SEPARATOR (dec z))) as [|a [|b [|]]] eqn:Hs; try done.
    apply split_two in Hs as (Heq & Ha & Hb).
    assert (contains ID_SEPARATOR t = false) as Ht.
    { destruct (contains ID_SEPARATOR t) eqn:Hc; [|done]. exfalso.
      destruct (split_once ID_SEPARATOR t) as [[x y]|] eqn:Hso; [|apply split_once_none in Hso; congruence].
      apply split_once_some in Hso as [-> Hx]. rewrite app_assoc_str in Heq. cbn in Heq.
      apply sep_app_inj in Heq as [_ <-]; [|done..]. rewrite contains_app in Hb. cbn in Hb.
      by rewrite orb_true_r in Hb. }
    by apply sep_app_inj in Heq as [-> ->]. }
  rewrite Hm, Hm'. intros H1 H2.
  destruct (split ID_SEPARATOR (tx +:+ String ID_SEPARATOR (dec n))) as [|a [|b [|]]] eqn:Hs; try done.
  apply Hsp in Hs as [-> ->]; [|done].
  destruct (split ID_SEPARATOR (tx' +:+ String ID_SEPARATOR (dec n'))) as [|a' [|b' [|]]] eqn:Hs'; try done.
  apply Hsp in Hs' as [-> ->]; [|done].
  unfold parse_u64 in *. rewrite parse_uint_dec in * by done.
  unfold nonempty_string_of in *. destruct (is_empty tx), (is_empty tx'); try done. cbn in *.
  injection H1 as <-. injection H2 as -> -> _ _ _ _. done.
Qed.
