(** Verifier: what its events say. *)
From stdpp Require Import sorting.
From Verif Require Import Base BaseLemmas Text TextLemmas StdModel StdSpec StdProofs RouterTypes RegistryTypes OperatorsModel VerifierModel VerifierSpec VerifierProofs
  LivenessSpec EventsModel JsonModel JsonSpec WireModel WireSpec WireProofs WireProofs2 WireProofs3
  EventLogModel EventLogSpec EventLogProofs EventLogProofs2.

Lemma sorted_snoc {A} (R : A -> A -> Prop) l x :
  StronglySorted R (l ++ [x]) -> StronglySorted R l /\ Forall (fun y => R y x) l.
Proof.
  induction l as [|y l IH]; [by repeat constructor|]. intros H. inversion H as [|? ? Hl Hy]; subst.
  destruct (IH Hl) as [H1 H2]. apply Forall_app in Hy as [Hy1 Hy2]. inversion Hy2; subst. repeat constructor; done.
Qed.

Section Verifier.
  Context (k : string -> string) (cfg : vconfig).
  Context (parse : string -> option jval) (Hparse : reads_json parse).
  Notation events l := (all_events verifier_events l).
  Notation step := (verifier_step k).

  Lemma codec_results : codec (e_list (e_opt e_vote)) (d_vec (d_opt d_vote)) (fun _ => True) 1.
  Proof.
    eapply codec_impl; [|apply codec_list, codec_opt; [apply codec_vote|by intros []]].
    intros l. split; [done|]. intros _. by apply Forall_forall.
  Qed.

  (** One event. *)
  Lemma is_poll_at n m (e : emitted) : attr "poll_id" e.2 = Some (to_json (e_uint n)) -> is_poll parse m e = bool_decide (n = m).
  Proof. intros H. unfold is_poll. rewrite (id_decide _ n m); [done|]. rewrite H. exact (read_id parse n Hparse). Qed.

  Definition started (e : emitted) (m : poll_metadata) : Prop :=
    exists ty x y, e = (ty, (x, y) :: metadata_text m) /\
      (ty = "messages_poll_started" /\ x = "messages" \/ ty = "worker_set_poll_started" /\ x = "worker_set").

  Lemma started_poll e m id : started e m ->
    says_poll parse id e = if bool_decide (pm_poll_id m = id) then Some (pm_participants m, dec (pm_expires_at m)) else None.
  Proof.
    intros (t & x & y & -> & Ht). unfold says_poll.
    rewrite (is_poll_at (pm_poll_id m)); [|by destruct Ht as [[-> ->]|[-> ->]]].
    replace (_ || _) with true by by destruct Ht as [[-> ->]|[-> ->]]. cbn [andb].
    case_bool_decide; [|done].
    destruct (read_codec parse _ _ _ _ (pm_participants m) Hparse codec_strs ltac:(lia) I) as [H1 H2].
    unfold e_list in H1, H2.
    replace (attr "participants" _) with (Some (to_json (JArr (JStr <$> pm_participants m)))) by by destruct Ht as [[-> ->]|[-> ->]].
    cbn [mbind option_bind]. rewrite H1. cbn [mbind option_bind]. rewrite H2. cbn [mbind option_bind].
    replace (attr "expires_at" _) with (Some (dec (pm_expires_at m))) by by destruct Ht as [[-> ->]|[-> ->]]. done.
  Qed.
  Lemma started_voted e m id a : started e m -> says_voted parse id a e = false.
  Proof. intros (t & x & y & -> & [[-> ->]|[-> ->]]); done. Qed.
  Lemma started_results e m id : started e m -> says_results parse id e = None.
  Proof. intros (t & x & y & -> & [[-> ->]|[-> ->]]); done. Qed.

  Definition voted_event (n : N) (b : addr) : emitted := ("voted", [("poll_id", to_json (e_uint n)); ("voter", b)]).
  Lemma voted_voted id a n b : says_voted parse id a (voted_event n b) = bool_decide (n = id) && bool_decide (b = a).
  Proof.
    unfold says_voted. rewrite (is_poll_at n); [|done]. change (ty _ _) with true. cbn [andb]. f_equal.
    unfold has. apply bool_decide_ext. change (attr _ _) with (Some b). split; [by intros [=]|by intros ->].
  Qed.
  Definition ended_event (n : N) (rs : list (option vote)) : emitted :=
    ("poll_ended", [("poll_id", to_json (e_uint n)); ("results", to_json (e_list (e_opt e_vote) rs))]).
  Lemma ended_results id n rs : says_results parse id (ended_event n rs) = if bool_decide (n = id) then Some rs else None.
  Proof.
    unfold says_results. rewrite (is_poll_at n); [|done]. change (ty _ _) with true. cbn [andb]. case_bool_decide; [|done].
    destruct (read_codec parse _ _ _ _ rs Hparse codec_results ltac:(lia) I) as [H1 H2].
    change (attr _ _) with (Some (to_json (e_list (e_opt e_vote) rs))). cbn [mbind option_bind]. rewrite H1. exact H2.
  Qed.

  Definition verifier_said (s : vstate) (hs : list N) (l : list (vop * vout)) : Prop :=
    v_config s = cfg /\
    (forall id vp, v_polls s !! id = Some vp -> id <= v_poll_id s /\ poll_id (vpoll_poll vp) = id) /\
    (forall id, told_poll (told (says_poll parse id) (events l)) (v_polls s !! id)) /\
    (forall id a, happened (says_voted parse id a) (events l) <-> has_voted (v_polls s !! id) a) /\
    (forall id, told (says_results parse id) (events l) = vp ← v_polls s !! id; results_of (vpoll_poll vp)) /\
    (forall id vp, v_polls s !! id = Some vp -> poll_status_ (vpoll_poll vp) = Finished ->
       exists h, h ∈ hs /\ poll_expires_at (vpoll_poll vp) <= h).

  Lemma new_poll_fresh s l hs : verifier_said s hs l -> v_polls s !! (v_poll_id s + 1) = None.
  Proof.
    intros (_ & H & _). destruct (v_polls s !! (v_poll_id s + 1)) as [vp|] eqn:E; [|done]. destruct (H _ _ E). lia.
  Qed.

  (** A poll is opened. *)
  Lemma said_opened s s' hs l op out e h snap size vp :
    verifier_said s hs l -> started e (metadata (v_config s) (v_poll_id s + 1) h snap) -> verifier_events out = [e] ->
    v_config s' = v_config s -> v_poll_id s' = v_poll_id s + 1 ->
    v_polls s' = <[v_poll_id s + 1 := vp]> (v_polls s) ->
    vpoll_poll vp = poll_new (v_poll_id s + 1) snap (h + vc_expiry (v_config s)) size ->
    verifier_said s' (hs ++ [at_height op]) (l ++ [(op, out)]).
  Proof.
    intros Hi He Hout Hc Hid Hp Hvp. pose proof (new_poll_fresh _ _ _ Hi) as Hfresh.
    destruct Hi as (H1 & H2 & H3 & H4 & H5 & H6). unfold verifier_said.
    setoid_rewrite all_events_snoc. setoid_rewrite told_app. setoid_rewrite happened_app. rewrite Hout, Hc, Hid, Hp.
    set (n := v_poll_id s + 1) in *. split_and!; [done| | | | |].
    - intros i vp'. rewrite lookup_insert_Some. intros [[<- <-]|[Hne Hi]]; [rewrite Hvp; cbn; lia|].
      destruct (H2 _ _ Hi). split; [lia|done].
    - intros i. rewrite told_one, (started_poll _ _ _ He). cbn [metadata pm_poll_id]. case_bool_decide as Hi.
      + subst i. rewrite lookup_insert. cbn [told_poll]. rewrite Hvp. cbn [poll_new poll_expires_at poll_participation metadata pm_participants pm_expires_at].
        split; [done|]. split; [apply btree_iter_NoDup|]. intros a. rewrite snapshot_addrs_elem, lookup_fmap, fmap_is_Some. done.
      + rewrite lookup_insert_ne by done. apply H3.
    - intros i a. rewrite happened_one, (started_voted _ _ _ _ He), H4. destruct (decide (n = i)) as [<-|Hne].
      + rewrite Hfresh, lookup_insert. unfold has_voted. split.
        * intros [(p & ? & ? & ? & _)|]; done.
        * intros (p & pt & vs & [= <-] & Hpt & Hv). rewrite Hvp in Hpt. cbn in Hpt.
          rewrite lookup_fmap in Hpt. apply fmap_Some in Hpt as (w & _ & ->). done.
      + rewrite lookup_insert_ne by done. split; [by intros [|]|by left].
    - intros i. rewrite told_one, (started_results _ _ _ He), H5. destruct (decide (n = i)) as [<-|Hne].
      + rewrite Hfresh, lookup_insert. cbn [mbind option_bind]. unfold results_of. by rewrite Hvp.
      + by rewrite lookup_insert_ne.
    - intros i vp'. rewrite lookup_insert_Some. intros [[<- <-]|[Hne Hi]] Hf; [by rewrite Hvp in Hf|].
      destruct (H6 _ _ Hi Hf) as (h' & Hh & Hle). exists h'. split; [|done]. apply elem_of_app. by left.
  Qed.

  Lemma cast_vote_ok p h a vs p' : poll_cast_vote p h a vs = Ok p' ->
    h < poll_expires_at p /\ poll_id p' = poll_id p /\ poll_expires_at p' = poll_expires_at p /\ poll_status_ p' = poll_status_ p /\
    exists pt, poll_participation p !! a = Some pt /\
      poll_participation p' = <[a := {| pt_weight := pt_weight pt; pt_vote := Some vs |}]> (poll_participation p).
  Proof.
    unfold poll_cast_vote. intros H. apply rbind_ok in H as (pt & Hpt & H). apply of_option_ok in Hpt.
    apply rbind_ok in H as (? & Hh & H). apply ensure_ok in Hh. apply N.ltb_lt in Hh.
    apply rbind_ok in H as (? & _ & H). apply rbind_ok in H as (? & _ & H). apply rbind_ok in H as (ts & _ & H).
    injection H as <-. cbn. split_and!; try done. eauto.
  Qed.
  Lemma poll_finish_ok p h p' : poll_finish p h = Ok p' ->
    poll_expires_at p <= h /\ poll_id p' = poll_id p /\ poll_expires_at p' = poll_expires_at p /\ poll_status_ p' = Finished /\
    poll_participation p' = poll_participation p.
  Proof.
    unfold poll_finish. case_bool_decide; [done|]. destruct (N.ltb_spec h (poll_expires_at p)); [done|]. by intros [= <-].
  Qed.

  Lemma verifier_said_step s hs l op s' out :
    Forall (fun h => h <= at_height op) hs ->
    verifier_said s hs l -> step s op = Ok (s', out) -> verifier_said s' (hs ++ [at_height op]) (l ++ [(op, out)]).
  Proof.
    intros Hhs Hi Hs.
    destruct op as [h reg ms|h reg mid o|h a id vs|h id]; cbn [verifier_step] in Hs.
    - apply verify_messages_ok in Hs as (_ & _ & sts & _ & [(_ & -> & ->)|(_ & w & snap & tbl & es & _ & _ & _ & _ & _ & _ & -> & ->)]).
      + destruct Hi as (H1 & H2 & H3 & H4 & H5 & H6). unfold verifier_said.
        rewrite all_events_snoc. cbn [verifier_events]. rewrite app_nil_r. split_and!; try done.
        intros id vp Hvp Hf. destruct (H6 _ _ Hvp Hf) as (h' & Hh & Hle). exists h'. split; [|done]. apply elem_of_app. by left.
      + eapply (said_opened s _ hs l _ _ _ h snap); [done| |done..]. do 3 eexists. split; [done|]. by left.
    - apply verify_worker_set_ok in Hs as (st & w & snap & tx & idx & _ & _ & _ & _ & _ & -> & ->).
      eapply (said_opened s _ hs l _ _ _ h snap); [done| |done..]. do 3 eexists. split; [done|]. by right.
    - apply verifier_vote_ok in Hs as (vp & p' & Hvp & Hc & -> & ->).
      apply cast_vote_ok in Hc as (Hh & Hpid & Hex & Hst & pt & Hpt & Hpp).
      destruct Hi as (H1 & H2 & H3 & H4 & H5 & H6). unfold verifier_said.
      setoid_rewrite all_events_snoc. setoid_rewrite told_app. setoid_rewrite happened_app. cbn [verifier_events set_poll v_config v_poll_id v_polls at_height].
      change ("voted", ?l) with (voted_event id a).
      set (vp' := match vp with MessagesPoll _ => MessagesPoll p' | WorkerSetPoll _ => WorkerSetPoll p' end).
      assert (Hp' : vpoll_poll vp' = p') by (unfold vp'; by destruct vp).
      assert (Hun : poll_status_ (vpoll_poll vp) = InProgress).
      { destruct (poll_status_ (vpoll_poll vp)) eqn:E; [done|]. destruct (H6 _ _ Hvp E) as (h' & Hin & Hle).
        rewrite Forall_forall in Hhs. specialize (Hhs _ Hin). cbn in Hhs. lia. }
      split_and!; [done| | | | |].
      + intros i x. rewrite lookup_insert_Some. intros [[<- <-]|[Hne Hi]]; [|by apply H2]. rewrite Hp', Hpid. by apply H2.
      + intros i. rewrite told_one. change (says_poll parse i _) with (@None (list addr * string)). cbn beta iota.
        destruct (decide (id = i)) as [<-|Hne]; [|rewrite lookup_insert_ne by done; apply H3].
        rewrite lookup_insert. specialize (H3 id). rewrite Hvp in H3. unfold told_poll in *.
        destruct (told _ _) as [[lst x]|]; [|done]. rewrite Hp', Hex, Hpp. destruct H3 as (-> & Hnd & Hel). split_and!; [done..|].
        intros b. rewrite Hel, lookup_insert_is_Some'. split; [by right|]. intros [<-|]; [by eauto|done].
      + intros i b. rewrite happened_one, voted_voted, andb_true_iff, !bool_decide_eq_true, H4.
        destruct (decide (id = i)) as [<-|Hne].
        * rewrite lookup_insert, Hvp. unfold has_voted. split.
          -- intros [(x & pt' & vs' & [= <-] & Hx & Hv)|[_ <-]].
             ++ destruct (decide (a = b)) as [<-|Hab].
                ** exists vp', {| pt_weight := pt_weight pt; pt_vote := Some vs |}, vs. rewrite Hp', Hpp, lookup_insert. done.
                ** exists vp', pt', vs'. rewrite Hp', Hpp, lookup_insert_ne by done. done.
             ++ exists vp', {| pt_weight := pt_weight pt; pt_vote := Some vs |}, vs. rewrite Hp', Hpp, lookup_insert. done.
          -- intros (x & pt' & vs' & [= <-] & Hx & Hv). rewrite Hp', Hpp in Hx.
             apply lookup_insert_Some in Hx as [[<- _]|[Hab Hx]]; [by right|]. left. by exists vp, pt', vs'.
        * rewrite lookup_insert_ne by done. split; [by intros [|[? _]]|by left].
      + intros i. rewrite told_one. change (says_results parse i _) with (@None (list (option vote))). cbn beta iota. rewrite H5.
        destruct (decide (id = i)) as [<-|Hne]; [|by rewrite lookup_insert_ne].
        rewrite Hvp, lookup_insert. cbn [mbind option_bind]. unfold results_of. by rewrite Hp', Hst, Hun.
      + intros i x. rewrite lookup_insert_Some. intros [[<- <-]|[Hne Hi]] Hf.
        * rewrite Hp', Hst, Hun in Hf. done.
        * destruct (H6 _ _ Hi Hf) as (h' & Hin & Hle). exists h'. split; [|done]. apply elem_of_app. by left.
    - apply verifier_end_poll_ok in Hs as (vp & p' & Hvp & Hc & -> & ->).
      apply poll_finish_ok in Hc as (Hh & Hpid & Hex & Hst & Hpp).
      destruct Hi as (H1 & H2 & H3 & H4 & H5 & H6). unfold verifier_said.
      setoid_rewrite all_events_snoc. setoid_rewrite told_app. setoid_rewrite happened_app. cbn [verifier_events set_poll v_config v_poll_id v_polls at_height].
      change ("poll_ended", ?l) with (ended_event (ps_poll_id (poll_state_of p')) (ps_results (poll_state_of p'))).
      set (vp' := match vp with MessagesPoll _ => MessagesPoll p' | WorkerSetPoll _ => WorkerSetPoll p' end).
      assert (Hp' : vpoll_poll vp' = p') by (unfold vp'; by destruct vp).
      assert (Hps : ps_poll_id (poll_state_of p') = id).
      { cbn [poll_state_of ps_poll_id]. rewrite Hpid. by apply H2. }
      split_and!; [done| | | | |].
      + intros i x. rewrite lookup_insert_Some. intros [[<- <-]|[Hne Hi]]; [|by apply H2]. rewrite Hp', Hpid. by apply H2.
      + intros i. rewrite told_one. change (says_poll parse i _) with (@None (list addr * string)). cbn beta iota.
        destruct (decide (id = i)) as [<-|Hne]; [|rewrite lookup_insert_ne by done; apply H3].
        rewrite lookup_insert. specialize (H3 id). rewrite Hvp in H3. unfold told_poll in *.
        destruct (told _ _) as [[lst x]|]; [|done]. rewrite Hp', Hex, Hpp. done.
      + intros i b. rewrite happened_one. change (says_voted parse i b _) with false. rewrite H4.
        destruct (decide (id = i)) as [<-|Hne].
        * rewrite lookup_insert, Hvp. unfold has_voted. split.
          -- intros [(x & pt' & vs' & [= <-] & Hx & Hv)|]; [|done]. exists vp', pt', vs'. by rewrite Hp', Hpp.
          -- intros (x & pt' & vs' & [= <-] & Hx & Hv). rewrite Hp', Hpp in Hx. left. by exists vp, pt', vs'.
        * rewrite lookup_insert_ne by done. split; [by intros [|]|by left].
      + intros i. rewrite told_one, ended_results, Hps. case_bool_decide as Hi.
        * subst i. rewrite lookup_insert. cbn [mbind option_bind]. unfold results_of. by rewrite Hp', Hst.
        * rewrite lookup_insert_ne by done. apply H5.
      + intros i x. rewrite lookup_insert_Some. intros [[<- <-]|[Hne Hi]] Hf.
        * exists h. rewrite Hp', Hex. split; [|done]. apply elem_of_app. right. by left.
        * destruct (H6 _ _ Hi Hf) as (h' & Hin & Hle). exists h'. split; [|done]. apply elem_of_app. by left.
  Qed.

  Lemma verifier_said_run ops : in_order ops -> verifier_said (vrun k cfg ops) (at_height <$> ops) (vlog k cfg ops).
  Proof.
    unfold in_order. induction ops as [|op ops IH] using rev_ind; intros Ho.
    - unfold verifier_said, vrun, vlog. cbn. split_and!; try done; intros *; rewrite ?lookup_empty; try done.
      split; [by intros (e & He%elem_of_nil & _)|by intros (p & ? & ? & ? & _)].
    - rewrite fmap_app in Ho. cbn [fmap list_fmap] in Ho. apply sorted_snoc in Ho as [Ho Hall]. specialize (IH Ho).
      unfold vrun, vlog in *. rewrite run_snoc, log_snoc, fmap_app. cbn [fmap list_fmap]. unfold exec, log1.
      destruct (step (run step (verifier_init cfg) ops) op) as [[s' out]| |] eqn:E.
      + by eapply verifier_said_step.
      + rewrite app_nil_r. destruct IH as (H1 & H2 & H3 & H4 & H5 & H6). split_and!; try done.
        intros id vp Hvp Hf. destruct (H6 _ _ Hvp Hf) as (h' & Hin & Hle). exists h'. split; [|done]. apply elem_of_app. by left.
      + rewrite app_nil_r. destruct IH as (H1 & H2 & H3 & H4 & H5 & H6). split_and!; try done.
        intros id vp Hvp Hf. destruct (H6 _ _ Hvp Hf) as (h' & Hin & Hle). exists h'. split; [|done]. apply elem_of_app. by left.
  Qed.
End Verifier.

Lemma c105_verifier k c parse ops :
  reads_json parse -> in_order ops ->
  let s := vrun k c ops in
  let es := all_events verifier_events (vlog k c ops) in
  (forall id, told_poll (told (says_poll parse id) es) (v_polls s !! id)) /\
  (forall id a, happened (says_voted parse id a) es <-> has_voted (v_polls s !! id) a) /\
  (forall id, told (says_results parse id) es = vp ← v_polls s !! id; results_of (vpoll_poll vp)).
Proof.
  intros Hp Ho s es. destruct (verifier_said_run k c parse Hp ops Ho) as (_ & _ & H1 & H2 & H3 & _). by split_and!.
Qed.
