(** What the verifier's tables say about the calls that filled them. *)
From stdpp Require Import sorting.
From Verif Require Import Base BaseLemmas Text StdModel RouterTypes RegistryTypes OperatorsModel
  VerifierModel VerifierSpec VerifierProofs VerifierProofs2 VerifierProofs5.

Lemma nodup_split {A B} (f : A -> option B) b : forall l1 e l2 l1' e' l2',
  NoDup (omap f (l1 ++ e :: l2)) -> l1 ++ e :: l2 = l1' ++ e' :: l2' -> f e = Some b -> f e' = Some b ->
  l1 = l1' /\ e = e' /\ l2 = l2'.
Proof.
  assert (Hno : forall l e l2, NoDup (omap f (e :: l ++ l2)) -> f e = Some b -> forall x, x ∈ l ++ l2 -> f x <> Some b).
  { intros l e l2 Hnd He x Hx Hfx. cbn [omap list_omap] in Hnd. rewrite He in Hnd. apply NoDup_cons in Hnd as [Hn _].
    apply Hn. apply elem_of_list_omap. eauto. }
  induction l1 as [|x l1 IH]; intros e l2 [|x' l1'] e' l2' Hnd Heq He He'; cbn [app] in *.
  - by injection Heq as -> ->.
  - injection Heq as -> ->. exfalso. eapply (Hno [] x'); [exact Hnd|done| |exact He']. apply elem_of_app. right. apply elem_of_app. right. left.
  - injection Heq as -> <-. exfalso. eapply (Hno l1 e'); [exact Hnd|done| |exact He]. apply elem_of_app. right. left.
  - injection Heq as -> Heq. assert (NoDup (omap f (l1 ++ e :: l2))) as Hnd'.
    { cbn [omap list_omap] in Hnd. destruct (f x'); [by apply NoDup_cons in Hnd as [_ ?]|done]. }
    destruct (IH _ _ _ _ _ Hnd' Heq He He') as (-> & -> & ->). done.
Qed.

Section Entries.
  Context (k : string -> string) (cfg : vconfig).
  Notation step := (verifier_step k).

  Definition asked_for (l : list (vop * vout)) (id : N) (idx : nat) (m : message) : Prop :=
    exists l1 h reg ms sts es meta l2,
      l = l1 ++ (VerifyMessages h reg ms, OutVerify sts (Some (es, meta))) :: l2 /\ pm_poll_id meta = id /\
      let asked := List.filter (wants_poll k (vrun k cfg l1.*1)) ms in
      asked !! idx = Some m /\
      forall j m', asked !! j = Some m' -> message_key k m' = message_key k m -> (j <= idx)%nat.
  Definition set_asked_for (l : list (vop * vout)) (id : N) (o : operators) : Prop :=
    exists l1 h reg mid tx n meta l2,
      l = l1 ++ (VerifyWorkerSet h reg mid o, OutWorkerSet tx n o meta) :: l2 /\ pm_poll_id meta = id /\
      forall h' reg' mid' o' out, (VerifyWorkerSet h' reg' mid' o', out) ∈ l2 -> operators_key k o' <> operators_key k o.

  (** Of equal keys the last one stays in the table. *)
  Lemma save_messages_latest id : forall ms tbl idx tbl', save_messages k tbl id idx ms = Ok tbl' ->
    forall key c, tbl' !! key = Some c ->
    (tbl !! key = Some c /\ (forall m, m ∈ ms -> message_key k m <> key)) \/
    (c_poll c = id /\ key = message_key k (c_content c) /\ idx <= c_index c /\
     ms !! N.to_nat (c_index c - idx) = Some (c_content c) /\
     forall j m', ms !! j = Some m' -> message_key k m' = key -> (j <= N.to_nat (c_index c - idx))%nat).
  Proof.
    induction ms as [|m ms IH]; intros tbl idx tbl'; cbn [save_messages].
    - intros [= <-] key c Hc. left. split; [done|set_solver].
    - intros H. res_inv. apply checked_ok in Hv as [_ ->]. intros key c Hc.
      apply (IH _ _ _ H) in Hc as [[Hc Hno]|(Hid & Hk & Hle & Hms & Hlast)].
      + destruct (decide (message_key k m = key)) as [<-|Hne].
        * rewrite lookup_insert in Hc. injection Hc as <-. right. cbn. rewrite N.sub_diag.
          split_and!; [done|done|lia|done|]. intros [|j] m' Hj Hk; [done|].
          exfalso. by eapply Hno; [eapply elem_of_list_lookup_2|].
        * rewrite lookup_insert_ne in Hc by done. left. split; [done|].
          intros m' [->|Hm']%elem_of_cons; auto.
      + right. split_and!; [done|done|lia| |].
        * replace (N.to_nat (c_index c - idx)) with (S (N.to_nat (c_index c - (idx + 1)))) by lia. done.
        * intros [|j] m' Hj Hk'; [lia|]. specialize (Hlast j m' Hj Hk'). lia.
  Qed.

  Lemma entries ops : let s := vrun k cfg ops in let l := vlog k cfg ops in
    vrun k cfg l.*1 = s /\
    (forall key c, v_messages s !! key = Some c -> asked_for l (c_poll c) (N.to_nat (c_index c)) (c_content c)) /\
    (forall key c, v_worker_sets s !! key = Some c -> set_asked_for l (c_poll c) (c_content c) /\ c_index c = 0 /\
       key = operators_key k (c_content c)).
  Proof.
    intros s0 l0. apply (run_log_inv step (fun s l => vrun k cfg l.*1 = s /\
      (forall key c, v_messages s !! key = Some c -> asked_for l (c_poll c) (N.to_nat (c_index c)) (c_content c)) /\
      (forall key c, v_worker_sets s !! key = Some c -> set_asked_for l (c_poll c) (c_content c) /\ c_index c = 0 /\
         key = operators_key k (c_content c)))).
    { split; [done|]. split; intros key c; cbn; by rewrite lookup_empty. }
    intros s l op s' out (Hr & Hm & Hw) Hstep.
    assert (Hm' : forall id idx m, asked_for l id idx m -> asked_for (l ++ [(op, out)]) id idx m).
    { intros id idx m (l1 & h & reg & ms & sts & es & meta & l2 & -> & H).
      exists l1, h, reg, ms, sts, es, meta, (l2 ++ [(op, out)]). by rewrite <- app_assoc. }
    assert (Hw' : forall id o, set_asked_for l id o ->
       (forall h reg mid o', op = VerifyWorkerSet h reg mid o' -> operators_key k o' <> operators_key k o) ->
       set_asked_for (l ++ [(op, out)]) id o).
    { intros id o (l1 & h & reg & mid & tx & n & meta & l2 & -> & Hid & H) Hno.
      exists l1, h, reg, mid, tx, n, meta, (l2 ++ [(op, out)]). rewrite <- app_assoc. split; [done|]. split; [done|].
      intros h' reg' mid' o' out' [Hin|Hin]%elem_of_app; [by eapply H|].
      apply elem_of_list_singleton in Hin. injection Hin as <- <-. by eapply Hno. }
    split.
    { rewrite fmap_app. unfold vrun in *. cbn [fmap list_fmap fst]. rewrite run_snoc, Hr. unfold exec. by rewrite Hstep. }
    assert (Hsame : v_messages s' = v_messages s -> forall key c, v_messages s' !! key = Some c ->
        asked_for (l ++ [(op, out)]) (c_poll c) (N.to_nat (c_index c)) (c_content c)).
    { intros -> key c Hc. by eapply Hm', Hm. }
    assert (Hsame2 : v_worker_sets s' = v_worker_sets s -> (forall h reg mid o', op <> VerifyWorkerSet h reg mid o') ->
        forall key c, v_worker_sets s' !! key = Some c -> set_asked_for (l ++ [(op, out)]) (c_poll c) (c_content c) /\ c_index c = 0 /\
         key = operators_key k (c_content c)).
    { intros -> Hno key c Hc. destruct (Hw _ _ Hc) as [? [? ?]]. split; [|done]. apply Hw'; [done|]. intros * E. by apply Hno in E. }
    destruct op as [h reg ms|h reg mid o|h a i vs|h i]; cbn in Hstep.
    - apply verify_messages_ok in Hstep as (_ & _ & sts & _ & [(_ & -> & ->)|(_ & Hopen)]).
      { split; [by apply Hsame|]. by apply Hsame2. }
      destruct Hopen as (workers & snap & tbl & events & _ & _ & _ & _ & Htbl & _ & -> & ->).
      split; [|by apply Hsame2]. intros key c Hc. cbn in Hc.
      apply (save_messages_latest _ _ _ _ _ Htbl) in Hc as [[Hc _]|(Hid & Hk & _ & Hms & Hlast)]; [by eapply Hm', Hm|].
      rewrite N.sub_0_r in *. exists l, h, reg, ms, sts, events, (metadata (v_config s) (v_poll_id s + 1) h snap), [].
      split; [done|]. rewrite Hr. split; [done|]. split; [done|]. intros j m' Hj Hk'. apply (Hlast _ _ Hj). by rewrite Hk.
    - apply verify_worker_set_ok in Hstep as (st & workers & snap & tx & ix & _ & _ & _ & _ & _ & -> & ->).
      split; [by apply Hsame|]. intros key c Hc. cbn in Hc.
      destruct (decide (operators_key k o = key)) as [<-|Hne].
      + rewrite lookup_insert in Hc. injection Hc as <-. cbn. split; [|done].
        eexists l, h, reg, mid, tx, ix, _, []. split; [done|]. split; [done|]. intros * Hin. by apply elem_of_nil in Hin.
      + rewrite lookup_insert_ne in Hc by done. destruct (Hw _ _ Hc) as [? [? ?]]. split; [|done].
        apply Hw'; [done|]. intros * [= -> -> -> ->]. by subst key.
    - apply verifier_vote_ok in Hstep as (vp1 & p' & _ & _ & -> & _). split; [by apply Hsame|by apply Hsame2].
    - apply verifier_end_poll_ok in Hstep as (vp1 & p' & _ & _ & -> & _). split; [by apply Hsame|by apply Hsame2].
  Qed.

  Lemma opens_once ops l1 e l2 l1' e' l2' id :
    vlog k cfg ops = l1 ++ e :: l2 -> vlog k cfg ops = l1' ++ e' :: l2' ->
    opened_id e.2 = Some id -> opened_id e'.2 = Some id -> l1 = l1' /\ e = e' /\ l2 = l2'.
  Proof.
    intros H1 H2 He He'. eapply (nodup_split (fun e => opened_id e.2) id); [|by rewrite <- H1, <- H2|done|done].
    rewrite <- H1. pose proof (c10_ids k cfg ops) as [Hs _]. unfold opened in Hs.
    induction Hs as [|x l Hl IH Hx]; constructor; [|done]. intros Hin. rewrite Forall_forall in Hx. apply Hx in Hin. lia.
  Qed.
  Lemma opens_opened e id expires workers subj : opens cfg e id expires workers subj -> opened_id e.2 = Some id.
  Proof.
    destruct e as [[]  out]; cbn [opens snd]; destruct out as [? [[]|]| | |]; try done; intros [H _]; cbn in *; congruence.
  Qed.

  (** A Verified message was asked about, and voted for at the last place it
      had in that poll. *)
  Lemma c93_conv ops m :
    valid_vconfig cfg -> message_status k (vrun k cfg ops) m = Ok Verified ->
    exists l1 h reg ms sts es meta l2 workers idx,
      vlog k cfg ops = l1 ++ (VerifyMessages h reg ms, OutVerify sts (Some (es, meta))) :: l2 /\
      (let asked := List.filter (wants_poll k (vrun k cfg l1.*1)) ms in
       asked !! idx = Some m /\
       forall j m', asked !! j = Some m' -> message_key k m' = message_key k m -> (j <= idx)%nat) /\
      reg (vc_registry cfg) (vc_service cfg) (vc_chain cfg) = Some workers /\
      vouched (vc_threshold cfg) l2 (pm_poll_id meta) (h + vc_expiry cfg) workers idx.
  Proof.
    intros Hcfg Hv. pose proof (inv_run k cfg ops) as [Hc Hp _ _]. pose proof (entries ops) as (_ & Hms & _).
    apply status_verified in Hv as (c & vp & Hst & Hcc & Hvp & Hpc).
    apply Hms in Hst as (l1' & h & reg & ms & sts & es & meta & l2' & Hl' & Hid & Hi & Hlast).
    apply Hp in Hvp as [_ (l1 & e & l2 & ex & ws & x & snap & [Hl Ho Hs Hpo _ _])].
    destruct (opens_once _ _ _ _ _ _ _ (c_poll c) Hl Hl') as (-> & -> & ->).
    { by eapply opens_opened. } { cbn. by rewrite Hid. }
    cbn [opens] in Ho. destruct Ho as (_ & -> & _ & _ & _ & _ & _ & Hreg & todo & -> & _).
    subst vp m. rewrite subject_poll_poll in Hpc.
    exists l1', h, reg, ms, sts, es, meta, l2', ws, (N.to_nat (c_index c)).
    split; [done|]. split; [done|]. split; [done|]. rewrite Hid. by eapply poll_vouched.
  Qed.
  Lemma c93_conv_set ops o :
    valid_vconfig cfg -> worker_set_status k (vrun k cfg ops) o = Ok Verified ->
    exists l1 h reg mid tx n meta l2 workers,
      vlog k cfg ops = l1 ++ (VerifyWorkerSet h reg mid o, OutWorkerSet tx n o meta) :: l2 /\
      reg (vc_registry cfg) (vc_service cfg) (vc_chain cfg) = Some workers /\
      vouched (vc_threshold cfg) l2 (pm_poll_id meta) (h + vc_expiry cfg) workers 0 /\
      (forall h' reg' mid' o' out, (VerifyWorkerSet h' reg' mid' o', out) ∈ l2 -> operators_key k o' <> operators_key k o).
  Proof.
    intros Hcfg Hv. pose proof (inv_run k cfg ops) as [Hc Hp _ _]. pose proof (entries ops) as (_ & _ & Hws).
    apply status_verified in Hv as (c & vp & Hst & Hcc & Hvp & Hpc).
    apply Hws in Hst as ((l1' & h & reg & mid & tx & n & meta & l2' & Hl' & Hid & Hno) & Hi & _).
    apply Hp in Hvp as [_ (l1 & e & l2 & ex & ws & x & snap & [Hl Ho Hs Hpo _ _])].
    destruct (opens_once _ _ _ _ _ _ _ (c_poll c) Hl Hl') as (-> & -> & ->).
    { by eapply opens_opened. } { cbn. by rewrite Hid. }
    cbn [opens] in Ho. destruct Ho as (_ & -> & _ & _ & _ & _ & _ & Hreg & -> & _).
    subst vp o. rewrite subject_poll_poll, Hi in Hpc.
    exists l1', h, reg, mid, tx, n, meta, l2', ws. 
    split; [done|]. split; [done|]. split; [|done]. rewrite Hid. by eapply poll_vouched.
  Qed.
End Entries.
