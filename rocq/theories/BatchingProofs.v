(** C53: proofs. *)
From Verif Require Import Base BaseLemmas Text BatchingModel BatchingSpec.

Section Batching.
  Context {S M : Type} (exec : S -> M -> res string (S * list event)).
  Notation must l := ((fun m : M => Build_submsg 0 m ReplyNever) <$> l).
  Notation can n l := ((fun '(i, m) => Build_submsg i m ReplyAlways) <$> enumerate n l).
  Notation all_ := (host_all exec).

  Lemma host_app accepts s l1 l2 : all_ accepts s (l1 ++ l2) =
    (let? (s1, e1) := all_ accepts s l1 in let? (s2, e2) := all_ accepts s1 l2 in Ok (s2, e1 ++ e2)).
  Proof.
    revert s. induction l1 as [|m l1 IH]; intros s; cbn.
    - destruct (all_ accepts s l2) as [[]| |]; done.
    - destruct (host_one exec accepts s m) as [[s1 e1]| |]; cbn; [|done..]. rewrite IH.
      destruct (all_ accepts s1 l1) as [[s2 e2]| |]; cbn; [|done..].
      destruct (all_ accepts s2 l2) as [[s3 e3]| |]; cbn; [|done..]. by rewrite app_assoc.
  Qed.

  Lemma must_iff accepts s l s' evs : all_ accepts s (must l) = Ok (s', evs) <-> all_succeed exec s l s' evs.
  Proof.
    split.
    - revert s evs. induction l as [|m l IH]; intros s evs; cbn; [intros [= <- <-]; constructor|].
      unfold host_one. cbn. destruct (exec s m) as [[s1 e1]|e|] eqn:E; cbn; [|done..].
      destruct (all_ accepts s1 (must l)) as [[s2 e2]| |] eqn:El; cbn; [|done..].
      intros [= <- <-]. econstructor; [done|]. by apply IH.
    - induction 1 as [s|s m s1 e1 l s2 e2 Hm Hl IH]; [done|]. cbn. unfold host_one. cbn. rewrite Hm. cbn.
      by rewrite IH.
  Qed.

  Definition always : list event -> bool := fun _ => true.
  Lemma succ_add i : N.succ i = i + 1. Proof. lia. Qed.
  Lemma can_iff i s l s' evs : all_ always s (can i l) = Ok (s', evs) <-> all_tried exec i s l s' evs.
  Proof.
    split.
    - revert i s evs. induction l as [|m l IH]; intros i s evs; cbn; [intros [= <- <-]; constructor|].
      unfold host_one. cbn. destruct (exec s m) as [[s1 e1]|e|] eqn:E; cbn.
      + destruct (all_ always s1 (can (N.succ i) l)) as [[s2 e2]| |] eqn:El; cbn; [|done..].
        intros [= <- <-]. rewrite <- app_assoc. eapply tried_ok; [done|]. apply IH. by rewrite <- succ_add.
      + destruct (all_ always s (can (N.succ i) l)) as [[s2 e2]| |] eqn:El; cbn; [|done..].
        intros [= <- <-]. apply (tried_fail exec i s m e); [by left|]. apply IH. by rewrite <- succ_add.
      + destruct (all_ always s (can (N.succ i) l)) as [[s2 e2]| |] eqn:El; cbn; [|done..].
        intros [= <- <-]. apply (tried_fail exec i s m ""); [by right|]. apply IH. by rewrite <- succ_add.
    - induction 1 as [i s|i s m s1 e1 l s2 e2 Hm Hl IH|i s m why l s2 e2 Hm Hl IH]; [done|..]; cbn; unfold host_one; cbn;
        rewrite <- succ_add in IH.
      + rewrite Hm. cbn. rewrite IH. cbn. by rewrite <- app_assoc.
      + destruct Hm as [Hm|[Hm ->]]; rewrite Hm; cbn; by rewrite IH.
  Qed.

  Lemma tried_total i s l : exists s' evs, all_tried exec i s l s' evs.
  Proof.
    revert i s. induction l as [|m l IH]; intros i s; [eexists _, _; constructor|].
    destruct (exec s m) as [[s1 e1]|e|] eqn:E.
    - destruct (IH (i + 1) s1) as (s' & evs & H). eexists _, _. by eapply tried_ok.
    - destruct (IH (i + 1) s) as (s' & evs & H). eexists _, _. eapply tried_fail; [by left|done].
    - destruct (IH (i + 1) s) as (s' & evs & H). eexists _, _. eapply tried_fail; [by right|done].
  Qed.

  Lemma c53_batch s b s' evs : host_batch exec always s b = Ok (s', evs) <->
    exists s1 e1 e2, all_succeed exec s (bm_must b) s1 e1 /\ all_tried exec 0 s1 (bm_can b) s' e2 /\ evs = e1 ++ e2.
  Proof.
    unfold host_batch, dispatch. rewrite host_app. split.
    - intros H. apply rbind_ok in H as ([s1 e1] & H1 & H). apply rbind_ok in H as ([s2 e2] & H2 & H).
      injection H as <- <-. exists s1, e1, e2. rewrite must_iff in H1. rewrite can_iff in H2. done.
    - intros (s1 & e1 & e2 & H1 & H2 & ->). apply (must_iff always) in H1. rewrite H1. cbn. apply can_iff in H2.
      by rewrite H2.
  Qed.

  Lemma c53_optional s must_ can_ :
    is_ok (host_batch exec always s {| bm_must := must_; bm_can := can_ |}) = true <->
    exists s1 e1, all_succeed exec s must_ s1 e1.
  Proof.
    split.
    - destruct (host_batch _ _ _ _) as [[s' evs]| |] eqn:E; [|done..]. intros _.
      apply c53_batch in E as (s1 & e1 & e2 & H & _). eauto.
    - intros (s1 & e1 & H). destruct (tried_total 0 s1 can_) as (s' & e2 & H2).
      assert (host_batch exec always s {| bm_must := must_; bm_can := can_ |} = Ok (s', e1 ++ e2)) as ->; [|done].
      apply c53_batch. eauto 10.
  Qed.

  Lemma succeed_fun s l s1 e1 s2 e2 : all_succeed exec s l s1 e1 -> all_succeed exec s l s2 e2 -> s1 = s2 /\ e1 = e2.
  Proof. rewrite <- !(must_iff always). intros -> [= <- <-]. done. Qed.
  Lemma succeed_app_inv s l1 l2 s2 e : all_succeed exec s (l1 ++ l2) s2 e ->
    exists s1 e1 e2, all_succeed exec s l1 s1 e1 /\ all_succeed exec s1 l2 s2 e2.
  Proof.
    revert s e. induction l1 as [|m l1 IH]; intros s e H; cbn in H.
    - eexists s, [], _. split; [constructor|done].
    - inversion H as [|? ? s1 e1 ? ? e2 Hm Hl]; subst. destruct (IH _ _ Hl) as (s3 & e3 & e4 & H1 & H2).
      exists s3, (e1 ++ e3), e4. split; [by econstructor|done].
  Qed.

  Lemma c53_mandatory accepts s l1 m l2 can_ s1 e1 why :
    all_succeed exec s l1 s1 e1 -> fails exec s1 m why ->
    is_ok (host_batch exec accepts s {| bm_must := l1 ++ m :: l2; bm_can := can_ |}) = false.
  Proof.
    intros H1 Hf. unfold host_batch, dispatch. cbn [bm_must bm_can]. rewrite host_app.
    destruct (all_ accepts s (must (l1 ++ m :: l2))) as [[s2 e2]| |] eqn:E; [|done..].
    apply must_iff in E. apply succeed_app_inv in E as (s3 & e3 & e4 & H2 & H3).
    destruct (succeed_fun _ _ _ _ _ _ H1 H2) as [<- _]. inversion H3 as [|? ? ? ? ? ? ? Hm]; subst.
    destruct Hf as [Hf|[Hf _]]; by rewrite Hf in Hm.
  Qed.

  (** the host may refuse what the reply adds *)
  Lemma c53_refused accepts s must_ l1 m l2 s1 e1 s2 e2 s3 e3 :
    all_succeed exec s must_ s1 e1 -> all_tried exec 0 s1 l1 s2 e2 ->
    exec s2 m = Ok (s3, e3) -> accepts e3 = false ->
    is_ok (host_batch exec accepts s {| bm_must := must_; bm_can := l1 ++ m :: l2 |}) = false.
  Proof.
    intros H1 H2 Hm Ha. unfold host_batch, dispatch. cbn [bm_must bm_can]. rewrite host_app.
    apply (must_iff accepts) in H1. rewrite H1. cbn. clear H1.
    assert (is_ok (all_ accepts s1 (can 0 (l1 ++ m :: l2))) = false) as Hx.
    { clear e1 s must_. revert Hm. generalize 0 H2. clear H2. intros i H2. induction H2 as [i s|i s m' s1' e1' l s2' e2' Hm' Hl IH|i s m' why l s2' e2' Hm' Hl IH]; intros Hm.
      - cbn. unfold host_one. cbn. rewrite Hm. cbn. by rewrite Ha.
      - cbn. unfold host_one. cbn. rewrite Hm'. cbn. destruct (accepts e1'); [|done]. cbn.
        rewrite succ_add. specialize (IH Hm). by destruct (all_ accepts s1' _) as [[]| |].
      - cbn. unfold host_one. cbn. rewrite succ_add. specialize (IH Hm).
        destruct Hm' as [Hm'|[Hm' ->]]; rewrite Hm'; cbn;
          match goal with |- context [accepts ?x] => destruct (accepts x) end; cbn; try done;
          by destruct (all_ accepts s _) as [[]| |]. }
    by destruct (all_ accepts s1 _) as [[]| |].
  Qed.

  (** the report of a failure names the failed call *)
  Lemma tried_split i s l s' evs k m : all_tried exec i s l s' evs -> l !! k = Some m ->
    exists s1 e1, all_tried exec i s (take k l) s1 e1 /\
      (forall why, fails exec s1 m why -> failure (i + N.of_nat k) why ∈ evs) /\
      (forall s2 e2, exec s1 m = Ok (s2, e2) -> e2 ⊆ evs).
  Proof.
    intros H. revert k. induction H as [i s|i s m' s1 e1 l s2 e2 Hm Hl IH|i s m' why l s2 e2 Hm Hl IH]; intros k Hk; [done|..].
    - destruct k as [|k]; cbn in Hk.
      + injection Hk as ->. exists s, []. split; [constructor|]. split.
        * intros why [Hf|[Hf _]]; congruence.
        * rewrite Hm. intros ? ? [= <- <-]. clear. set_solver.
      + destruct (IH _ Hk) as (s3 & e3 & H1 & H2 & H3). exists s3, (e1 ++ e1 ++ e3). split; [by eapply tried_ok|].
        replace (i + N.of_nat (Datatypes.S k)) with (i + 1 + N.of_nat k) by lia. split.
        * intros why Hw. apply elem_of_app. right. apply elem_of_app. right. auto.
        * intros s4 e4 He. specialize (H3 _ _ He). clear -H3. set_solver.
    - destruct k as [|k]; cbn in Hk.
      + injection Hk as ->. exists s, []. split; [constructor|]. split.
        * intros why' Hf. rewrite N.add_0_r. assert (why' = why) as ->; [|by left].
          destruct Hm as [Hm|[Hm ->]], Hf as [Hf|[Hf ->]]; congruence.
        * destruct Hm as [Hm|[Hm _]]; by rewrite Hm.
      + destruct (IH _ Hk) as (s3 & e3 & H1 & H2 & H3). exists s3, (failure i why :: e3). split; [by eapply tried_fail|].
        replace (i + N.of_nat (Datatypes.S k)) with (i + 1 + N.of_nat k) by lia. split.
        * intros why' Hw. right. auto.
        * intros s4 e4 He. specialize (H3 _ _ He). clear -H3. set_solver.
  Qed.

  Lemma c53_reported s b s' evs k m : host_batch exec always s b = Ok (s', evs) -> bm_can b !! k = Some m ->
    exists s0 e0 s1 e1, all_succeed exec s (bm_must b) s0 e0 /\ all_tried exec 0 s0 (take k (bm_can b)) s1 e1 /\
      (forall why, fails exec s1 m why -> failure (N.of_nat k) why ∈ evs) /\
      (forall s2 e2, exec s1 m = Ok (s2, e2) -> e2 ⊆ evs).
  Proof.
    intros H Hk. apply c53_batch in H as (s0 & e0 & e2 & H1 & H2 & ->).
    destruct (tried_split _ _ _ _ _ _ _ H2 Hk) as (s1 & e1 & H3 & H4 & H5). exists s0, e0, s1, e1.
    split; [done|]. split; [done|]. split.
    - intros why Hw. apply elem_of_app. right. apply H4 in Hw. by rewrite N.add_0_l in Hw.
    - intros s3 e3 He. apply H5 in He. clear -He. set_solver.
  Qed.
End Batching.
