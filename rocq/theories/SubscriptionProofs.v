(** Proofs about the subscription: what is published. *)
From Verif Require Import Base Text BaseLemmas EventsModel HandlersProofs SubscriptionModel SubscriptionSpec.

Section Proofs.
  Context (decode : string -> option string) (json : string -> option jval) (receivers : list event -> bool).

  Lemma frames_app a b : frames (a ++ b) = frames a ++ frames b.
  Proof. unfold frames. by rewrite fmap_app, concat_app. Qed.
  Lemma frames_cons b fs : frames (b :: fs) = frame b ++ frames fs.
  Proof. done. Qed.

  Lemma send_all_spec evs pub pub' r :
    send_all receivers pub evs = (pub', r) ->
    (exists new, pub' = pub ++ new /\ new `prefix_of` evs) /\ (r = Ok tt -> pub' = pub ++ evs) /\ r <> Panic.
  Proof.
    revert pub. induction evs as [|e evs IH]; intros pub H; cbn in H.
    - injection H as <- <-. split; [exists []; by rewrite app_nil_r|]. by rewrite app_nil_r.
    - destruct (receivers pub).
      + apply IH in H as ((new & -> & Hp) & H2 & H3). split; [|split; [|done]].
        * exists (e :: new). rewrite <- app_assoc. split; [done|]. by apply prefix_cons.
        * intros E. rewrite (H2 E), <- app_assoc. done.
      + injection H as <- <-. split; [exists []; rewrite app_nil_r; split; [done|apply prefix_nil]|]. done.
  Qed.

  Lemma block_frame_spec t h evs ins :
    block_frame decode json t h = Ok evs -> Tick t ∈ ins ->
    exists es, evs = frame (h, es) /\ answered decode json ins h es.
  Proof.
    unfold block_frame. intros H Hin. apply rbind_ok in H as (r & Hr & H). apply of_option_ok in Hr.
    apply rbind_ok in H as (es & Hes & H). apply of_option_ok in Hes. injection H as <-.
    exists es. split; [done|]. exists t, r. split; [done|]. split; [done|]. by apply opt_map_ok in Hes.
  Qed.

  Lemma process_block_spec t pub h pub' r ins :
    process_block decode json receivers t pub h = (pub', r) -> Tick t ∈ ins ->
    exists fs new, pub' = pub ++ new /\ new `prefix_of` frames fs /\ (fs = [] \/ exists es, fs = [(h, es)]) /\
      Forall (fun b => answered decode json ins b.1 b.2) fs /\
      (r = Ok tt -> new = frames fs /\ fs <> []).
  Proof.
    unfold process_block. intros H Hin.
    destruct (block_frame decode json t h) as [evs|e|] eqn:Hb.
    - destruct (block_frame_spec _ _ _ _ Hb Hin) as (es & -> & Ha).
      apply send_all_spec in H as ((new & -> & Hp) & Hok & Hpn). exists [(h, es)], new.
      unfold frames. cbn [fmap list_fmap concat]. rewrite app_nil_r.
      split; [done|]. split; [done|]. split; [by right; exists es|]. split; [by constructor|].
      intros E. split; [|done]. by eapply app_inv_head, Hok.
    - injection H as <- <-. exists [], []. rewrite app_nil_r. split; [done|]. split; [done|]. split; [by left|]. split; [constructor|done].
    - injection H as <- <-. exists [], []. rewrite app_nil_r. split; [done|]. split; [done|]. split; [by left|]. split; [constructor|done].
  Qed.

  Lemma increment_ok {E} h h' : increment (E:=E) h = Ok h' -> h' = h + 1.
  Proof. unfold increment. destruct (_ <? _); [|done]. by intros [= <-]. Qed.
  Lemma increment_no_err {E} h (e : E) : increment h <> Err e.
  Proof. unfold increment. by destruct (_ <? _). Qed.

  Lemma process_blocks_spec n t to pub h pub' r ins :
    process_blocks decode json receivers n t to pub h = (pub', r) -> Tick t ∈ ins -> n = N.to_nat (to + 1 - h) ->
    exists fs new, pub' = pub ++ new /\ new `prefix_of` frames fs /\ consecutive_from h fs.*1 /\
      Forall (fun b => answered decode json ins b.1 b.2) fs /\
      (forall h', r = Ok h' -> new = frames fs /\
        (h' + 1 = h + N.of_nat (length fs) /\ h' <= to \/ fs = [] /\ h' + 1 < h /\ h' = to) /\
        ((forall k, tk_cancelled t k = false) -> h' = to)).
  Proof.
    intros H Hin. revert pub h H. induction n as [|n IH]; intros pub h H Hn; cbn in H.
    - injection H as <- <-. exists [], []. rewrite app_nil_r. split; [done|]. split; [done|]. split; [done|].
      split; [constructor|]. intros h' [= <-]. split; [done|]. cbn. split; [|done].
      destruct (N.eq_dec (to + 1) h); [left; lia|right; split; [done|lia]].
    - destruct (N.leb_spec h to) as [Hle|Hgt]; [|lia].
      destruct (process_block decode json receivers t pub h) as [pub1 r1] eqn:Hp.
      destruct (process_block_spec _ _ _ _ _ _ Hp Hin) as (fs & new & -> & Hpre & Hfs & Hans & Hok).
      assert (Hstop : forall fs', fs' = fs -> consecutive_from h fs'.*1).
      { intros ? ->. destruct Hfs as [->|[es ->]]; [done|]. cbn. done. }
      destruct r1 as [[]|e|].
      + destruct (Hok eq_refl) as [-> Hne]. destruct Hfs as [->|[es ->]]; [done|].
        destruct (tk_cancelled t h) eqn:Hc.
        * injection H as <- <-. exists [(h, es)], (frames [(h, es)]). split; [done|]. split; [done|].
          split; [by apply Hstop|]. split; [done|]. intros h' [= <-]. split; [done|]. split; [left; cbn; lia|].
          intros Hk. by rewrite Hk in Hc.
        * destruct (increment h) as [h1|e|] eqn:Hi.
          -- apply increment_ok in Hi as ->. apply IH in H as (fs2 & new2 & -> & Hp2 & Hc2 & Ha2 & Hr2); [|lia].
             exists ((h, es) :: fs2), (frame (h, es) ++ new2). unfold frames at 1. cbn [fmap list_fmap concat].
             rewrite app_nil_r. rewrite <- app_assoc. split; [done|].
             split; [rewrite frames_cons; by apply prefix_app|]. split; [done|].
             split; [apply Forall_app_2 with (l1 := [(h, es)]); done|].
             intros h' Hh'. destruct (Hr2 _ Hh') as (-> & Hlen & Hto). split; [done|]. split; [|done].
             cbn [length]. destruct Hlen as [Hlen|(-> & ? & ?)]; [left; lia|]. left. cbn. lia.
          -- by apply increment_no_err in Hi.
          -- injection H as <- <-. exists [(h, es)], (frames [(h, es)]). split; [done|]. split; [done|].
             split; [by apply Hstop|]. split; [done|]. done.
      + injection H as <- <-. exists fs, new. split; [done|]. split; [done|]. split; [by apply Hstop|]. done.
      + injection H as <- <-. exists fs, new. split; [done|]. split; [done|]. split; [by apply Hstop|]. done.
  Qed.

  (** *** Heights *)
  Lemma consecutive_app a hs1 hs2 :
    consecutive_from a hs1 -> consecutive_from (a + N.of_nat (length hs1)) hs2 -> consecutive_from a (hs1 ++ hs2).
  Proof.
    revert a. induction hs1 as [|h hs1 IH]; intros a H1 H2; cbn in *; [by rewrite N.add_0_r in H2|].
    destruct H1 as [-> H1]. split; [done|]. apply IH; [done|]. by replace (a + 1 + _) with (a + N.pos (Pos.of_succ_nat (length hs1))) by lia.
  Qed.
  Lemma no_gaps_mono a b hs : a <= b -> no_gaps a hs -> no_gaps b hs.
  Proof. destruct hs; cbn; [done|]. intros ? []. split; [lia|done]. Qed.
  Lemma consecutive_no_gaps_app a hs1 b hs2 :
    consecutive_from a hs1 -> b <= a + N.of_nat (length hs1) -> no_gaps b hs2 -> no_gaps a (hs1 ++ hs2).
  Proof.
    revert a. induction hs1 as [|h hs1 IH]; intros a H1 Hb H2; cbn in *; [by eapply no_gaps_mono; [|done]; lia|].
    destruct H1 as [-> H1]. split; [lia|]. apply IH; [done|lia|done].
  Qed.
  Lemma consecutive_no_gaps a hs : consecutive_from a hs -> no_gaps a hs.
  Proof. revert a. induction hs as [|h hs IH]; intros a; cbn; [done|]. intros [-> H]. split; [lia|auto]. Qed.

  Definition published_ok (e : sub_end) : Prop := (exists h, e = SubAt h) \/ e = SubStopped.

  Lemma sub_loop_spec all ins pub curr pub' e :
    sub_loop decode json receivers pub curr ins = (pub', e) -> ins ⊆ all ->
    exists fs new, pub' = pub ++ new /\ new `prefix_of` frames fs /\ no_gaps curr fs.*1 /\
      Forall (fun b => answered decode json all b.1 b.2) fs /\
      (published_ok e -> new = frames fs) /\
      (latest_grow curr ins -> consecutive_from curr fs.*1 /\ forall c, e = SubAt c -> c = curr + N.of_nat (length fs)).
  Proof.
    revert pub curr. induction ins as [|[t|] ins IH]; intros pub curr H Hall; cbn in H.
    - injection H as <- <-. exists [], []. rewrite app_nil_r. split; [done|]. split; [done|]. split; [done|]. split; [done|].
      split; [done|]. intros _. split; [done|]. cbn. intros c [= <-]. lia.
    - destruct (process_blocks_from decode json receivers t pub curr) as [pub1 r] eqn:Hp.
      unfold process_blocks_from in Hp. destruct (tk_latest t) as [to|] eqn:Hto.
      2:{ injection Hp as <- <-. injection H as <- <-. exists [], []. rewrite app_nil_r.
          split; [done|]. split; [done|]. split; [done|]. split; [done|]. split; [done|]. intros _. split; done. }
      apply (process_blocks_spec _ _ _ _ _ _ _ all) in Hp as (fs & new & -> & Hpre & Hc & Ha & Hr); [|set_solver|done].
      assert (Hend : forall e', (forall c, e' <> SubAt c) -> e' <> SubStopped ->
        exists fs' new', pub ++ new = pub ++ new' /\ new' `prefix_of` frames fs' /\ no_gaps curr fs'.*1 /\
          Forall (fun b => answered decode json all b.1 b.2) fs' /\ (published_ok e' -> new' = frames fs') /\
          (latest_grow curr (Tick t :: ins) -> consecutive_from curr fs'.*1 /\ forall c, e' = SubAt c -> c = curr + N.of_nat (length fs'))).
      { intros e' H1 H2. exists fs, new. split; [done|]. split; [done|]. split; [by apply consecutive_no_gaps|]. split; [done|].
        split. { intros [[c ->]| ->]; [by destruct (H1 c)|done]. } intros _. split; [done|]. intros c ->. by destruct (H1 c). }
      destruct r as [h|er|].
      + destruct (Hr h eq_refl) as (-> & Hlen & _).
        destruct (increment h) as [h1|er|] eqn:Hi.
        * apply increment_ok in Hi as ->. apply IH in H as (fs2 & new2 & -> & Hp2 & Hg2 & Ha2 & Hok2 & Hgr2); [|set_solver].
          exists (fs ++ fs2), (frames fs ++ new2). rewrite <- app_assoc. split; [done|].
          rewrite frames_app. split; [by apply prefix_app|]. rewrite fmap_app.
          split. { eapply consecutive_no_gaps_app; [done| |exact Hg2]. rewrite fmap_length. destruct Hlen as [[]|(-> & ?)]; cbn; lia. }
          split; [by apply Forall_app_2|]. split; [intros He; by rewrite (Hok2 He)|].
          cbn [latest_grow]. rewrite Hto. intros [Hlow Hgrow].
          assert (Hh : h + 1 = curr + N.of_nat (length fs)).
          { destruct Hlen as [[]|(-> & ? & ->)]; cbn; lia. }
          assert (Hg' : latest_grow (h + 1) ins).
          { assert (h + 1 <= to + 1) as Hle by (destruct Hlen as [[]|(_ & _ & ->)]; lia). clear -Hgrow Hle.
            revert Hgrow Hle. generalize (to + 1), (h + 1). induction ins as [|[t|] ins IH]; intros a b; cbn; [done| |apply IH].
            destruct (tk_latest t); [|apply IH]. intros [] ?. split; [lia|done]. }
          destruct (Hgr2 Hg') as [Hc2 Hlen2]. split.
          -- apply consecutive_app; [done|]. rewrite fmap_length. by rewrite <- Hh.
          -- intros c Hce. rewrite (Hlen2 c Hce), app_length. lia.
        * by apply increment_no_err in Hi.
        * injection H as <- <-. by apply Hend.
      + injection H as <- <-. by apply Hend.
      + injection H as <- <-. by apply Hend.
    - injection H as <- <-. exists [], []. rewrite app_nil_r. split; [done|]. split; [done|]. split; [done|]. split; [done|].
      split; [done|]. intros _. split; done.
  Qed.
End Proofs.
