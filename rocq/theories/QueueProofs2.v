From Verif Require Import Base BaseLemmas Text QueueModel QueueSpec QueueProofs.

Lemma total_app {M} (l1 l2 : list (M * N)) : total_gas (l1 ++ l2) = total_gas l1 + total_gas l2.
Proof. unfold total_gas. rewrite fmap_app. induction (snd <$> l1) as [|x l IH]; cbn; [done|]. rewrite IH. lia. Qed.

Lemma priced_app {M} (c1 c2 : list (call M)) known :
  priced known (c1 ++ c2) = priced known c1 ++ priced (unsent known c1) c2.
Proof.
  revert known. induction c1 as [|[ms [g|]|ms ok] c1 IH]; intros known; cbn; [done|by rewrite IH..|].
  by rewrite IH.
Qed.

Section Gas.
  Context {B M : Type}.
  Context (estimate : B -> list M -> B * option N) (broadcast : B -> list M -> B * bool) (limit : N).
  Notation qstep := (qstep estimate broadcast limit).
  Notation qloop := (qloop estimate broadcast limit).
  Notation qrun := (qrun estimate broadcast limit).
  Notation broadcast_all := (broadcast_all broadcast).

  Definition gas_inv (q : msg_queue M) (known : list (M * N)) : Prop :=
    fst <$> known = mq_msgs q /\ mq_gas q = total_gas known /\ ((2 <= length known)%nat -> total_gas known < limit).

  Definition batch_ok (b : list M * list (M * N)) : Prop :=
    b.1 <> [] /\ fst <$> b.2 = b.1 /\ ((2 <= length b.1)%nat -> total_gas b.2 < limit).

  Lemma gas_inv_new : gas_inv mq_new [].
  Proof. split; [done|]. split; [done|]. cbn. lia. Qed.

  Lemma take_known (q : msg_queue M) known l : gas_inv q known -> take (length (mq_msgs q)) (known ++ l) = known.
  Proof. intros (H & _). rewrite <- H, fmap_length. apply take_app. Qed.
  Lemma drop_known (q : msg_queue M) known l : gas_inv q known -> drop (length (mq_msgs q)) (known ++ l) = l.
  Proof. intros (H & _). rewrite <- H, fmap_length. apply drop_app. Qed.

  Lemma gas_inv_batch (q : msg_queue M) known : gas_inv q known -> mq_msgs q <> [] -> batch_ok (mq_msgs q, known).
  Proof.
    intros (H1 & _ & H3) Hm. split; [done|]. split; [done|]. cbn [fst snd]. rewrite <- H1, fmap_length. apply H3.
  Qed.

  Lemma qstep_gas b q i b' calls o known : gas_inv q known -> qstep b q i = (b', calls, o) ->
    Forall batch_ok (priced known calls) /\ (forall q', o = Running q' -> gas_inv q' (unsent known calls)).
  Proof.
    intros Hinv.
    assert (Hflush : forall b b' calls ok q', broadcast_all b q = (b', calls, ok, q') -> forall l,
      Forall batch_ok (priced (known ++ l) calls) /\ unsent (known ++ l) calls = l /\ q' = mq_new).
    { intros b0 b1 cs ok q1 Hb l. apply broadcast_all_spec in Hb as [-> [(Hm & -> & _ & _)|(Hm & ->)]].
      - split; [by apply Forall_nil|]. split; [|done]. cbn. destruct Hinv as (H & _). rewrite Hm in H.
        apply fmap_nil_inv in H. by subst known.
      - cbn. rewrite take_known, drop_known by done. split; [|done].
        apply Forall_singleton. by apply gas_inv_batch. }
    assert (Hflush0 : forall b b' calls ok q', broadcast_all b q = (b', calls, ok, q') ->
      Forall batch_ok (priced known calls) /\ unsent known calls = [] /\ q' = mq_new).
    { intros b0 b1 cs ok q1 Hb. specialize (Hflush _ _ _ _ _ Hb []). by rewrite app_nil_r in Hflush. }
    destruct i as [m| | |]; cbn [QueueModel.qstep].
    - unfold on_msg. destruct (estimate b [m]) as [b1 [g|]].
      2: { intros [= <- <- <-]. cbn. split; [by apply Forall_nil|done]. }
      destruct (add_u64 g (mq_gas q)) as [total| |] eqn:Ht.
      2,3: intros [= <- <- <-]; cbn; split; [by apply Forall_nil|done].
      apply add_u64_ok in Ht as [Hb64 ->].
      destruct (limit <=? g + mq_gas q) eqn:Hl.
      + destruct (broadcast_all b1 q) as [[[b2 cs] ok] q1] eqn:Hb.
        destruct (Hflush _ _ _ _ _ Hb [(m, g)]) as (Hp & Hu & ->).
        destruct ok.
        2: { intros [= <- <- <-]. cbn. split; [done|done]. }
        unfold mq_push. cbn [mq_new mq_gas mq_msgs].
        destruct (add_u64 0 g) as [g'| |] eqn:Hg; cbn [rbind];
        intros [= <- <- <-]; cbn [priced unsent fmap list_fmap]; (split; [done|]); [|done..].
        apply add_u64_ok in Hg as [_ ->]. intros q' [= <-]. rewrite Hu. split; [done|].
        split; [cbn; lia|]. cbn. lia.
      + unfold mq_push. destruct (add_u64 (mq_gas q) g) as [g'| |] eqn:Hg; cbn [rbind];
        intros [= <- <- <-]; cbn [priced unsent fmap list_fmap]; (split; [by apply Forall_nil|]); [|done..].
        apply add_u64_ok in Hg as [_ ->]. intros q' [= <-]. destruct Hinv as (H1 & H2 & H3).
        apply N.leb_gt in Hl. split; [cbn [mq_msgs]; by rewrite fmap_app, H1|].
        split; [cbn [mq_gas]; rewrite total_app; cbn; lia|]. intros _. rewrite total_app. cbn. lia.
    - destruct (broadcast_all b q) as [[[b1 cs] ok] q1] eqn:Hb.
      destruct (Hflush0 _ _ _ _ _ Hb) as (Hp & Hu & ->). intros [= <- <- <-]. split; [done|].
      destruct ok; [|done]. intros q' [= <-]. rewrite Hu. apply gas_inv_new.
    - destruct (broadcast_all b q) as [[[b1 cs] ok] q1] eqn:Hb.
      destruct (Hflush0 _ _ _ _ _ Hb) as (Hp & Hu & ->). intros [= <- <- <-]. split; [done|].
      destruct ok; [|done]. intros q' [= <-]. rewrite Hu. apply gas_inv_new.
    - destruct (broadcast_all b q) as [[[b1 cs] ok] q1] eqn:Hb.
      destruct (Hflush0 _ _ _ _ _ Hb) as (Hp & Hu & ->). intros [= <- <- <-]. split; [done|].
      destruct ok; done.
  Qed.

  Lemma qloop_gas b q ins b' calls o known : gas_inv q known -> qloop b q ins = (b', calls, o) ->
    Forall batch_ok (priced known calls) /\ (forall q', o = Running q' -> gas_inv q' (unsent known calls)).
  Proof.
    revert b q b' calls o known. induction ins as [|i ins IH]; intros b q b' calls o known Hinv; cbn [QueueModel.qloop].
    - intros [= <- <- <-]. split; [by apply Forall_nil|]. by intros q' [= <-].
    - destruct (qstep b q i) as [[b1 c1] o1] eqn:Hs. destruct (qstep_gas _ _ _ _ _ _ _ Hinv Hs) as [Hp Hr].
      destruct o1 as [q1| | |]; [|intros [= <- <- <-]; split; [done|done]..].
      destruct (qloop b1 q1 ins) as [[b2 c2] o2] eqn:Hl. intros [= -> <- ->].
      destruct (IH _ _ _ _ _ _ (Hr _ eq_refl) Hl) as [Hp2 Hr2].
      rewrite priced_app. split; [by apply Forall_app|].
      intros q' Hq. specialize (Hr2 _ Hq). clear -Hr2.
      assert (forall known, unsent known (c1 ++ c2) = unsent (unsent known c1) c2) as H.
      { clear Hr2. induction c1 as [|[ms [g|]|ms ok] c1 IH]; intros kn; cbn; [done|by rewrite IH..]. }
      by rewrite H.
  Qed.

  Lemma c56_gas b ins b' calls o : qrun b ins = (b', calls, o) ->
    Forall (fun '(ms, est) => ms <> [] /\ fst <$> est = ms /\ ((2 <= length ms)%nat -> total_gas est < limit))
      (priced [] calls).
  Proof.
    intros H. destruct (qloop_gas _ _ _ _ _ _ _ gas_inv_new H) as [Hp _].
    eapply Forall_impl; [exact Hp|]. intros [ms est]. done.
  Qed.

  Lemma priced_batches known (calls : list (call M)) : fst <$> priced known calls = fst <$> batches calls.
  Proof. revert known. induction calls as [|[ms [g|]|ms ok] c IH]; intros kn; cbn; [done|by rewrite IH..|by rewrite IH]. Qed.

  (** A run that panics did so because the estimates add up to more than a u64. *)
  Lemma c56_crash b ins b' calls : qrun b ins = (b', calls, Crashed) ->
    exists calls' m g, calls = calls' ++ [CEstimate [m] (Some g)] /\ U64 <= g + total_gas (unsent [] calls').
  Proof.
    intros H. apply qloop_stops in H as (pre & i & post & b1 & c1 & q1 & c2 & -> & Hp & Hi & ->).
    destruct (qloop_gas _ _ _ _ _ _ _ gas_inv_new Hp) as [_ Hinv]. specialize (Hinv _ eq_refl).
    destruct Hinv as (H1 & H2 & H3).
    destruct i as [m| | |]; cbn [QueueModel.qstep] in Hi.
    - revert Hi. unfold on_msg. destruct (estimate b1 [m]) as [b2 [g|]]; [|by intros [= <- <-]].
      unfold add_u64 at 1, checked.
      destruct (g + mq_gas q1 <? U64) eqn:Hu.
      + intros H. exfalso. revert H. apply N.ltb_lt in Hu.
        assert (Hpush : forall q2, mq_gas q2 <= mq_gas q1 -> exists q3, mq_push (E:=qerr) q2 m g = Ok q3).
        { intros q2 Hq2. unfold mq_push, add_u64, checked. destruct (mq_gas q2 + g <? U64) eqn:H; [by eexists|].
          apply N.ltb_ge in H. lia. }
        destruct (limit <=? g + mq_gas q1).
        * destruct (broadcast_all b2 q1) as [[[b3 cs] ok] q2] eqn:Hb.
          apply broadcast_all_spec in Hb as [-> _]. destruct ok; [|done].
          destruct (Hpush mq_new) as [q3 ->]; [cbn; lia|done].
        * destruct (Hpush q1) as [q3 ->]; [done|done].
      + intros [= <- <-]. apply N.ltb_ge in Hu. exists c1, m, g. split; [done|]. by rewrite <- H2.
    - destruct (broadcast_all b1 q1) as [[[? ?] []] ?]; done.
    - destruct (broadcast_all b1 q1) as [[[? ?] []] ?]; done.
    - destruct (broadcast_all b1 q1) as [[[? ?] []] ?]; done.
  Qed.

  (** A message whose estimate fits in causes no broadcast. *)
  Lemma c56_no_early b ins b1 calls q m g b2 : qrun b ins = (b1, calls, Running q) -> estimate b1 [m] = (b2, Some g) ->
    g + total_gas (unsent [] calls) < limit -> limit <= U64 ->
    exists q', qrun b (ins ++ [QMsg m]) = (b2, calls ++ [CEstimate [m] (Some g)], Running q') /\
      mq_msgs q' = mq_msgs q ++ [m].
  Proof.
    intros H Hg Hl Hu. destruct (qloop_gas _ _ _ _ _ _ _ gas_inv_new H) as [_ Hinv].
    destruct (Hinv _ eq_refl) as (_ & H2 & _). unfold QueueModel.qrun in *.
    rewrite (qloop_app _ _ _ _ _ _ [QMsg m] _ _ _ H). cbn [QueueModel.qloop QueueModel.qstep]. unfold on_msg.
    rewrite Hg, H2. unfold add_u64 at 1, checked.
    destruct (g + total_gas (unsent [] calls) <? U64) eqn:H3; [|apply N.ltb_ge in H3; lia].
    destruct (limit <=? g + total_gas (unsent [] calls)) eqn:H4; [apply N.leb_le in H4; lia|].
    unfold mq_push. rewrite H2. unfold add_u64, checked.
    destruct (total_gas (unsent [] calls) + g <? U64) eqn:H5; [|apply N.ltb_ge in H5; lia].
    cbn [rbind]. by eexists.
  Qed.
End Gas.
