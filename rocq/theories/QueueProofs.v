From Verif Require Import Base BaseLemmas Text QueueModel QueueSpec.

Lemma received_app {M} (l1 l2 : list (input M)) : QClose ∉ l1 -> received (l1 ++ l2) = received l1 ++ received l2.
Proof.
  induction l1 as [|i l1 IH]; intros Hn; [done|]. rewrite not_elem_of_cons in Hn. destruct Hn as [Hi Hn].
  destruct i; cbn; rewrite ?IH; done.
Qed.

Lemma batches_app {M} (c1 c2 : list (call M)) : batches (c1 ++ c2) = batches c1 ++ batches c2.
Proof. unfold batches. apply omap_app. Qed.
Lemma sent_app {M} (c1 c2 : list (call M)) : sent (c1 ++ c2) = sent c1 ++ sent c2.
Proof. unfold sent. by rewrite batches_app, fmap_app, concat_app. Qed.
Lemma delivered_app {M} (c1 c2 : list (call M)) : delivered (c1 ++ c2) = delivered c1 ++ delivered c2.
Proof. unfold delivered. by rewrite batches_app, filter_app, fmap_app, concat_app. Qed.
Lemma all_ok_app {M} (c1 c2 : list (call M)) : all_ok (c1 ++ c2) <-> all_ok c1 /\ all_ok c2.
Proof. unfold all_ok. rewrite batches_app. apply Forall_app. Qed.
Lemma delivered_ok {M} (c : list (call M)) : all_ok c -> delivered c = sent c.
Proof.
  unfold all_ok, delivered, sent. induction (batches c) as [|[ms ok] l IH]; [done|].
  intros [H1 H2]%Forall_cons. cbn in H1. subst ok. rewrite filter_cons_True by done. cbn. by rewrite IH.
Qed.

Section Proofs.
  Context {B M : Type}.
  Context (estimate : B -> list M -> B * option N) (broadcast : B -> list M -> B * bool) (limit : N).
  Notation qstep := (qstep estimate broadcast limit).
  Notation qloop := (qloop estimate broadcast limit).
  Notation qrun := (qrun estimate broadcast limit).
  Notation broadcast_all := (broadcast_all broadcast).

  Lemma broadcast_all_spec b q b' calls ok q' : broadcast_all b q = (b', calls, ok, q') ->
    q' = mq_new /\
    ((mq_msgs q = [] /\ calls = [] /\ ok = true /\ b' = b) \/
     (mq_msgs q <> [] /\ calls = [CBroadcast (mq_msgs q) ok])).
  Proof.
    unfold QueueModel.broadcast_all, mq_pop_all. destruct (mq_msgs q) as [|m ms] eqn:Hm.
    - intros [= <- <- <- <-]. split; [done|]. by left.
    - destruct (broadcast b (m :: ms)) as [b1 k]. intros [= <- <- <- <-]. split; [done|]. by right.
  Qed.

  (** What a step that goes on does. *)
  Lemma qstep_running b q i b' calls q' : qstep b q i = (b', calls, Running q') ->
    i <> QClose /\ all_ok calls /\ sent calls ++ mq_msgs q' = mq_msgs q ++ received [i].
  Proof.
    destruct i as [m| | |]; cbn [QueueModel.qstep].
    - unfold on_msg. destruct (estimate b [m]) as [b1 [g|]]; [|by intros [= <- <-]].
      destruct (add_u64 g (mq_gas q)) as [total| |] eqn:Ht; [|by intros [= <- <-]..].
      destruct (if limit <=? total then broadcast_all b1 q else (b1, [], true, q)) as [[[b2 cs] ok] q1] eqn:Hb.
      destruct ok; [|by intros [= <- <-]].
      unfold mq_push. destruct (add_u64 (mq_gas q1) g) as [g'| |] eqn:Hg; cbn [rbind]; [|by intros [= <- <-]..].
      intros [= <- <- <-]. split; [done|]. cbn [mq_msgs received].
      assert (all_ok cs /\ sent cs ++ mq_msgs q1 = mq_msgs q) as [Hok Hs].
      { destruct (limit <=? total).
        - apply broadcast_all_spec in Hb as [-> [(Hm & -> & _ & _)|(Hm & ->)]].
          + rewrite Hm. split; [by apply Forall_nil|done].
          + split; [by apply Forall_singleton|]. cbn. by rewrite !app_nil_r.
        - injection Hb as <- <- <-. split; [by apply Forall_nil|done]. }
      split; [done|]. change (sent (CEstimate [m] (Some g) :: cs)) with (sent cs). by rewrite app_assoc, Hs.
    - destruct (broadcast_all b q) as [[[b1 cs] ok] q1] eqn:Hb. destruct ok; [|by intros [= <- <-]].
      intros [= <- <- <-]. split; [done|].
      apply broadcast_all_spec in Hb as [-> [(Hm & -> & _ & _)|(Hm & ->)]].
      + rewrite Hm. split; [by apply Forall_nil|done].
      + split; [by apply Forall_singleton|]. cbn. by rewrite !app_nil_r.
    - destruct (broadcast_all b q) as [[[b1 cs] ok] q1] eqn:Hb. destruct ok; [|by intros [= <- <-]].
      intros [= <- <- <-]. split; [done|].
      apply broadcast_all_spec in Hb as [-> [(Hm & -> & _ & _)|(Hm & ->)]].
      + rewrite Hm. split; [by apply Forall_nil|done].
      + split; [by apply Forall_singleton|]. cbn. by rewrite !app_nil_r.
    - destruct (broadcast_all b q) as [[[b1 cs] ok] q1] eqn:Hb. destruct ok; by intros [= <- <-].
  Qed.

  Lemma qloop_running b q ins b' calls q' : qloop b q ins = (b', calls, Running q') ->
    QClose ∉ ins /\ all_ok calls /\ sent calls ++ mq_msgs q' = mq_msgs q ++ received ins.
  Proof.
    revert b q b' calls q'. induction ins as [|i ins IH]; intros b q b' calls q'; cbn [QueueModel.qloop].
    - intros [= <- <- <-]. split; [set_solver|]. split; [by apply Forall_nil|]. by rewrite app_nil_r.
    - destruct (qstep b q i) as [[b1 c1] o] eqn:Hs. destruct o as [q1| | |]; [|intros [= <- <-]; done..].
      destruct (qloop b1 q1 ins) as [[b2 c2] o2] eqn:Hl. intros [= -> <- ->].
      apply qstep_running in Hs as (Hi & Hok & Hsent). apply IH in Hl as (Hn & Hok2 & Hsent2).
      split; [by apply not_elem_of_cons|]. split; [by apply all_ok_app|].
      change (i :: ins) with ([i] ++ ins). rewrite received_app by (apply not_elem_of_cons; split; [done|set_solver]).
      rewrite sent_app, <- app_assoc, Hsent2, app_assoc, Hsent. by rewrite app_assoc.
  Qed.

  (** The loop stops at one input. *)
  Lemma qloop_stops b q ins b' calls o : qloop b q ins = (b', calls, o) ->
    match o with
    | Running _ => True
    | _ => exists pre i post b1 c1 q1 c2,
             ins = pre ++ i :: post /\ qloop b q pre = (b1, c1, Running q1) /\
             qstep b1 q1 i = (b', c2, o) /\ calls = c1 ++ c2
    end.
  Proof.
    revert b q b' calls o. induction ins as [|i ins IH]; intros b q b' calls o; cbn [QueueModel.qloop].
    - by intros [= <- <- <-].
    - destruct (qstep b q i) as [[b1 c1] o1] eqn:Hs. destruct o1 as [q1| | |].
      + destruct (qloop b1 q1 ins) as [[b2 c2] o2] eqn:Hl. intros [= -> <- ->].
        specialize (IH _ _ _ _ _ Hl). destruct o; [done|..];
        destruct IH as (pre & j & post & b3 & c3 & q3 & c4 & -> & Hp & Hj & ->);
        exists (i :: pre), j, post, b3, (c1 ++ c3), q3, c4;
        (split; [done|]); (split; [cbn; by rewrite Hs, Hp|]); (split; [done|]); apply app_assoc.
      + intros [= <- <- <-]. exists [], i, ins, b, [], q, c1. done.
      + intros [= <- <- <-]. exists [], i, ins, b, [], q, c1. done.
      + intros [= <- <- <-]. exists [], i, ins, b, [], q, c1. done.
  Qed.

  Lemma qloop_app b q l1 l2 b1 c1 q1 : qloop b q l1 = (b1, c1, Running q1) ->
    qloop b q (l1 ++ l2) = let '(b2, c2, o) := qloop b1 q1 l2 in (b2, c1 ++ c2, o).
  Proof.
    revert b q b1 c1 q1. induction l1 as [|i l1 IH]; intros b q b1 c1 q1; cbn [QueueModel.qloop app].
    - intros [= <- <- <-]. by destruct (qloop b q l2) as [[? ?] ?].
    - destruct (qstep b q i) as [[b2 c2] o2]. destruct o2 as [q2| | |]; [|by intros [= <- <-]..].
      destruct (qloop b2 q2 l1) as [[b3 c3] o3] eqn:Hl. intros [= -> <- ->].
      rewrite (IH _ _ _ _ _ Hl). destruct (qloop b1 q1 l2) as [[b4 c4] o4]. by rewrite app_assoc.
  Qed.

  Lemma qstep_finished b q i b' calls : qstep b q i = (b', calls, Finished) ->
    i = QClose /\ all_ok calls /\ sent calls = mq_msgs q.
  Proof.
    destruct i as [m| | |]; cbn [QueueModel.qstep].
    - unfold on_msg. destruct (estimate b [m]) as [b1 [g|]]; [|by intros [= <- <-]].
      destruct (add_u64 g (mq_gas q)) as [total| |] eqn:Ht; [|by intros [= <- <-]..].
      destruct (if limit <=? total then broadcast_all b1 q else (b1, [], true, q)) as [[[b2 cs] ok] q1].
      destruct ok; [|by intros [= <- <-]]. destruct (mq_push q1 m g); by intros [= <- <-].
    - destruct (broadcast_all b q) as [[[b1 cs] ok] q1]. destruct ok; by intros [= <- <-].
    - destruct (broadcast_all b q) as [[[b1 cs] ok] q1]. destruct ok; by intros [= <- <-].
    - destruct (broadcast_all b q) as [[[b1 cs] ok] q1] eqn:Hb. destruct ok; [|by intros [= <- <-]].
      intros [= <- <-]. split; [done|].
      apply broadcast_all_spec in Hb as [-> [(Hm & -> & _ & _)|(Hm & ->)]].
      + rewrite Hm. split; [by apply Forall_nil|done].
      + split; [by apply Forall_singleton|]. cbn. by rewrite !app_nil_r.
  Qed.

  Lemma qstep_stopped b q i b' calls e : qstep b q i = (b', calls, Stopped e) ->
    (e = EEstimateFee /\ exists m, i = QMsg m /\ calls = [CEstimate [m] None]) \/
    (e = EBroadcast /\ mq_msgs q <> [] /\
      ((received [i] = [] /\ calls = [CBroadcast (mq_msgs q) false]) \/
       exists m g, i = QMsg m /\ limit <= g + mq_gas q /\ calls = [CEstimate [m] (Some g); CBroadcast (mq_msgs q) false])).
  Proof.
    destruct i as [m| | |]; cbn [QueueModel.qstep].
    - unfold on_msg. destruct (estimate b [m]) as [b1 [g|]].
      2: { intros [= <- <- <-]. left. split; [done|]. by exists m. }
      destruct (add_u64 g (mq_gas q)) as [total| |] eqn:Ht; [|by intros [= <- <-]..].
      apply add_u64_ok in Ht as [_ ->].
      destruct (limit <=? g + mq_gas q) eqn:Hl.
      + destruct (broadcast_all b1 q) as [[[b2 cs] ok] q1] eqn:Hb.
        apply broadcast_all_spec in Hb as [-> [(Hm & -> & -> & _)|(Hm & ->)]].
        * destruct (mq_push mq_new m g); by intros [= <- <-].
        * destruct ok; [destruct (mq_push mq_new m g); by intros [= <- <-]|].
          intros [= <- <- <-]. right. split; [done|]. split; [done|]. right. exists m, g.
          split; [done|]. split; [by apply N.leb_le|done].
      + destruct (mq_push q m g); by intros [= <- <-].
    - destruct (broadcast_all b q) as [[[b1 cs] ok] q1] eqn:Hb. destruct ok; [by intros [= <- <-]|].
      intros [= <- <- <-]. apply broadcast_all_spec in Hb as [-> [(? & ? & ? & _)|(Hm & ->)]]; [done|].
      right. split; [done|]. split; [done|]. by left.
    - destruct (broadcast_all b q) as [[[b1 cs] ok] q1] eqn:Hb. destruct ok; [by intros [= <- <-]|].
      intros [= <- <- <-]. apply broadcast_all_spec in Hb as [-> [(? & ? & ? & _)|(Hm & ->)]]; [done|].
      right. split; [done|]. split; [done|]. by left.
    - destruct (broadcast_all b q) as [[[b1 cs] ok] q1] eqn:Hb. destruct ok; [by intros [= <- <-]|].
      intros [= <- <- <-]. apply broadcast_all_spec in Hb as [-> [(? & ? & ? & _)|(Hm & ->)]]; [done|].
      right. split; [done|]. split; [done|]. by left.
  Qed.

  (** *** The theorems of C55 *)
  Lemma c55_running b ins b' calls q : qrun b ins = (b', calls, Running q) -> accounted ins calls (mq_msgs q).
  Proof. intros H. apply qloop_running in H as (_ & Hok & H). by split. Qed.

  Lemma c55_finished b ins b' calls : qrun b ins = (b', calls, Finished) -> accounted ins calls [].
  Proof.
    intros H. apply qloop_stops in H as (pre & i & post & b1 & c1 & q1 & c2 & -> & Hp & Hi & ->).
    apply qloop_running in Hp as (Hn & Hok & Hs). apply qstep_finished in Hi as (-> & Hok2 & Hs2).
    split; [by apply all_ok_app|]. rewrite received_app by done. cbn [received]. rewrite sent_app, Hs2, Hs.
    by rewrite !app_nil_r.
  Qed.

  Lemma c55_next b ins b' calls q i : qrun b ins = (b', calls, Running q) -> i = QTick \/ i = QForce \/ i = QClose ->
    exists b'' ok o, qrun b (ins ++ [i]) = (b'', calls ++ one_batch (mq_msgs q) ok, o) /\
      (mq_msgs q = [] -> ok = true) /\
      o = if ok then (match i with QClose => Finished | _ => Running mq_new end) else Stopped EBroadcast.
  Proof.
    intros H Hi. unfold QueueModel.qrun in *. rewrite (qloop_app _ _ _ [i] _ _ _ H). cbn [QueueModel.qloop].
    destruct (broadcast_all b' q) as [[[b1 cs] ok] q1] eqn:Hb.
    assert (cs = one_batch (mq_msgs q) ok /\ q1 = mq_new /\ (mq_msgs q = [] -> ok = true)) as (-> & -> & Hok).
    { apply broadcast_all_spec in Hb as [-> [(Hm & -> & -> & _)|(Hm & ->)]].
      - by rewrite Hm.
      - destruct (mq_msgs q); done. }
    exists b1, ok. destruct Hi as [-> | [-> | ->]]; cbn [QueueModel.qstep]; rewrite Hb.
    - destruct ok; rewrite ?app_nil_r; eauto.
    - destruct ok; rewrite ?app_nil_r; eauto.
    - destruct ok; rewrite ?app_nil_r; eauto.
  Qed.

  Lemma c55_stopped b ins b' calls e : qrun b ins = (b', calls, Stopped e) ->
    exists pre i post b1 c1 q1 c2,
      ins = pre ++ i :: post /\ qrun b pre = (b1, c1, Running q1) /\ calls = c1 ++ c2 /\
      ((e = EEstimateFee /\ exists m, i = QMsg m /\ c2 = [CEstimate [m] None]) \/
       (e = EBroadcast /\ mq_msgs q1 <> [] /\
        ((received [i] = [] /\ c2 = [CBroadcast (mq_msgs q1) false]) \/
         exists m g, i = QMsg m /\ c2 = [CEstimate [m] (Some g); CBroadcast (mq_msgs q1) false]))).
  Proof.
    intros H. apply qloop_stops in H as (pre & i & post & b1 & c1 & q1 & c2 & -> & Hp & Hi & ->).
    exists pre, i, post, b1, c1, q1, c2. split; [done|]. split; [done|]. split; [done|].
    apply qstep_stopped in Hi as [?|(? & ? & [?|(m & g & -> & _ & ->)])]; [by left| |].
    - right. split; [done|]. split; [done|]. by left.
    - right. split; [done|]. split; [done|]. right. by exists m, g.
  Qed.

  Lemma c55_lost b ins b' calls e : qrun b ins = (b', calls, Stopped e) ->
    exists pre i post pending,
      ins = pre ++ i :: post /\ received (pre ++ [i]) = delivered calls ++ pending ++ received [i] /\
      match e with
      | EBroadcast => exists calls', calls = calls' ++ [CBroadcast pending false] /\ all_ok calls' /\ pending <> []
      | EEstimateFee => exists calls' m, calls = calls' ++ [CEstimate [m] None] /\ all_ok calls' /\ i = QMsg m
      end.
  Proof.
    intros H. apply c55_stopped in H as (pre & i & post & b1 & c1 & q1 & c2 & -> & Hp & -> & H).
    apply qloop_running in Hp as (Hn & Hok & Hs). exists pre, i, post, (mq_msgs q1). split; [done|].
    rewrite received_app by done. rewrite delivered_app, (delivered_ok c1) by done.
    cbn [mq_new mq_msgs app] in Hs. rewrite <- Hs.
    destruct H as [(-> & m & -> & ->)|(-> & Hq & [(Hi & ->)|(m & g & -> & ->)])].
    - split; [by rewrite app_nil_r, <- app_assoc|]. by exists c1, m.
    - split; [by rewrite app_nil_r, <- app_assoc|]. by exists c1.
    - split; [change (delivered _) with (@nil M); by rewrite app_nil_r, <- app_assoc|].
      exists (c1 ++ [CEstimate [m] (Some g)]). rewrite <- app_assoc. split; [done|]. split; [|done].
      apply all_ok_app. split; [done|]. by apply Forall_nil.
  Qed.

  Lemma broadcast_all_sent b q b' calls ok q' : broadcast_all b q = (b', calls, ok, q') -> sent calls = mq_msgs q.
  Proof.
    intros Hb. apply broadcast_all_spec in Hb as [-> [(Hm & -> & _ & _)|(Hm & ->)]]; [by rewrite Hm|].
    cbn. by rewrite app_nil_r.
  Qed.

  Lemma qstep_sent b q i b' calls o : qstep b q i = (b', calls, o) -> sent calls = mq_msgs q \/ sent calls = [].
  Proof.
    destruct i as [m| | |]; cbn [QueueModel.qstep].
    - unfold on_msg. destruct (estimate b [m]) as [b1 [g|]]; [|intros [= <- <-]; by right].
      destruct (add_u64 g (mq_gas q)) as [total| |]; [|intros [= <- <-]; by right..].
      destruct (limit <=? total).
      + destruct (broadcast_all b1 q) as [[[b2 cs] ok] q1] eqn:Hb. apply broadcast_all_sent in Hb.
        destruct ok; [destruct (mq_push q1 m g)|]; intros [= <- <-]; by left.
      + destruct (mq_push q m g); intros [= <- <-]; by right.
    - destruct (broadcast_all b q) as [[[b1 cs] ok] q1] eqn:Hb. apply broadcast_all_sent in Hb.
      intros [= <- <- _]; by left.
    - destruct (broadcast_all b q) as [[[b1 cs] ok] q1] eqn:Hb. apply broadcast_all_sent in Hb.
      intros [= <- <- _]; by left.
    - destruct (broadcast_all b q) as [[[b1 cs] ok] q1] eqn:Hb. apply broadcast_all_sent in Hb.
      intros [= <- <- _]; by left.
  Qed.

  Lemma c55_prefix b ins b' calls o : qrun b ins = (b', calls, o) -> exists rest, received ins = sent calls ++ rest.
  Proof.
    intros H. destruct o as [q| |e|].
    - apply qloop_running in H as (_ & _ & H). by exists (mq_msgs q).
    - apply c55_finished in H as [_ H]. by exists [].
    - apply qloop_stops in H as (pre & i & post & b1 & c1 & q1 & c2 & -> & Hp & Hi & ->).
      apply qloop_running in Hp as (Hn & _ & Hs). rewrite received_app, sent_app by done. cbn in Hs. rewrite <- Hs.
      apply qstep_sent in Hi as [->| ->]; eexists; by rewrite <- !app_assoc.
    - apply qloop_stops in H as (pre & i & post & b1 & c1 & q1 & c2 & -> & Hp & Hi & ->).
      apply qloop_running in Hp as (Hn & _ & Hs). rewrite received_app, sent_app by done. cbn in Hs. rewrite <- Hs.
      apply qstep_sent in Hi as [->| ->]; eexists; by rewrite <- !app_assoc.
  Qed.
End Proofs.
