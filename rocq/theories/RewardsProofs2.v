(** Proofs about the rewards contract: counting of events and participation. *)
From Verif Require Import Base BaseLemmas StdModel StdSpec StdProofs RewardsModel RewardsSpec RewardsProofs.

Lemma msum_to_list {K A} `{Countable K} (f : K -> A -> N) (m : gmap K A) :
  msum f m = lsum (fun x => f x.1 x.2) (map_to_list m).
Proof.
  induction m as [|k a m Hk IH] using map_ind.
  - by rewrite msum_empty, map_to_list_empty.
  - rewrite msum_insert_fresh by done. rewrite (lsum_perm _ _ _ (map_to_list_insert m k a Hk)).
    cbn. by rewrite IH.
Qed.

Lemma count_app {A} (P : A -> bool) l1 l2 : count P (l1 ++ l2) = count P l1 + count P l2.
Proof. apply lsum_app. Qed.
Lemma count_filter {A} (P : A -> bool) l : count P l = N.of_nat (length (List.filter P l)).
Proof.
  induction l as [|a l IH]; [done|].
  change (count P (a :: l)) with ((if P a then 1 else 0) + count P l).
  cbn [List.filter]. rewrite IH. destruct (P a); cbn [length]; lia.
Qed.

Lemma records_app l1 l2 : records (l1 ++ l2) = records l1 ++ records l2.
Proof. apply omap_app. Qed.

(** Steps that record nothing. *)
Lemma step_frame s op s' out :
  rinv s -> rewards_step s op = Ok (s', out) ->
  (forall h c ev w, op <> Record_ h c ev w) ->
  r_tallies s' = r_tallies s /\ r_events s' = r_events s.
Proof.
  intros Hinv Hs Hne. destruct op as [h c ev w|c funds|h c limit|h g p]; cbn in Hs.
  - by destruct (Hne h c ev w).
  - apply rbind_ok in Hs as (s1 & Hs & H1). injection H1 as <- <-.
    by apply add_inv in Hs as (? & _ & _ & _ & ->).
  - apply distribute_inv in Hs; [|apply (ri_m s Hinv)].
    by destruct Hs as (? & ? & ? & ? & ? & ? & ? & ? & ? & ? & ? & ? & ? & ->).
  - apply rbind_ok in Hs as (s1 & Hs & H1). injection H1 as <- <-.
    by apply update_inv in Hs as (? & -> & _ & _ & ->).
Qed.

Lemma event_stays_step s op s' out ev c n :
  rinv s -> rewards_step s op = Ok (s', out) ->
  r_events s !! (ev, c) = Some n -> r_events s' !! (ev, c) = Some n.
Proof.
  intros Hinv Hs He. destruct op as [h c0 ev0 w|c0 funds|h c0 limit|h g p].
  - cbn in Hs. apply rbind_ok in Hs as (s1 & Hs & H1). injection H1 as <- <-.
    destruct (record_inv _ _ _ _ _ _ Hs Hinv) as
      (cur & num & t0 & x & cnt & Hcur & Hnum & Ht0 & Hsome & Hn & Hcnt & -> & _). cbn.
    destruct (decide ((ev0, c0) = (ev, c))) as [[= -> ->]|Hne].
    + rewrite lookup_insert. rewrite He in Hnum. by subst.
    + by rewrite lookup_insert_ne.
  - by rewrite (proj2 (step_frame _ _ _ _ Hinv Hs ltac:(done))).
  - by rewrite (proj2 (step_frame _ _ _ _ Hinv Hs ltac:(done))).
  - by rewrite (proj2 (step_frame _ _ _ _ Hinv Hs ltac:(done))).
Qed.

Lemma event_stays s ops ev c n :
  rinv s -> Forall valid_rop ops ->
  r_events s !! (ev, c) = Some n -> r_events (run rewards_step s ops) !! (ev, c) = Some n.
Proof.
  intros Hinv Hops. apply (run_rel_ops rewards_step valid_rop rinv
    (fun s s' => r_events s !! (ev, c) = Some n -> r_events s' !! (ev, c) = Some n)); auto.
  - intros. eapply rinv_step; eauto.
  - intros. eapply event_stays_step; eauto.
Qed.

Record counted (i : rinit) (ops : list rop) : Prop := {
  ct_none : forall c ev, r_events (rrun i ops) !! (ev, c) = None <->
              forall w, (c, ev, w) ∉ records (rlog i ops);
  ct_seen : forall c ev n, r_events (rrun i ops) !! (ev, c) = Some n -> first_seen i ops c ev n;
  ct_count : forall c n, event_count (rrun i ops) c n =
              msum (fun k m => if bool_decide (k.2 = c /\ m = n) then 1 else 0) (r_events (rrun i ops));
  ct_part : forall c n w, participated (rrun i ops) c n w =
              count (fun x => bool_decide (x.1.1 = c /\ x.2 = w /\
                                 r_events (rrun i ops) !! (x.1.2, c) = Some n)) (records (rlog i ops));
}.

Lemma first_seen_app i ops1 ops2 c ev n : first_seen i ops1 c ev n -> first_seen i (ops1 ++ ops2) c ev n.
Proof.
  intros (o1 & h & w & o2 & e & -> & H). exists o1, h, w, (o2 ++ ops2), e.
  by rewrite <- app_assoc.
Qed.

Lemma counted_frame i ops op :
  counted i ops ->
  r_tallies (rrun i (ops ++ [op])) = r_tallies (rrun i ops) ->
  r_events (rrun i (ops ++ [op])) = r_events (rrun i ops) ->
  records (rlog i (ops ++ [op])) = records (rlog i ops) ->
  counted i (ops ++ [op]).
Proof.
  intros [Ha Hb Hc Hd] Ht He Hr. split.
  - intros c ev. by rewrite He, Hr.
  - intros c ev n. rewrite He. intros. by apply first_seen_app, Hb.
  - intros c n. unfold event_count. rewrite Ht, He. apply Hc.
  - intros c n w. unfold participated. rewrite Ht, He, Hr. apply Hd.
Qed.

Lemma counted_run i ops : valid_rinit i -> Forall valid_rop ops -> counted i ops.
Proof.
  intros Hi. induction ops as [|op ops IH] using rev_ind; intros Hops.
  { split; cbn.
    - intros c ev. split; [|done]. intros _ w. apply not_elem_of_nil.
    - done.
    - intros c n. by rewrite msum_empty.
    - done. }
  apply Forall_app in Hops as [Hops Hop]. apply Forall_inv in Hop. specialize (IH Hops).
  pose proof (rinv_run i ops Hi Hops) as Hinv.
  assert (Hrun : rrun i (ops ++ [op]) = exec rewards_step (rrun i ops) op) by apply run_snoc.
  assert (Hlog : rlog i (ops ++ [op]) = rlog i ops ++ log1 rewards_step (rrun i ops) op) by apply log_snoc.
  destruct (rewards_step (rrun i ops) op) as [[s' out]|er|] eqn:Hs.
  2,3: apply counted_frame; [done|rewrite Hrun; unfold exec; by rewrite Hs..|];
       rewrite Hlog; unfold log1; rewrite Hs; by rewrite app_nil_r.
  destruct op as [h c ev w|c funds|h c limit|h g p].
  2-4: destruct (step_frame _ _ _ _ Hinv Hs ltac:(done)) as [Ht He];
       apply counted_frame; [done|rewrite Hrun; unfold exec; by rewrite Hs..|];
       rewrite Hlog; unfold log1; rewrite Hs, records_app; by rewrite app_nil_r.
  assert (Hs2 : rrun i (ops ++ [Record_ h c ev w]) = s') by (rewrite Hrun; unfold exec; by rewrite Hs).
  assert (Hl2 : records (rlog i (ops ++ [Record_ h c ev w])) = records (rlog i ops) ++ [(c, ev, w)]).
  { rewrite Hlog. unfold log1. rewrite Hs, records_app. done. }
  pose proof Hs as Hs0. cbn in Hs. apply rbind_ok in Hs as (s1 & Hs & H1). injection H1 as -> <-.
  destruct (record_inv _ _ _ _ _ _ Hs Hinv) as
    (cur & num & t0 & x & cnt & Hcur & Hnum & Ht0 & Hsome & Hn & Hcnt & Hs' & Hc0 & He0 & Hp0).
  destruct IH as [Ha Hb Hc Hd].
  assert (Hev' : r_events s' = <[(ev, c) := num]> (r_events (rrun i ops))) by (by rewrite Hs').
  split.
  - intros c' ev'. rewrite Hs2, Hl2, Hev'.
    destruct (decide ((ev, c) = (ev', c'))) as [[= <- <-]|Hne].
    + rewrite lookup_insert. split; [done|]. intros Hno. destruct (Hno w). set_solver.
    + rewrite lookup_insert_ne by done. rewrite Ha. split.
      * intros Hno w'. rewrite elem_of_app, elem_of_list_singleton. intros [H|[= -> -> ->]]; [by apply (Hno w')|done].
      * intros Hno w' Hin. apply (Hno w'). apply elem_of_app. by left.
  - intros c' ev' n. rewrite Hs2, Hev'.
    destruct (decide ((ev, c) = (ev', c'))) as [[= <- <-]|Hne].
    + rewrite lookup_insert. intros [= <-].
      destruct (r_events (rrun i ops) !! (ev, c)) as [m|] eqn:Hold.
      * subst num. by apply first_seen_app, Hb.
      * exists ops, h, w, [], cur. split; [done|]. split; [by apply Ha|].
        split; [by rewrite Hs0|]. split; [done|]. by subst num.
    + rewrite lookup_insert_ne by done. intros. by apply first_seen_app, Hb.
  - intros c' n. rewrite Hs2, Hev'.
    assert (Hcount : event_count s' c' n = event_count (rrun i ops) c' n +
              (if bool_decide (c = c' /\ num = n /\ r_events (rrun i ops) !! (ev, c) = None) then 1 else 0)).
    { unfold event_count. rewrite Hs'. cbn.
      destruct (decide ((c, num) = (c', n))) as [[= <- <-]|Hne].
      - rewrite lookup_insert. cbn. rewrite Hcnt.
        assert (Hct0 : ty_count t0 = match r_tallies (rrun i ops) !! (c, num) with Some t => ty_count t | None => 0 end).
        { rewrite Ht0. by destruct (r_tallies _ !! _). }
        rewrite Hct0. destruct (r_events (rrun i ops) !! (ev, c)).
        + rewrite bool_decide_eq_false_2 by naive_solver. lia.
        + by rewrite bool_decide_eq_true_2.
      - rewrite lookup_insert_ne by done. rewrite bool_decide_eq_false_2 by naive_solver. lia. }
    rewrite Hcount, Hc.
    destruct (r_events (rrun i ops) !! (ev, c)) as [m|] eqn:Hold.
    + rewrite bool_decide_eq_false_2 by naive_solver. subst num. rewrite insert_id by done. lia.
    + rewrite msum_insert_fresh by done. cbn.
      destruct (decide (c = c' /\ num = n)) as [[-> ->]|Hne].
      * rewrite !bool_decide_eq_true_2 by done. lia.
      * rewrite !bool_decide_eq_false_2 by naive_solver. lia.
  - intros c' n w'. rewrite Hs2, Hl2, Hev', count_app.
    assert (Hpart : participated s' c' n w' = participated (rrun i ops) c' n w' +
              (if bool_decide (c = c' /\ w = w' /\ num = n) then 1 else 0)).
    { unfold participated. rewrite Hs'. cbn.
      destruct (decide ((c, num) = (c', n))) as [[= <- <-]|Hne].
      - rewrite lookup_insert. cbn.
        assert (Hct0 : forall w0, default 0 (ty_part t0 !! w0) =
            match r_tallies (rrun i ops) !! (c, num) with Some t => default 0 (ty_part t !! w0) | None => 0 end).
        { intros. rewrite Ht0. by destruct (r_tallies _ !! _). }
        destruct (decide (w = w')) as [<-|Hw].
        + rewrite lookup_insert, bool_decide_eq_true_2 by done. cbn. by rewrite Hn, Hct0.
        + rewrite lookup_insert_ne, bool_decide_eq_false_2 by naive_solver. rewrite Hct0. lia.
      - rewrite lookup_insert_ne by done. rewrite bool_decide_eq_false_2 by naive_solver. lia. }
    rewrite Hpart, Hd. f_equal.
    + apply lsum_ext. intros [[cx ex] wx] Hin. cbn.
      destruct (decide (ex = ev /\ c' = c)) as [[-> ->]|Hne].
      * rewrite lookup_insert. destruct (r_events (rrun i ops) !! (ev, c)) as [m|] eqn:Hold.
        -- by subst.
        -- destruct (decide (cx = c)) as [->|Hcx].
           ++ destruct (proj1 (Ha c ev) Hold wx Hin).
           ++ rewrite !bool_decide_eq_false_2 by naive_solver. done.
      * rewrite lookup_insert_ne by naive_solver. done.
    + unfold count. cbn.
      destruct (decide (c = c' /\ w = w' /\ num = n)) as [(-> & -> & ->)|Hne].
      * rewrite lookup_insert, !bool_decide_eq_true_2 by done. done.
      * rewrite (bool_decide_eq_false_2 (_ /\ _ /\ num = n)) by done.
        rewrite bool_decide_eq_false_2; [done|].
        intros (-> & -> & Hl). rewrite lookup_insert in Hl. naive_solver.
Qed.

Lemma first_seen_events i ops c ev n :
  valid_rinit i -> Forall valid_rop ops ->
  first_seen i ops c ev n <-> r_events (rrun i ops) !! (ev, c) = Some n.
Proof.
  intros Hi Hops. split; [|apply (ct_seen i ops (counted_run i ops Hi Hops))].
  intros (ops1 & h & w & ops2 & e & -> & Hno & Hok & He & Hn).
  apply Forall_app in Hops as [Hops1 Hops2]. apply Forall_cons in Hops2 as [Hop Hops2].
  pose proof (rinv_run i ops1 Hi Hops1) as Hinv.
  destruct (counted_run i ops1 Hi Hops1) as [Ha _ _ _]. apply Ha in Hno.
  unfold rrun. rewrite run_app. cbn [run]. fold (rrun i ops1). unfold exec.
  destruct (rewards_step (rrun i ops1) (Record_ h c ev w)) as [[s' out]| |] eqn:Hs; try discriminate.
  apply event_stays; [by eapply rinv_step|done|].
  cbn in Hs. apply rbind_ok in Hs as (s1 & Hs & H1). injection H1 as -> <-.
  destruct (record_inv _ _ _ _ _ _ Hs Hinv) as
    (cur & num & t0 & x & cnt & Hcur & Hnum & _ & _ & _ & _ & -> & _).
  rewrite Hno in Hnum. rewrite He in Hcur. injection Hcur as ->. cbn. rewrite lookup_insert. by subst.
Qed.

Lemma first_seen_unique i ops c ev n n' :
  valid_rinit i -> Forall valid_rop ops -> first_seen i ops c ev n -> first_seen i ops c ev n' -> n = n'.
Proof.
  intros Hi Hops. rewrite !first_seen_events by done. naive_solver.
Qed.

Lemma c15_counts i ops c n :
  valid_rinit i -> Forall valid_rop ops ->
  exists evs,
    NoDup evs /\ (forall ev, ev ∈ evs <-> first_seen i ops c ev n) /\
    event_count (rrun i ops) c n = N.of_nat (length evs) /\
    forall w, participated (rrun i ops) c n w =
      count (fun '(c', ev, w') => bool_decide (c' = c /\ w' = w /\ ev ∈ evs)) (records (rlog i ops)).
Proof.
  intros Hi Hops. destruct (counted_run i ops Hi Hops) as [Ha Hb Hc Hd].
  set (m := r_events (rrun i ops)) in *.
  set (P := fun x : (string * addr) * N => bool_decide (x.1.2 = c /\ x.2 = n)).
  set (evs := (fun x : (string * addr) * N => x.1.1) <$> List.filter P (map_to_list m)).
  assert (Hin : forall ev, ev ∈ evs <-> m !! (ev, c) = Some n).
  { intros ev. unfold evs. rewrite elem_of_list_fmap. split.
    - intros ([[ev' c'] n'] & -> & Hin). apply elem_of_list_In, filter_In in Hin as [Hin HP].
      unfold P in HP. apply bool_decide_eq_true in HP. cbn in HP. destruct HP as [-> ->].
      apply elem_of_list_In, elem_of_map_to_list in Hin. done.
    - intros Hl. exists ((ev, c), n). split; [done|]. apply elem_of_list_In, filter_In.
      split; [by apply elem_of_list_In, elem_of_map_to_list|]. by apply bool_decide_eq_true. }
  exists evs. split; [|split; [|split]].
  - unfold evs. apply NoDup_fmap_2_strong.
    + intros [[e1 c1] n1] [[e2 c2] n2] H1 H2 Heq. cbn in Heq.
      apply elem_of_list_In, filter_In in H1 as [_ H1]. apply elem_of_list_In, filter_In in H2 as [_ H2].
      unfold P in *. apply bool_decide_eq_true in H1, H2. cbn in *. naive_solver.
    + apply NoDup_ListNoDup, List.NoDup_filter, NoDup_ListNoDup, NoDup_map_to_list.
  - intros ev. by rewrite Hin, first_seen_events.
  - rewrite Hc, msum_to_list. unfold evs. rewrite fmap_length, <- count_filter. done.
  - intros w. rewrite Hd. apply lsum_ext. intros [[c' ev] w'] _. cbn.
    destruct (decide (c' = c /\ w' = w /\ ev ∈ evs)) as [Hx|Hx].
    + rewrite !bool_decide_eq_true_2; [done|done|]. by rewrite Hin in Hx.
    + rewrite !bool_decide_eq_false_2; [done|done|]. by rewrite Hin in Hx.
Qed.

Lemma c15_no_dup i ops c n w :
  valid_rinit i -> Forall valid_rop ops -> NoDup (pool_records c (rlog i ops)) ->
  exists evs, NoDup evs /\
    (forall ev, ev ∈ evs <-> first_seen i ops c ev n /\ (c, ev, w) ∈ records (rlog i ops)) /\
    participated (rrun i ops) c n w = N.of_nat (length evs) /\
    participated (rrun i ops) c n w <= event_count (rrun i ops) c n.
Proof.
  intros Hi Hops Hnd. destruct (c15_counts i ops c n Hi Hops) as (all & Hall & Hin & Hcnt & Hpart).
  set (l := records (rlog i ops)) in *.
  set (P := fun x : addr * string * addr => bool_decide (x.1.1 = c /\ x.2 = w /\ x.1.2 ∈ all)).
  set (evs := (fun x : addr * string * addr => x.1.2) <$> List.filter P l).
  assert (Hevs : NoDup evs).
  { unfold evs. apply NoDup_fmap_2_strong.
    + intros [[c1 e1] w1] [[c2 e2] w2] H1 H2 Heq. cbn in Heq.
      apply elem_of_list_In, filter_In in H1 as [_ H1]. apply elem_of_list_In, filter_In in H2 as [_ H2].
      unfold P in *. apply bool_decide_eq_true in H1, H2. cbn in *. naive_solver.
    + assert (Hf : List.filter P l = List.filter P (pool_records c (rlog i ops))).
      { unfold pool_records. fold l. unfold P. clear. induction l as [|x l IH]; [done|]. cbn [List.filter]. rewrite filter_cons.
        destruct (decide (x.1.1 = c)); cbn [List.filter]; rewrite IH; [done|]. by rewrite bool_decide_false by tauto. }
      rewrite Hf. by apply NoDup_ListNoDup, List.NoDup_filter, NoDup_ListNoDup. }
  assert (Hmem : forall ev, ev ∈ evs <-> first_seen i ops c ev n /\ (c, ev, w) ∈ l).
  { intros ev. rewrite <- Hin. unfold evs. rewrite elem_of_list_fmap. split.
    - intros ([[c' e'] w'] & -> & H). apply elem_of_list_In, filter_In in H as [H HP].
      unfold P in HP. apply bool_decide_eq_true in HP. cbn in *. destruct HP as (-> & -> & HP).
      split; [done|]. by apply elem_of_list_In.
    - intros [H1 H2]. exists (c, ev, w). split; [done|]. apply elem_of_list_In, filter_In.
      split; [by apply elem_of_list_In|]. by apply bool_decide_eq_true. }
  exists evs. split; [done|]. split; [done|].
  assert (Hp : participated (rrun i ops) c n w = N.of_nat (length evs)).
  { rewrite Hpart. unfold evs. rewrite fmap_length, <- count_filter. unfold count.
    apply lsum_ext. intros [[c' e'] w'] _. done. }
  split; [done|]. rewrite Hp, Hcnt.
  assert (Hsub : evs ⊆+ all).
  { apply NoDup_submseteq; [done|]. intros ev Hev. apply Hin. by apply Hmem. }
  apply submseteq_length in Hsub. lia.
Qed.
