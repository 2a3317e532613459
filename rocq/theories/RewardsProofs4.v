(** Records of participation are accepted: with blocks in order nothing stands
    in their way but the sizes of the counters. *)
From stdpp Require Import sorting.
From Verif Require Import Base BaseLemmas StdModel StdSpec StdProofs RewardsModel RewardsSpec
  RewardsProofs RewardsProofs2 RewardsProofs3.

(** No count exceeds the number of accepted calls. *)
Definition small (s : rstate) (k : N) : Prop :=
  forall c n t, r_tallies s !! (c, n) = Some t -> ty_count t <= k /\ forall w m, ty_part t !! w = Some m -> m <= k.
Lemma small_run i ops : valid_rinit i -> Forall valid_rop ops -> small (rrun i ops) (N.of_nat (length ops)).
Proof.
  intros Hi. induction ops as [|op ops IH] using rev_ind; intros Hv.
  - intros c n t H. cbn in H. by rewrite lookup_empty in H.
  - apply Forall_app in Hv as [Hv Hop]. specialize (IH Hv). unfold rrun. rewrite run_snoc. unfold exec.
    change (run rewards_step (rstart i) ops) with (rrun i ops). rewrite app_length. cbn [length].
    assert (Hup : small (rrun i ops) (N.of_nat (length ops + 1))).
    { intros c n t H. destruct (IH c n t H) as [H1 H2]. split; [lia|]. intros w m Hm. specialize (H2 w m Hm). lia. }
    destruct (rewards_step (rrun i ops) op) as [[s' out]| |] eqn:E; [|done|done].
    pose proof (rinv_run i ops Hi Hv) as Hinv. destruct op as [h c0 ev0 w0|c0 funds|h c0 limit|h g p].
    2-4: destruct (step_frame _ _ _ _ Hinv E ltac:(done)) as [E1 _]; unfold small; by rewrite E1.
    cbn in E. apply rbind_ok in E as (s1 & E & H1). injection H1 as <- <-.
    destruct (record_inv _ _ _ _ _ _ E Hinv) as (cur & num & t0 & x & cnt & Hcur & Hnum & Ht0 & Hsome & Hx & Hcnt & -> & _).
    assert (Ht : ty_count t0 <= N.of_nat (length ops) /\ forall w m, ty_part t0 !! w = Some m -> m <= N.of_nat (length ops)).
    { rewrite Ht0. destruct (r_tallies (rrun i ops) !! (c0, num)) as [t|] eqn:Et; [by eapply IH|]. cbn. split; [lia|].
      intros w m Hm. by rewrite lookup_empty in Hm. }
    destruct Ht as [Ht1 Ht2].
    intros c n t. cbn [r_tallies]. destruct (decide ((c0, num) = (c, n))) as [E'|E'].
    + rewrite E', lookup_insert. intros [= <-]. cbn [ty_count ty_part]. split.
      * subst cnt. destruct (r_events (rrun i ops) !! (ev0, c0)); lia.
      * intros w m. destruct (decide (w0 = w)) as [->|Hne].
        -- rewrite lookup_insert. intros [= <-]. subst x. destruct (ty_part t0 !! w) as [y|] eqn:Ey; cbn; [|lia]. specialize (Ht2 _ _ Ey). lia.
        -- rewrite lookup_insert_ne by done. intros Hm. specialize (Ht2 _ _ Hm). lia.
    + rewrite lookup_insert_ne by done. apply Hup.
Qed.

Lemma record_accepted i ops h c ev w : valid_rinit i -> Forall valid_rop ops ->
  StronglySorted N.le (ri_height i :: heights ops ++ [h]) -> h < U64 -> N.of_nat (length ops) + 1 < U64 ->
  exists s', rewards_step (rrun i ops) (Record_ h c ev w) = Ok (s', []).
Proof.
  intros Hi Hv Hh Hlt Hlen.
  assert (exists e0, current_epoch (rrun i []) (ri_height i) = Ok e0) as [e0 He0].
  { destruct (c14_formula i [] (ri_height i) Hi (Forall_nil_2 _) (proj2 Hi)) as [_ H]. cbn in H.
    destruct H as (e & He & _); [lia|]. by exists e. }
  destruct (c14_history_reach i [] ops (ri_height i) h e0 Hi Hv Hlt He0 Hh) as (e & He & _).
  cbn [app] in He. cbn [rewards_step]. unfold record_participation. rewrite He. cbn [rbind].
  pose proof (small_run i ops Hi Hv) as Hs.
  destruct (r_events (rrun i ops) !! (ev, c)) as [num|] eqn:Eev.
  all: cbn zeta; set (t0 := match r_tallies (rrun i ops) !! _ with Some t => t | None => _ end).
  all: assert (Ht : ty_count t0 <= N.of_nat (length ops) /\ forall w m, ty_part t0 !! w = Some m -> m <= N.of_nat (length ops)).
  1,3: subst t0; match goal with |- context [r_tallies _ !! ?k] => destruct (r_tallies (rrun i ops) !! k) as [t|] eqn:Et end;
    [by eapply Hs|cbn; split; [lia|intros ? ? Hm; by rewrite lookup_empty in Hm]].
  all: destruct Ht as [Ht1 Ht2]; unfold tally_record;
    assert (Hn : exists k, match ty_part t0 !! w with Some c0 => add_u64 (E := rerror) c0 1 | None => Ok 1 end = Ok k);
    [destruct (ty_part t0 !! w) as [m|] eqn:Em; [|eauto]; specialize (Ht2 _ _ Em); unfold add_u64, checked;
     rewrite (proj2 (N.ltb_lt _ _)) by lia; eauto|].
  all: destruct Hn as [k ->]; cbn [rbind ty_count].
  - eauto.
  - unfold add_u64, checked. rewrite (proj2 (N.ltb_lt _ _)) by lia. cbn [rbind]. eauto.
Qed.
