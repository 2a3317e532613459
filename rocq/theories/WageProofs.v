(** C101 for the rewards contract alone. *)
From stdpp Require Import sorting.
From Verif Require Import Base BaseLemmas Text TextLemmas StdModel RewardsModel RewardsSpec RewardsProofs RewardsProofs2 RewardsProofs3 WageSpec.

(** ** What an epoch owes is what its work is worth *)
Lemma ids_of (evs : list string) : (forall ev, ev ∈ evs -> exists id, ev = dec id) -> exists ids, evs = dec <$> ids.
Proof.
  intros Hall. induction evs as [|ev evs IH]; [by exists []|]. destruct IH as [ids ->]; [intros; apply Hall; by right|].
  destruct (Hall ev) as [id ->]; [by left|]. by exists (id :: ids).
Qed.

Lemma first_seen_record i ops c ev n : valid_rinit i -> Forall valid_rop ops -> first_seen i ops c ev n ->
  exists w, (c, ev, w) ∈ records (rlog i ops).
Proof.
  intros Hi Hops (ops1 & h & w & ops2 & e & -> & _ & Hok & _). exists w. unfold rlog. rewrite log_app. cbn [log].
  rewrite !records_app. fold (rrun i ops1). unfold log1.
  destruct (rewards_step (rrun i ops1) (Record_ h c ev w)) as [[s' out]| |]; try discriminate.
  apply elem_of_app. right. apply elem_of_app. left. cbn. left.
Qed.

Lemma no_first_seen i ops c n : valid_rinit i -> Forall valid_rop ops -> event_count (rrun i ops) c n = 0 ->
  forall ev, ~ first_seen i ops c ev n.
Proof.
  intros Hi Hops H0 ev Hev. destruct (c15_counts i ops c n Hi Hops) as (evs & _ & Hin & Hc & _).
  apply Hin in Hev. rewrite H0 in Hc. destruct evs; [by apply elem_of_nil in Hev|]. cbn [length] in Hc. lia.
Qed.

(** Where a tally's parameters come from (as c21_origin, with the event being
    new). *)
Lemma origin_new i ops c n t : valid_rinit i -> Forall valid_rop ops -> r_tallies (rrun i ops) !! (c, n) = Some t ->
  params_of i ops c n (ty_params t).
Proof.
  intros Hi. revert t. induction ops as [|op ops IH] using rev_ind; intros t Hops Ht; [done|].
  pose proof Hops as Hops0. apply Forall_app in Hops as [Hops Hop]. apply Forall_inv in Hop.
  assert (Hext : forall t0, r_tallies (rrun i ops) !! (c, n) = Some t0 -> ty_params t0 = ty_params t ->
    params_of i (ops ++ [op]) c n (ty_params t)).
  { intros t0 Ht0 <-. destruct (IH t0 Hops Ht0) as (ops1 & h & ev & w & ops2 & -> & H).
    exists ops1, h, ev, w, (ops2 ++ [op]). split; [by rewrite <- app_assoc|]. done. }
  pose proof (rinv_run i ops Hi Hops) as Hinv.
  pose proof Ht as Hlast. unfold rrun in Ht. rewrite run_snoc in Ht. fold (rrun i ops) in Ht. unfold exec in Ht.
  destruct (rewards_step (rrun i ops) op) as [[s' out]| |] eqn:Hs; [|by apply (Hext t)..].
  destruct (r_tallies (rrun i ops) !! (c, n)) as [t0|] eqn:Ht0.
  - destruct (tally_step _ _ _ _ _ _ _ Hinv Hs Ht0) as (t' & Ht' & Hf & _).
    rewrite Ht in Ht'. injection Ht' as <-. apply (Hext t0); [done|]. unfold tally_fixed in Hf. congruence.
  - destruct op as [h c0 ev w|c0 funds|h c0 limit|h g p].
    2-4: destruct (step_frame _ _ _ _ Hinv Hs ltac:(done)) as [He _]; rewrite He in Ht; congruence.
    pose proof Hs as Hs0. cbn in Hs. apply rbind_ok in Hs as (s1 & Hs & H1). injection H1 as -> <-.
    destruct (record_inv _ _ _ _ _ _ Hs Hinv) as
      (cur & num & t1 & x & cnt & Hcur & Hnum & Ht1 & Hsome & Hn & Hcnt & Es & Hc0 & He0 & Hp0). rewrite Es in Ht. cbn in Ht.
    destruct (decide ((c0, num) = (c, n))) as [[= -> ->]|Hne].
    + rewrite lookup_insert in Ht. rewrite Ht0 in Ht1. injection Ht as <-. cbn.
      exists ops, h, ev, w, []. split; [done|]. split; [|split].
      * apply no_first_seen; [done|done|]. unfold event_count. by rewrite Ht0.
      * apply first_seen_events; [done|done|]. unfold rrun. rewrite run_snoc. unfold exec. fold (rrun i ops). rewrite Hs0, Es. cbn [r_events].
        by rewrite lookup_insert.
      * by rewrite Ht1.
    + rewrite lookup_insert_ne in Ht by done. congruence.
Qed.

Lemma owed_wage att i ops c n w : valid_rinit i -> Forall valid_rop ops ->
  (forall ev x, (c, ev, x) ∈ records (rlog i ops) <-> exists id, ev = dec id /\ att id x) ->
  NoDup (pool_records c (rlog i ops)) ->
  wage att i ops c n w (owed (rrun i ops) c n w).
Proof.
  intros Hi Hops Hrec Hnd.
  destruct (c15_counts i ops c n Hi Hops) as (evs & Hevs & Hin & Hcnt & _).
  destruct (ids_of evs) as [all ->].
  { intros ev (x & Hx)%Hin%first_seen_record; [|done..]. apply Hrec in Hx as (id & -> & _). eauto. }
  assert (Hall : of_epoch att i ops c n all).
  { split; [by eapply NoDup_fmap_1|]. intros id.
    assert (id ∈ all <-> dec id ∈ dec <$> all) as -> by (rewrite elem_of_list_fmap; split; [eauto|by intros (y & ->%dec_inj & ?)]).
    rewrite Hin. split; [|tauto]. intros Hf. split; [|done].
    destruct (first_seen_record _ _ _ _ _ Hi Hops Hf) as [x (id' & ->%dec_inj & Hx)%Hrec]. eauto. }
  exists all. split; [done|]. unfold owed.
  destruct (r_tallies (rrun i ops) !! (c, n)) as [t|] eqn:Ht.
  2: { left. split; [|done]. unfold event_count in Hcnt. rewrite Ht, fmap_length in Hcnt. destruct all; [done|]. cbn [length] in Hcnt. lia. }
  right. exists (ty_params t), (workers_to_reward t).
  split; [by apply origin_new|].
  split; [apply workers_nodup|].
  assert (Hq : forall x, x ∈ workers_to_reward t <-> earns att all (ty_params t) x).
  { intros y. rewrite workers_qualify.
    destruct (c17_attended i ops c n y Hi Hops Hnd) as (evs & mine & Hevs' & Hin' & Hmine & Hmem & Hqual).
    rewrite (Hqual t Ht).
    assert (Hlen : length evs = length all).
    { rewrite <- (fmap_length dec all). apply Permutation_length, NoDup_Permutation; [done|done|]. intros e. by rewrite Hin, Hin'. }
    destruct (ids_of mine) as [ids ->].
    { intros e [_ (id & -> & _)%Hrec]%Hmem. eauto. }
    assert (Hids : forall id, id ∈ ids <-> id ∈ all /\ att id y).
    { intros id. assert (id ∈ ids <-> dec id ∈ dec <$> ids) as -> by (rewrite elem_of_list_fmap; split; [eauto|by intros (z & ->%dec_inj & ?)]).
      rewrite Hmem, Hrec. destruct Hall as [_ Hall]. rewrite Hall. split.
      - intros [Hf (id' & ->%dec_inj & Ha)]. eauto.
      - intros [[_ Hf] Ha]. eauto. }
    rewrite fmap_length, Hlen. split.
    - intros [H1 H2]. exists ids. split; [by eapply NoDup_fmap_1|]. done.
    - intros (mine & Hm1 & Hm2 & H1 & H2).
      assert (length mine = length ids) as <-; [|done].
      apply Permutation_length, NoDup_Permutation; [done|by eapply NoDup_fmap_1|]. intros id. by rewrite Hm2, Hids. }
  split; [done|].
  destruct (c17_shares t) as (qs & Hqs & Hqin & Hshare & _).
  assert (length qs = length (workers_to_reward t)) as Hlen.
  { apply Permutation_length, NoDup_Permutation; [done|apply workers_nodup|]. intros y. by rewrite Hqin, workers_qualify. }
  rewrite <- Hlen. destruct (decide (w ∈ workers_to_reward t)) as [Hw|Hw]; [left|right]; (split; [done|]).
  - destruct (rewards_by_worker t !! w) as [v|] eqn:E1; [by apply Hshare in E1 as (_ & -> & _)|]. cbn.
    destruct (N.eq_0_gt_0_cases (rp_rewards (ty_params t) / N.of_nat (length qs))) as [->|Hpos]; [done|]. exfalso.
    apply workers_qualify in Hw. rewrite (proj2 (Hshare w _) (conj Hw (conj eq_refl Hpos))) in E1. discriminate E1.
  - destruct (rewards_by_worker t !! w) as [v|] eqn:E1; [|done]. exfalso. apply Hshare in E1 as (Hq' & _). by apply Hw, workers_qualify.
Qed.

(** ** A wage is one number *)
Lemma app_compare {A} (l1 l1' : list A) x x' l2 l2' : l1 ++ x :: l2 = l1' ++ x' :: l2' ->
  l1 = l1' /\ x = x' \/ (exists k, l1' = l1 ++ x :: k) \/ (exists k, l1 = l1' ++ x' :: k).
Proof.
  revert l1'. induction l1 as [|a l1 IH]; intros [|a' l1'] [= <- E].
  - auto.
  - right. left. by exists l1'.
  - right. right. by exists l1.
  - apply IH in E as [[-> ->]|[[k ->]|[k ->]]]; eauto.
Qed.
Lemma params_unique i ops c n p p' : params_of i ops c n p -> params_of i ops c n p' -> p = p'.
Proof.
  intros (o1 & h & ev & w & o2 & -> & H1 & H2 & ->) (o1' & h' & ev' & w' & o2' & E & H1' & H2' & ->).
  apply app_compare in E as [[-> _]|[[k ->]|[k ->]]]; [done|exfalso..].
  - apply (H1' ev). change (Record_ h c ev w :: k) with ([Record_ h c ev w] ++ k). rewrite app_assoc. by apply first_seen_app.
  - apply (H1 ev'). change (Record_ h' c ev' w' :: k) with ([Record_ h' c ev' w'] ++ k). rewrite app_assoc. by apply first_seen_app.
Qed.
Lemma same_length {A} (l l' : list A) : NoDup l -> NoDup l' -> (forall x, x ∈ l <-> x ∈ l') -> length l = length l'.
Proof. intros. by apply Permutation_length, NoDup_Permutation. Qed.
Lemma earns_ext att all all' p w : NoDup all -> NoDup all' -> (forall id, id ∈ all <-> id ∈ all') -> earns att all p w -> earns att all' p w.
Proof.
  intros H1 H2 H (mine & Hm & Hin & H3 & H4). exists mine. split; [done|]. split; [intros id; by rewrite Hin, H|]. split; [done|].
  by rewrite <- (same_length all all').
Qed.
Lemma wage_unique att i ops c n w v v' : wage att i ops c n w v -> wage att i ops c n w v' -> v = v'.
Proof.
  intros (all & [Hnd Hall] & Hv) (all' & [Hnd' Hall'] & Hv').
  assert (E : forall id, id ∈ all <-> id ∈ all') by (intros id; by rewrite Hall, Hall').
  assert (Hno : forall l p qs, l = [] -> (forall x, x ∈ qs <-> earns att l p x) -> qs = []).
  { intros l p qs -> H. destruct qs as [|q qs]; [done|]. exfalso. destruct (proj1 (H q)) as (mine & _ & Hm & H0 & _); [left|].
    destruct mine as [|m mine]; [cbn [length] in H0; lia|]. destruct (proj1 (Hm m)) as [Hx _]; [left|]. by apply elem_of_nil in Hx. }
  destruct Hv as [[Ha ->]|(p & qs & Hp & Hq & Hin & Hc)], Hv' as [[Ha' ->]|(p' & qs' & Hp' & Hq' & Hin' & Hc')].
  - done.
  - assert (all' = []) as Ha' by (apply elem_of_nil_inv; intros x; rewrite <- E, Ha; apply not_elem_of_nil).
    rewrite (Hno _ _ _ Ha' Hin') in Hc'. destruct Hc' as [[H _]|[_ ->]]; [by apply elem_of_nil in H|done].
  - assert (all = []) as Ha by (apply elem_of_nil_inv; intros x; rewrite E, Ha'; apply not_elem_of_nil).
    rewrite (Hno _ _ _ Ha Hin) in Hc. destruct Hc as [[H _]|[_ ->]]; [by apply elem_of_nil in H|done].
  - pose proof (params_unique _ _ _ _ _ _ Hp Hp') as <-.
    assert (Eq : forall x, x ∈ qs <-> x ∈ qs').
    { intros x. rewrite Hin, Hin'. split; apply earns_ext; try done. }
    rewrite (same_length qs qs') in Hc by done. rewrite <- Eq in Hc'.
    destruct Hc as [[H ->]|[H ->]], Hc' as [[H' ->]|[H' ->]]; done.
Qed.

(** ** Epochs at one height *)
Lemma rrun_snoc i ops op s' out : rewards_step (rrun i ops) op = Ok (s', out) -> rrun i (ops ++ [op]) = s'.
Proof. intros H. unfold rrun. rewrite run_snoc. unfold exec. fold (rrun i ops). by rewrite H. Qed.
Lemma rrun_snoc_no i ops op : is_ok (rewards_step (rrun i ops) op) = false -> rrun i (ops ++ [op]) = rrun i ops.
Proof. intros H. unfold rrun. rewrite run_snoc. unfold exec. fold (rrun i ops). by destruct (rewards_step _ _) as [[]| |]. Qed.

Lemma epoch_frame s op s' out h : rinv s -> rewards_step s op = Ok (s', out) ->
  match op with UpdateParams _ _ _ => False | _ => True end -> current_epoch s' h = current_epoch s h.
Proof.
  intros Hinv Hs Hop. destruct op as [h0 c0 ev w|c0 funds|h0 c0 limit|h0 g p]; [| | |done].
  - cbn in Hs. apply rbind_ok in Hs as (s1 & Hs & H1). injection H1 as <- <-.
    destruct (record_inv _ _ _ _ _ _ Hs Hinv) as (? & ? & ? & ? & ? & ? & ? & ? & ? & ? & ? & -> & _). by apply epoch_ext.
  - by eapply add_epoch.
  - apply distribute_inv in Hs; [|apply (ri_m s Hinv)].
    destruct Hs as (? & ? & ? & ? & ? & ? & ? & ? & ? & ? & ? & ? & ? & ->). by apply epoch_ext.
Qed.

Lemma same_height i ops1 ops2 h e0 : valid_rinit i -> Forall valid_rop (ops1 ++ ops2) -> h < U64 ->
  current_epoch (rrun i ops1) h = Ok e0 -> Forall (fun h' => h' = h) (heights ops2) ->
  exists e, current_epoch (rrun i (ops1 ++ ops2)) h = Ok e /\ (e_num e = e_num e0 \/ e_num e = e_num e0 + 1 /\ e_start e = h).
Proof.
  intros Hi Hops Hh He0. induction ops2 as [|op ops2 IH] using rev_ind; intros Hall.
  { rewrite app_nil_r. eauto. }
  rewrite app_assoc in Hops |- *. apply Forall_app in Hops as [Hops Hop]. apply Forall_inv in Hop.
  unfold heights in Hall. rewrite omap_app in Hall. apply Forall_app in Hall as [Hall Hlast].
  destruct (IH Hops Hall) as (e & He & Hcase). pose proof (rinv_run i _ Hi Hops) as Hinv.
  destruct (rewards_step (rrun i (ops1 ++ ops2)) op) as [[s' out]| |] eqn:Hs.
  2,3: rewrite rrun_snoc_no by (by rewrite Hs); eauto.
  rewrite (rrun_snoc _ _ _ _ _ Hs).
  destruct op as [h1 c ev w|c funds|h1 c limit|h1 g p].
  1-3: rewrite (epoch_frame _ _ _ _ _ Hinv Hs) by done; eauto.
  cbn in Hlast. apply Forall_inv in Hlast. subst h1.
  cbn in Hs. apply rbind_ok in Hs as (s1 & Hs & H1). injection H1 as <- <-. destruct Hop as [_ Hp].
  destruct (c14_update i _ h g p s1 Hi Hops Hh Hp Hs) as (e' & He' & Hnew). rewrite He in He'. injection He' as <-.
  rewrite Hnew. destruct (N.leb_spec (e_start e + rp_duration p) h) as [Hle|Hgt].
  - eexists. split; [done|]. cbn. destruct Hcase as [->|[_ Hst]]; [by right|]. destruct Hp as [[Hd _] _]. lia.
  - eauto.
Qed.

(** ** Paid epochs are over *)
Lemma last_paid i ops c n : valid_rinit i -> Forall valid_rop ops -> n < next_epoch (rrun i ops) c ->
  exists ops1 hd lim ops2 s' out, ops = ops1 ++ Distribute hd c lim :: ops2 /\
    rewards_step (rrun i ops1) (Distribute hd c lim) = Ok (s', out) /\ n < next_epoch s' c.
Proof.
  intros Hi. induction ops as [|op ops IH] using rev_ind; intros Hops Hn; [change (n < 0) in Hn; lia|].
  apply Forall_app in Hops as [Hops Hop]. apply Forall_inv in Hop. pose proof (rinv_run i _ Hi Hops) as Hinv.
  assert (Hext : n < next_epoch (rrun i ops) c -> exists ops1 hd lim ops2 s' out, ops ++ [op] = ops1 ++ Distribute hd c lim :: ops2 /\
    rewards_step (rrun i ops1) (Distribute hd c lim) = Ok (s', out) /\ n < next_epoch s' c).
  { intros H1. destruct (IH Hops H1) as (ops1 & hd & lim & ops2 & s' & out & -> & H2). exists ops1, hd, lim, (ops2 ++ [op]), s', out.
    by rewrite <- app_assoc. }
  destruct (rewards_step (rrun i ops) op) as [[s' out]| |] eqn:Hs.
  2,3: rewrite rrun_snoc_no in Hn by (by rewrite Hs); auto.
  rewrite (rrun_snoc _ _ _ _ _ Hs) in Hn.
  destruct op as [h1 c1 ev w|c1 funds|h1 c1 limit|h1 g p].
  1,2,4: rewrite (marks_frame _ _ _ _ c Hinv Hs) in Hn by (intros; discriminate); auto.
  destruct (decide (c1 = c)) as [->|Hne].
  - exists ops, h1, limit, [], s', out. done.
  - rewrite (marks_frame _ _ _ _ c Hinv Hs) in Hn by congruence. auto.
Qed.

Lemma heights_app l1 l2 : heights (l1 ++ l2) = heights l1 ++ heights l2.
Proof. apply omap_app. Qed.

Lemma paid_over i ops c n h : valid_rinit i -> Forall valid_rop ops -> h < U64 -> StronglySorted N.le (heights ops ++ [h]) ->
  n < next_epoch (rrun i ops) c -> exists e, current_epoch (rrun i ops) h = Ok e /\ n + 2 <= e_num e.
Proof.
  intros Hi Hops Hh Hsort Hn. destruct (last_paid i ops c n Hi Hops Hn) as (ops1 & hd & lim & ops2 & s' & out & -> & Hs & Hn').
  pose proof Hops as Hops0. apply Forall_app in Hops as [Hops1 Hops2]. apply Forall_cons in Hops2 as [Hop Hops2].
  destruct (c18_call_reach i ops1 hd c lim s' out Hi Hops1 Hs) as (e & He & _ & _ & Hle & _ & _ & _ & _ & _ & Hp & Hu).
  assert (E : rrun i (ops1 ++ [Distribute hd c lim]) = s') by (by eapply rrun_snoc).
  replace (ops1 ++ Distribute hd c lim :: ops2) with ((ops1 ++ [Distribute hd c lim]) ++ ops2) in * by (by rewrite <- app_assoc).
  destruct (c14_history_reach i (ops1 ++ [Distribute hd c lim]) ops2 hd h e Hi) as (e' & He' & Hge); [done|done| |..].
  - rewrite E. rewrite <- He. by apply epoch_ext.
  - rewrite <- app_assoc in Hsort. rewrite heights_app in Hsort. rewrite <- app_assoc in Hsort. cbn in Hsort.
    revert Hsort. generalize (heights ops1). intros l. induction l as [|y l IHl]; [done|].
    cbn [app]. intros H1%StronglySorted_inv. apply IHl, H1.
  - exists e'. split; [done|]. specialize (Hle n Hn'). lia.
Qed.

Lemma sorted_middle {A} (R : A -> A -> Prop) (l1 l2 : list A) (x y : A) : StronglySorted R (l1 ++ x :: l2 ++ [y]) ->
  forall z, z ∈ l2 -> R x z /\ R z y.
Proof.
  induction l1 as [|a l1 IH]; cbn [app]; intros [Hs Hf]%StronglySorted_inv z Hz; [|by apply IH].
  rewrite Forall_forall in Hf. split; [apply Hf, elem_of_app; by left|].
  clear -Hs Hz. induction l2 as [|b l2 IH]; [by apply elem_of_nil in Hz|]. cbn [app] in Hs. apply StronglySorted_inv in Hs as [Hs Hf].
  apply elem_of_cons in Hz as [->|Hz]; [|by apply IH]. rewrite Forall_forall in Hf. apply Hf, elem_of_app. right. left.
Qed.

(** A record changes no paid epoch. *)
Lemma record_unpaid i ops h c ev w s' out : valid_rinit i -> Forall valid_rop (ops ++ [Record_ h c ev w]) ->
  StronglySorted N.le (heights (ops ++ [Record_ h c ev w])) -> one_height (ops ++ [Record_ h c ev w]) c ->
  rewards_step (rrun i ops) (Record_ h c ev w) = Ok (s', out) ->
  forall n, n < next_epoch (rrun i ops) c -> r_tallies s' !! (c, n) = r_tallies (rrun i ops) !! (c, n).
Proof.
  intros Hi Hops Hsort Hone Hs n Hn. apply Forall_app in Hops as [Hops Hop]. apply Forall_inv in Hop.
  pose proof (rinv_run i _ Hi Hops) as Hinv. rewrite heights_app in Hsort. cbn in Hsort.
  assert (Hh : h < U64) by (by apply Hop).
  destruct (paid_over i ops c n h Hi Hops Hh Hsort Hn) as (e & He & Hle).
  cbn in Hs. apply rbind_ok in Hs as (s1 & Hs & H1). injection H1 as <- <-.
  destruct (record_inv _ _ _ _ _ _ Hs Hinv) as
    (cur & num & t0 & x & cnt & Hcur & Hnum & Ht0 & Hsome & _ & Hcnt & -> & Hc0 & He0 & Hp0). cbn [r_tallies].
  rewrite He in Hcur. injection Hcur as <-. apply lookup_insert_ne. intros [= <-].
  destruct (r_events (rrun i ops) !! (ev, c)) as [m|] eqn:Hev; [|lia]. subst num.
  apply first_seen_events in Hev as (ops1 & h1 & w1 & ops2 & e1 & E & _ & _ & He1 & Hm); [|done..].
  assert (h1 = h) as -> by (eapply Hone; [rewrite E, !elem_of_app; left; right; left|rewrite elem_of_app; right; left]).
  replace ops with ((ops1 ++ [Record_ h c ev w1]) ++ ops2) in He by (by rewrite E, <- app_assoc).
  rewrite E in Hops, Hsort.
  replace (ops1 ++ Record_ h c ev w1 :: ops2) with (ops1 ++ (Record_ h c ev w1 :: ops2)) in Hops by done.
  destruct (same_height i ops1 (Record_ h c ev w1 :: ops2) h e1 Hi Hops Hh He1) as (e' & He' & Hcase).
  { cbn. constructor; [done|]. rewrite heights_app, <- app_assoc in Hsort. cbn in Hsort.
    apply Forall_forall. intros z Hz. change (omap rop_height ops2) with (heights ops2) in Hz.
    destruct (sorted_middle _ _ _ _ _ Hsort z Hz). lia. }
  rewrite <- app_assoc in He. cbn [app] in He. rewrite He in He'. injection He' as <-. lia.
Qed.

(** ** The sum *)
Lemma lsum_got (l : list (addr * N)) w f : NoDup l.*1 -> (forall x a, (x, a) ∈ l <-> 0 < a /\ a = f x) ->
  lsum (fun y => if bool_decide (y.1 = w) then y.2 else 0) l = f w.
Proof.
  intros Hnd Hin.
  assert (forall l : list (addr * N), w ∉ l.*1 -> lsum (fun y => if bool_decide (y.1 = w) then y.2 else 0) l = 0) as H0.
  { clear. induction l as [|[x a] l IH]; intros Hw; [done|]. cbn [fmap list_fmap fst] in Hw. apply not_elem_of_cons in Hw as [Hne Hw].
    rewrite lsum_cons, IH by done. cbn [fst]. by rewrite bool_decide_false by done. }
  assert (forall (l : list (addr * N)) a, NoDup l.*1 -> (w, a) ∈ l -> lsum (fun y => if bool_decide (y.1 = w) then y.2 else 0) l = a) as H1.
  { clear -H0. induction l as [|[x b] l IH]; intros a Hnd Ha; [by apply elem_of_nil in Ha|]. cbn [fmap list_fmap fst] in Hnd.
    apply NoDup_cons in Hnd as [Hx Hnd]. rewrite lsum_cons. cbn [fst snd]. apply elem_of_cons in Ha as [[= <- <-]|Ha].
    - rewrite bool_decide_true, H0 by done. lia.
    - rewrite (IH _ Hnd Ha), bool_decide_false; [lia|]. intros ->. apply Hx. apply elem_of_list_fmap. by exists (w, a). }
  destruct (N.eq_0_gt_0_cases (f w)) as [E|E].
  - rewrite E. apply H0. intros ([x a] & -> & Ha)%elem_of_list_fmap. cbn [fst] in E. apply Hin in Ha. lia.
  - apply H1; [done|]. by apply Hin.
Qed.

Lemma got_app c w l1 l2 : got c w (l1 ++ l2) = got c w l1 + got c w l2.
Proof. apply lsum_app. Qed.

Lemma c101_total i ops c w : valid_rinit i -> Forall valid_rop ops -> StronglySorted N.le (heights ops) -> one_height ops c ->
  got c w (rlog i ops) = lsum (fun n => owed (rrun i ops) c n w) (between 0 (next_epoch (rrun i ops) c)).
Proof.
  intros Hi. induction ops as [|op ops IH] using rev_ind; intros Hops0 Hsort0 Hone0; [done|].
  pose proof Hops0 as Hops. apply Forall_app in Hops as [Hops Hop]. apply Forall_inv in Hop.
  pose proof (rinv_run i _ Hi Hops) as Hinv.
  assert (Hsort : StronglySorted N.le (heights ops)).
  { rewrite heights_app in Hsort0. revert Hsort0. generalize (heights ops). intros l. induction l as [|y l IHl]; [by constructor|].
    cbn [app]. intros [H1 H2]%StronglySorted_inv. apply Forall_app in H2 as [H2 _]. constructor; auto. }
  assert (Hone : one_height ops c) by (intros ev h1 w1 h2 w2 H1 H2; eapply Hone0; apply elem_of_app; left; [exact H1|exact H2]).
  specialize (IH Hops Hsort Hone).
  assert (Hlog : rlog i (ops ++ [op]) = rlog i ops ++ log1 rewards_step (rrun i ops) op) by apply log_snoc.
  rewrite Hlog, got_app. unfold log1.
  destruct (rewards_step (rrun i ops) op) as [[s' out]| |] eqn:Hs.
  2,3: rewrite rrun_snoc_no by (by rewrite Hs); rewrite IH; change (got c w []) with 0; lia.
  rewrite (rrun_snoc _ _ _ _ _ Hs).
  assert (Hsame : (forall h lim, op <> Distribute h c lim) ->
    (forall n, n < next_epoch (rrun i ops) c -> r_tallies s' !! (c, n) = r_tallies (rrun i ops) !! (c, n)) ->
    got c w (rlog i ops) + got c w [(op, out)] = lsum (fun n => owed s' c n w) (between 0 (next_epoch s' c))).
  { intros Hne Ht. rewrite (marks_frame _ _ _ _ c Hinv Hs Hne), IH.
    assert (got c w [(op, out)] = 0) as ->.
    { unfold got. rewrite lsum_cons. cbn [fst snd]. destruct op as [| |h c' lim|]; try done. rewrite bool_decide_false; [done|].
      intros ->. by apply (Hne h lim). }
    rewrite N.add_0_r. apply lsum_ext. intros n [_ Hn]%elem_of_between. unfold owed. by rewrite Ht. }
  destruct op as [h1 c1 ev x|c1 funds|h1 c1 limit|h1 g p].
  - apply Hsame; [done|]. intros n Hn. destruct (decide (c1 = c)) as [->|Hne]; [by eapply record_unpaid|].
    cbn in Hs. apply rbind_ok in Hs as (s1 & Hs & H1). injection H1 as <- <-.
    destruct (record_inv _ _ _ _ _ _ Hs Hinv) as
      (cur & num & t0 & y & cnt & Hcur & Hnum & Ht0 & Hsome & _ & Hcnt & -> & Hc0 & He0 & Hp0). cbn [r_tallies].
    apply lookup_insert_ne. by intros [= ->].
  - apply Hsame; [done|]. intros n Hn. by destruct (step_frame _ _ _ _ Hinv Hs ltac:(done)) as [-> _].
  - destruct (decide (c1 = c)) as [->|Hne].
    2: { apply Hsame; [congruence|]. intros n Hn. by destruct (step_frame _ _ _ _ Hinv Hs ltac:(done)) as [-> _]. }
    destruct (c18_call_reach i ops h1 c limit s' out Hi Hops Hs) as (e & He & Hlt & _ & _ & Hnd & Hin & _ & Ht & _).
    assert (Eo : forall n, owed s' c n w = owed (rrun i ops) c n w) by (intros n; unfold owed; by rewrite Ht).
    rewrite (lsum_ext _ (fun n => owed (rrun i ops) c n w)) by (intros; apply Eo).
    rewrite <- (between_app 0 (next_epoch (rrun i ops) c)) by lia. rewrite lsum_app, IH. f_equal.
    unfold got. rewrite lsum_cons. cbn [fst snd]. rewrite bool_decide_true by done.
    rewrite (lsum_got out w (fun x => lsum (fun n => owed (rrun i ops) c n x) (between (next_epoch (rrun i ops) c) (next_epoch s' c)))) by done.
    change (lsum _ []) with 0. lia.
  - apply Hsame; [done|]. intros n Hn. by destruct (step_frame _ _ _ _ Hinv Hs ltac:(done)) as [-> _].
Qed.
