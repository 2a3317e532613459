From Verif Require Import Base BaseLemmas StdModel StdSpec.

(** ** Thresholds *)
Lemma threshold_try_from_ok num den t :
  threshold_try_from num den = Ok t <->
  0 < num <= den /\ t = {| t_num := num; t_den := den |}.
Proof.
  unfold threshold_try_from, nonempty_u64.
  destruct (num =? 0) eqn:?; simpl; [split; [done|lia]|].
  destruct (den =? 0) eqn:?; simpl; [split; [done|lia]|].
  destruct (den <? num) eqn:?; [split; [done|lia]|].
  split; [intros [= <-]; split; [lia|done]|intros [_ ->]; done].
Qed.

Lemma majority_try_from_ok t t' :
  majority_try_from t = Ok t' <-> t_den t < 2 * t_num t /\ t' = t.
Proof.
  unfold majority_try_from.
  pose proof (N.div_mod (t_den t) 2 ltac:(lia)).
  pose proof (N.mod_lt (t_den t) 2 ltac:(lia)).
  destruct (t_num t <=? t_den t / 2) eqn:Hc; (split; [intros [=]|intros [? ->]]); try done.
  - lia.
  - split; [lia|done].
Qed.

Lemma threshold_cmp_spec a b :
  (threshold_cmp a b = Lt <-> t_num a * t_den b < t_num b * t_den a) /\
  (threshold_cmp a b = Eq <-> t_num a * t_den b = t_num b * t_den a) /\
  (threshold_cmp a b = Gt <-> t_num b * t_den a < t_num a * t_den b).
Proof.
  unfold threshold_cmp.
  split; [|split]; [apply N.compare_lt_iff|apply N.compare_eq_iff|].
  rewrite N.compare_gt_iff. done.
Qed.

(** ** Snapshots *)
Lemma mul_ceil_least {E} x t q :
  mul_ceil (E:=E) x t = Ok q -> least_share q x (t_num t) (t_den t) /\ t_den t <> 0.
Proof.
  unfold mul_ceil, least_share. destruct (t_den t =? 0) eqn:Hd; [done|].
  assert (t_den t <> 0) as Hd0 by lia.
  pose proof (N.div_mod (x * t_num t) (t_den t) Hd0) as Hdm.
  pose proof (N.mod_lt (x * t_num t) (t_den t) Hd0) as Hlt.
  set (p := x * t_num t) in *.
  destruct (p / t_den t <? U256); [|done].
  destruct (p mod t_den t =? 0) eqn:Hm.
  - intros [= <-]. split; [|done]. split; [nia|]. intros q' ?. nia.
  - unfold checked. destruct (_ <? U256); [|done]. intros [= <-].
    split; [|done]. split; [nia|]. intros q' ?. nia.
Qed.

Lemma mul_ceil_total {E} x t :
  t_den t <> 0 -> t_num t <= t_den t -> x < U256 -> exists q, mul_ceil (E:=E) x t = Ok q.
Proof.
  intros Hd Hle Hx. unfold mul_ceil. rewrite (proj2 (N.eqb_neq _ _) Hd).
  pose proof (N.div_mod (x * t_num t) (t_den t) Hd) as Hdm.
  pose proof (N.mod_lt (x * t_num t) (t_den t) Hd) as Hlt.
  set (p := x * t_num t) in *.
  assert (p <= x * t_den t) by (unfold p; nia).
  assert (p / t_den t <= x) by nia.
  destruct (p / t_den t <? U256) eqn:?; [|lia].
  destruct (p mod t_den t =? 0) eqn:Hm; [eauto|].
  unfold checked. destruct (p / t_den t + 1 <? U256) eqn:?; [eauto|].
  assert (p / t_den t = x) by lia. nia.
Qed.

Lemma snapshot_collect_ok {E} l : forall tot m tot' m',
  snapshot_collect (E:=E) l tot m = Ok (tot', m') ->
  tot' = tot + total_weight l /\ (tot < U256 -> tot' < U256) /\
  msum (fun _ w => w) m' <= msum (fun _ w => w) m + total_weight l /\
  (forall a w, m' !! a = Some w <->
     (exists p, last (filter (fun p => p_addr p = a) l) = Some p /\ p_weight p = w) \/
     ((forall p, p ∈ l -> p_addr p <> a) /\ m !! a = Some w)).
Proof.
  induction l as [|p l IH]; intros tot m tot' m'; cbn [snapshot_collect].
  - intros [= <- <-]. unfold total_weight; cbn. split_and!; [lia|lia|lia|].
    intros a w. split.
    + intros ?. right. split; [set_solver|done].
    + intros [(?&?&?)|[_ ?]]; done.
  - intros Hok. apply rbind_ok in Hok as (t1 & H1 & Hok).
    apply add_u256_ok in H1 as [Hb ->].
    apply IH in Hok as (-> & Hlt & Hsum & Hlook).
    change (total_weight (p :: l)) with (p_weight p + total_weight l).
    assert (msum (fun _ w => w) (<[p_addr p:=p_weight p]> m) <= msum (fun _ w => w) m + p_weight p) as Hins.
    { destruct (m !! p_addr p) as [w0|] eqn:Hm.
      - pose proof (msum_insert (fun _ w => w) m _ _ (p_weight p) Hm) as Hi. cbn beta in Hi. lia.
      - rewrite msum_insert_fresh by done. lia. }
    split_and!; [lia|lia|lia|].
    intros a w. rewrite Hlook. destruct (decide (p_addr p = a)) as [Ha|Ha].
    + rewrite filter_cons_True by done.
      assert ((exists p', p' ∈ l /\ p_addr p' = a) \/ ~ (exists p', p' ∈ l /\ p_addr p' = a)) as [Hex|Hnex].
      { destruct (decide (a ∈ p_addr <$> l)) as [Hin|Hni]; [left|right].
        - apply elem_of_list_fmap in Hin as (p'&->&?). eauto.
        - intros (p'&?&<-). apply Hni. by apply elem_of_list_fmap_1. }
      * split; [|].
        -- intros [(p'&Hl&Hw)|[Hno _]]; [|destruct Hex as (?&?&?); exfalso; eapply Hno; eauto].
           left. exists p'. split; [|done].
           destruct (filter _ l) eqn:Hf; [done|]. done.
        -- intros [(p'&Hl&Hw)|[Hno _]].
           ++ left. exists p'. split; [|done].
              destruct (filter (fun p0 => p_addr p0 = a) l) eqn:Hf; [|done].
              destruct Hex as (p2&Hp2&Ha2).
              assert (p2 ∈ filter (fun p0 => p_addr p0 = a) l) by (by apply elem_of_list_filter).
              rewrite Hf in H. set_solver.
           ++ exfalso. eapply Hno; [left|done].
      * assert (filter (fun p0 => p_addr p0 = a) l = []) as Hf.
        { destruct (filter (fun p0 => p_addr p0 = a) l) as [|p2 ?] eqn:Hf; [done|].
          exfalso. apply Hnex. exists p2.
          assert (p2 ∈ filter (fun p0 => p_addr p0 = a) l) as Hin by (rewrite Hf; left).
          apply elem_of_list_filter in Hin. tauto. }
        rewrite Hf; cbn. subst a. rewrite lookup_insert. split.
        -- intros [(?&?&?)|[_ [= <-]]]; [done|]. left. eauto.
        -- intros [(p'&[= <-]&Hw)|[Hno _]].
           ++ right. split; [|by f_equal]. intros p' Hp' Heq. apply Hnex. eauto.
           ++ exfalso. eapply Hno; [left|done].
    + rewrite filter_cons_False by done. rewrite lookup_insert_ne by done.
      split; (intros [?|[Hno ?]]; [by left|right; split; [|done]]).
      * intros p' [->|?]%elem_of_cons; [done|auto].
      * intros p' ?. apply Hno. by right.
Qed.

Lemma snapshot_new_ok {E} t l s :
  snapshot_new (E:=E) t l = Ok s ->
  least_share (s_quorum s) (total_weight l) (t_num t) (t_den t) /\ t_den t <> 0 /\
  0 < s_quorum s /\ total_weight l < U256 /\
  msum (fun _ w => w) (s_participants s) <= total_weight l /\
  (forall a w, s_participants s !! a = Some w <->
     exists p, last (filter (fun p => p_addr p = a) l) = Some p /\ p_weight p = w).
Proof.
  unfold snapshot_new. intros H. apply rbind_ok in H as ([tot m] & Hc & H).
  apply rbind_ok in H as (q & Hq & H).
  apply snapshot_collect_ok in Hc as (-> & Hlt & Hsum & Hlook).
  destruct (q =? 0) eqn:Hz; [done|]. injection H as <-. cbn.
  apply mul_ceil_least in Hq as [Hls Hd].
  rewrite msum_empty in Hsum. rewrite ?N.add_0_l in *.
  split_and!; try done; [lia| |].
  - apply Hlt. reflexivity.
  - intros a w. rewrite Hlook. rewrite lookup_empty. split.
    + intros [?|[_ ?]]; done.
    + by left.
Qed.

Lemma msum_nodup l (m : gmap addr N) :
  NoDup (p_addr <$> l) ->
  (forall a w, m !! a = Some w <->
     exists p, last (filter (fun p => p_addr p = a) l) = Some p /\ p_weight p = w) ->
  m = list_to_map ((fun p => (p_addr p, p_weight p)) <$> l) /\
  msum (fun _ w => w) m = total_weight l.
Proof.
  intros Hnd Hm.
  assert (m = list_to_map ((fun p => (p_addr p, p_weight p)) <$> l)) as ->.
  { apply map_eq. intros a. apply option_eq. intros w. rewrite Hm.
    rewrite <- elem_of_list_to_map.
    2:{ rewrite <- list_fmap_compose. done. }
    rewrite elem_of_list_fmap. split.
    - intros (p & Hl & Hw). exists p.
      apply last_Some_elem_of in Hl. apply elem_of_list_filter in Hl as [<- ?].
      by subst.
    - intros (p & [= -> ->] & Hp). exists p. split; [|done].
      clear Hm. induction l as [|q l IH]; [set_solver|].
      apply NoDup_cons in Hnd as [Hni Hnd].
      apply elem_of_cons in Hp as [->|Hp].
      + rewrite filter_cons_True by done.
        destruct (filter _ l) as [|q' ?] eqn:Hf; [done|].
        exfalso. apply Hni. assert (q' ∈ filter (fun p => p_addr p = p_addr q) l) as Hin by (rewrite Hf; left).
        apply elem_of_list_filter in Hin as [Heq ?]. rewrite <- Heq. by apply elem_of_list_fmap_1.
      + rewrite filter_cons_False; [auto|]. intros Heq. apply Hni. rewrite Heq. by apply elem_of_list_fmap_1. }
  split; [done|]. clear Hm.
  induction l as [|q l IH]; [done|]. cbn [fmap list_fmap list_to_map foldr].
  apply NoDup_cons in Hnd as [Hni Hnd].
  cbn. rewrite msum_insert_fresh.
  - fold (list_to_map (M := gmap addr N) (map (fun p => (p_addr p, p_weight p)) l)).
    rewrite IH by done. done.
  - apply not_elem_of_list_to_map_1. intros Hin. apply Hni.
    rewrite <- list_fmap_compose in Hin. done.
Qed.

Lemma snapshot_new_total {E} t l :
  l <> [] -> Forall (fun p => 0 < p_weight p) l -> total_weight l < U256 ->
  0 < t_num t <= t_den t ->
  exists s, snapshot_new (E:=E) t l = Ok s.
Proof.
  intros Hne Hpos Hlt Ht. unfold snapshot_new.
  assert (forall l tot m, tot + total_weight l < U256 ->
    exists m', snapshot_collect (E:=E) l tot m = Ok (tot + total_weight l, m')) as Hc.
  { clear. induction l as [|p l IH]; intros tot m Hlt.
    - exists m. cbn. unfold total_weight; cbn. by rewrite N.add_0_r.
    - change (total_weight (p :: l)) with (p_weight p + total_weight l) in *.
      cbn [snapshot_collect].
      assert (add_u256 (E:=E) tot (p_weight p) = Ok (tot + p_weight p)) as ->.
      { apply add_u256_ok. split; [lia|done]. }
      cbn. destruct (IH (tot + p_weight p) (<[p_addr p:=p_weight p]> m)) as [m' Hm']; [lia|].
      exists m'. rewrite Hm'. do 2 f_equal. lia. }
  destruct (Hc l 0 ∅ ltac:(lia)) as [m Hm]. rewrite Hm. cbn [rbind].
  destruct (mul_ceil_total (E:=E) (0 + total_weight l) t ltac:(lia) ltac:(lia) ltac:(lia)) as [q Hq].
  rewrite Hq. cbn [rbind]. apply mul_ceil_least in Hq as [[Hq _] _].
  destruct l as [|p l]; [done|]. apply Forall_cons in Hpos as [Hp _].
  change (total_weight (p :: l)) with (p_weight p + total_weight l) in *.
  destruct (q =? 0) eqn:Hz; [exfalso|eauto].
  apply N.eqb_eq in Hz. subst q. nia.
Qed.

(** Quorum bounds *)
Lemma least_share_bounds q tot num den :
  least_share q tot num den -> 0 < num <= den -> 0 < tot -> 1 <= q <= tot.
Proof.
  intros [Hge Hleast] Hnd Hpos. split.
  - destruct (decide (q = 0)) as [->|]; [nia|lia].
  - apply Hleast. nia.
Qed.

Lemma least_share_majority q tot num den :
  least_share q tot num den -> 0 < num <= den -> den < 2 * num -> 0 < tot -> tot < 2 * q.
Proof. intros [Hge _] Hnd Hmaj Hpos. nia. Qed.

(** ** Polls *)

Definition tallies_of (w : vote -> N) : tallies :=
  [(FailedOnChain, w FailedOnChain); (NotFound, w NotFound); (SucceededOnChain, w SucceededOnChain)].

(** the poll as a function of the history *)
Definition poll_spec (s : snapshot) (id expires : N) (size : nat) (ops : list poll_op) : poll :=
  {| poll_id := id; poll_quorum := s_quorum s; poll_expires_at := expires;
     poll_size := N.of_nat size;
     poll_tallies := (fun i => tallies_of (weight_for (s_participants s) expires size ops i)) <$> seq 0 size;
     poll_status_ := if finish_called expires ops then Finished else InProgress;
     poll_participation :=
       map_imap (fun a w => Some {| pt_weight := w; pt_vote := first_ballot expires size ops a |})
                (s_participants s) |}.

Lemma first_ballot_app expires size ops ops' a :
  first_ballot expires size (ops ++ ops') a =
  match first_ballot expires size ops a with
  | Some b => Some b
  | None => first_ballot expires size ops' a
  end.
Proof.
  induction ops as [|[h b vs|h] ops IH]; [done| |done].
  cbn. destruct (_ && _ && _); [done|apply IH].
Qed.

Lemma finish_called_app expires ops ops' :
  finish_called expires (ops ++ ops') = finish_called expires ops || finish_called expires ops'.
Proof.
  induction ops as [|[h b vs|h] ops IH]; [done|done|].
  cbn. rewrite IH. by rewrite orb_assoc.
Qed.

Lemma first_ballot_length expires size ops a b :
  first_ballot expires size ops a = Some b -> length b = size.
Proof.
  induction ops as [|[h c vs|h] ops IH]; [done| |done]. cbn.
  destruct (bool_decide (c = a) && (h <? expires) && (length vs =? size)%nat) eqn:Hc; [|done].
  intros [= <-]. lia.
Qed.

Lemma weight_for_ext m expires size ops ops' i v :
  (forall a, is_Some (m !! a) -> first_ballot expires size ops a = first_ballot expires size ops' a) ->
  weight_for m expires size ops i v = weight_for m expires size ops' i v.
Proof.
  intros H. unfold weight_for. apply msum_ext. intros a w Ha. rewrite H by eauto. done.
Qed.

Lemma weight_for_mono m expires size ops ops' i v :
  weight_for m expires size ops i v <= weight_for m expires size (ops ++ ops') i v.
Proof.
  unfold weight_for. apply msum_le. intros a w _. rewrite first_ballot_app.
  destruct (first_ballot expires size ops a); [lia|]. destruct (first_ballot _ _ ops' a); [|lia].
  case_bool_decide; lia.
Qed.

Lemma weight_for_two m expires size ops i v1 v2 :
  v1 <> v2 ->
  weight_for m expires size ops i v1 + weight_for m expires size ops i v2 <= msum (fun _ w => w) m.
Proof.
  intros Hne. unfold weight_for. rewrite <- msum_add. apply msum_le. intros a w _.
  destruct (first_ballot expires size ops a) as [b|]; [|lia].
  repeat case_bool_decide; try lia. congruence.
Qed.

Lemma weight_for_le m expires size ops i v :
  weight_for m expires size ops i v <= msum (fun _ w => w) m.
Proof.
  unfold weight_for. apply msum_le. intros a w _.
  destruct (first_ballot expires size ops a) as [b|]; [|lia]. case_bool_decide; lia.
Qed.

Lemma weight_for_nil m expires size i v : weight_for m expires size [] i v = 0.
Proof. unfold weight_for. by apply msum_zero. Qed.

(** effect of one accepted vote on the weights *)
Lemma weight_for_vote m expires size ops h a vs i v w :
  m !! a = Some w -> first_ballot expires size ops a = None ->
  h < expires -> length vs = size ->
  weight_for m expires size (ops ++ [PVote h a vs]) i v =
  weight_for m expires size ops i v + if bool_decide (vs !! i = Some v) then w else 0.
Proof.
  intros Hm Hnone Hh Hl. unfold weight_for.
  rewrite <- (insert_delete m a w Hm) at 1 2.
  rewrite !msum_insert_fresh by apply lookup_delete.
  rewrite first_ballot_app, Hnone. cbn.
  rewrite bool_decide_eq_true_2 by done.
  assert ((h <? expires) = true) as -> by lia.
  assert ((length vs =? size)%nat = true) as -> by lia. cbn.
  rewrite (msum_ext _ (fun a0 w0 => match first_ballot expires size ops a0 with
    | Some b => if bool_decide (b !! i = Some v) then w0 else 0 | None => 0 end) (delete a m)).
  - lia.
  - intros a' w' Ha'. rewrite first_ballot_app. cbn.
    rewrite (bool_decide_eq_false_2 (a = a')).
    + cbn. by destruct (first_ballot expires size ops a').
    + intros ->. by rewrite lookup_delete in Ha'.
Qed.

Lemma tallies_tally_of {E} (f : vote -> N) v w :
  f v + w < U256 ->
  tallies_tally (E:=E) (tallies_of f) v w =
  Ok (tallies_of (fun v' => f v' + if bool_decide (v = v') then w else 0)).
Proof.
  intros Hlt. unfold tallies_of.
  assert (add_u256 (E:=E) (f v) w = Ok (f v + w)) as Ha by (apply add_u256_ok; done).
  destruct v; cbn; rewrite ?Ha; cbn; rewrite ?N.add_0_r; done.
Qed.

Lemma tally_all_of {E} (f : nat -> vote -> N) w : forall votes k,
  (forall i v, f i v + w < U256) ->
  tally_all (E:=E) ((fun i => tallies_of (f i)) <$> seq k (length votes)) votes w =
  Ok ((fun i => tallies_of (fun v => f i v + if bool_decide (votes !! (i - k)%nat = Some v) then w else 0))
        <$> seq k (length votes)).
Proof.
  induction votes as [|v votes IH]; intros k Hlt; [done|].
  cbn [length seq fmap list_fmap tally_all].
  rewrite tallies_tally_of by done. cbn [rbind]. rewrite (IH (S k)) by done. cbn [rbind].
  do 2 f_equal.
  - rewrite Nat.sub_diag. cbn. unfold tallies_of.
    by destruct v.
  - apply list_fmap_ext. intros j i Hj. apply lookup_seq in Hj as [-> Hj].
    replace (S k + j - k)%nat with (S j) by lia.
    replace (S k + j - S k)%nat with j by lia. done.
Qed.

Lemma poll_new_spec s id expires size :
  poll_new id s expires size = poll_spec s id expires size [].
Proof.
  unfold poll_new, poll_spec. f_equal.
  - apply list_eq. intros i. destruct (decide (i < size)%nat).
    + rewrite lookup_replicate_2 by done. rewrite list_lookup_fmap, lookup_seq_lt by done. cbn.
      unfold tallies_of. by rewrite !weight_for_nil.
    + rewrite !lookup_ge_None_2; [done| |]; rewrite ?fmap_length, ?seq_length, ?replicate_length; lia.
  - apply map_eq. intros a. rewrite lookup_fmap, map_lookup_imap.
    by destruct (s_participants s !! a).
Qed.

Section PollHistory.
  Context (s : snapshot) (id expires : N) (size : nat).
  Context (Hsum : msum (fun _ w => w) (s_participants s) < U256).

  Let spec := poll_spec s id expires size.

  Lemma spec_participation ops a :
    poll_participation (spec ops) !! a =
    (fun w => {| pt_weight := w; pt_vote := first_ballot expires size ops a |}) <$> s_participants s !! a.
  Proof. cbn. rewrite map_lookup_imap. by destruct (s_participants s !! a). Qed.

  (** accepted vote *)
  Lemma spec_vote_ok ops h a vs :
    is_Some (s_participants s !! a) -> h < expires -> length vs = size ->
    first_ballot expires size ops a = None ->
    poll_cast_vote (spec ops) h a vs = Ok (spec (ops ++ [PVote h a vs])).
  Proof using Hsum.
    intros [w Hw] Hh Hl Hnone. unfold poll_cast_vote.
    rewrite spec_participation, Hw. cbn [fmap option_fmap option_map of_option rbind].
    assert ((h <? poll_expires_at (spec ops)) = true) as -> by (cbn; lia).
    assert ((N.of_nat (length vs) =? poll_size (spec ops)) = true) as -> by (cbn; lia).
    cbn [ensure rbind pt_vote]. rewrite Hnone. cbn [bool_decide decide ensure rbind].
    rewrite bool_decide_eq_true_2 by done. cbn [ensure rbind pt_weight].
    cbn [spec poll_spec poll_tallies]. subst size.
    rewrite (tally_all_of (fun i => weight_for (s_participants s) expires (length vs) ops i) w vs 0).
    - cbn [rbind]. f_equal. unfold spec, poll_spec.
      cbn [poll_id poll_quorum poll_expires_at poll_size poll_status_ poll_participation].
      rewrite finish_called_app. cbn [finish_called]. rewrite orb_false_r.
      f_equal.
      + apply list_fmap_ext. intros j i Hj. apply lookup_seq in Hj as [-> Hj].
        rewrite Nat.add_0_l, Nat.sub_0_r. unfold tallies_of.
        by rewrite !(weight_for_vote _ _ _ _ _ _ _ _ _ w).
      + apply map_eq. intros a'. rewrite map_lookup_imap.
        destruct (decide (a = a')) as [<-|Hne].
        * rewrite lookup_insert, Hw. cbn. rewrite first_ballot_app, Hnone. cbn.
          rewrite bool_decide_eq_true_2 by done.
          assert ((h <? expires) = true) as -> by lia.
          by rewrite Nat.eqb_refl.
        * rewrite lookup_insert_ne, map_lookup_imap by done.
          destruct (s_participants s !! a'); [|done]. cbn.
          rewrite first_ballot_app. cbn. rewrite bool_decide_eq_false_2 by done.
          cbn. by destruct (first_ballot expires (length vs) ops a').
    - intros i v. eapply N.le_lt_trans; [|exact Hsum].
      unfold weight_for.
      rewrite <- (insert_delete _ a w Hw). rewrite !msum_insert_fresh by apply lookup_delete.
      rewrite Hnone. cbv beta iota.
      match goal with |- _ + ?x + w <= w + ?y =>
        assert (x <= y) as Hx; [|clear -Hx; revert Hx; generalize x y; lia] end.
      apply msum_le. intros a1 w1 _.
      destruct (first_ballot expires (length vs) ops a1); [|lia]. case_bool_decide; lia.
  Qed.

  Lemma spec_vote_err ops h a vs e :
    poll_cast_vote (spec ops) h a vs = Err e ->
    (e = NotParticipant /\ s_participants s !! a = None) \/
    (e = PollExpired /\ is_Some (s_participants s !! a) /\ expires <= h) \/
    (e = InvalidVoteSize /\ is_Some (s_participants s !! a) /\ h < expires /\ length vs <> size) \/
    (e = AlreadyVoted /\ is_Some (s_participants s !! a) /\ h < expires /\ length vs = size /\
       is_Some (first_ballot expires size ops a)).
  Proof using Hsum.
    destruct (s_participants s !! a) as [w|] eqn:Hw.
    2:{ unfold poll_cast_vote. rewrite spec_participation, Hw. cbn. intros [= <-]. by left. }
    destruct (decide (h < expires)) as [Hh|Hh].
    2:{ unfold poll_cast_vote. rewrite spec_participation, Hw. cbn.
        assert ((h <? expires) = false) as -> by lia. cbn. intros [= <-].
        right; left. split_and!; eauto. lia. }
    destruct (decide (length vs = size)) as [Hl|Hl].
    2:{ unfold poll_cast_vote. rewrite spec_participation, Hw. cbn.
        assert ((h <? expires) = true) as -> by lia.
        assert ((N.of_nat (length vs) =? N.of_nat size) = false) as -> by lia. cbn. intros [= <-].
        right; right; left. eauto. }
    destruct (first_ballot expires size ops a) as [b|] eqn:Hb.
    2:{ rewrite spec_vote_ok by eauto. done. }
    unfold poll_cast_vote. rewrite spec_participation, Hw. cbn.
    assert ((h <? expires) = true) as -> by lia.
    assert ((N.of_nat (length vs) =? N.of_nat size) = true) as -> by lia. cbn. rewrite Hb. cbn.
    intros [= <-]. right; right; right. split_and!; eauto.
  Qed.

  Lemma spec_vote_no_panic ops h a vs : poll_cast_vote (spec ops) h a vs <> Panic.
  Proof using Hsum.
    unfold poll_cast_vote. rewrite spec_participation.
    destruct (s_participants s !! a) as [w|] eqn:Hw; [|done]. cbn.
    destruct (h <? expires) eqn:Hh; [|done]. cbn.
    destruct (N.of_nat (length vs) =? N.of_nat size) eqn:Hl; [|done]. cbn.
    destruct (first_ballot expires size ops a) as [b|] eqn:Hb; [done|].
    pose proof (spec_vote_ok ops h a vs ltac:(eauto) ltac:(lia) ltac:(lia) Hb) as Hok.
    unfold poll_cast_vote in Hok. rewrite spec_participation, Hw in Hok. cbn in Hok.
    rewrite Hh, Hl in Hok. cbn in Hok. rewrite Hb in Hok. cbn in *. by rewrite Hok.
  Qed.

  (** a vote that is not accepted does not change the counting ballots *)
  Lemma spec_vote_rejected ops h a vs e :
    poll_cast_vote (spec ops) h a vs = Err e -> spec (ops ++ [PVote h a vs]) = spec ops.
  Proof using Hsum.
    intros He. apply spec_vote_err in He.
    assert (forall a', is_Some (s_participants s !! a') ->
      first_ballot expires size (ops ++ [PVote h a vs]) a' = first_ballot expires size ops a') as Hfb.
    { intros a' Ha'. rewrite first_ballot_app.
      destruct (first_ballot expires size ops a') as [b|] eqn:Hb; [done|]. cbn.
      destruct (bool_decide (a = a')) eqn:Heq; [apply bool_decide_eq_true in Heq as <-|done]. cbn.
      destruct (h <? expires) eqn:Hh; [|done]. destruct (length vs =? size)%nat eqn:Hl; [|done].
      cbn. exfalso. destruct He as [(_&Hn)|[(_&_&?)|[(_&_&_&?)|(_&_&_&_&[? Hx])]]]; try lia.
      - rewrite Hn in Ha'. by destruct Ha'.
      - congruence. }
    unfold spec, poll_spec. rewrite finish_called_app. cbn [finish_called]. rewrite orb_false_r.
    f_equal.
    - apply list_fmap_ext. intros j i _. unfold tallies_of.
      by rewrite !(weight_for_ext _ _ _ (ops ++ [PVote h a vs]) ops).
    - apply map_eq. intros a'. rewrite !map_lookup_imap.
      destruct (s_participants s !! a') eqn:?; [|done]. cbn. by rewrite Hfb by eauto.
  Qed.

  Lemma spec_finish ops h :
    poll_finish (spec ops) h =
    if finish_called expires ops then Err PollNotInProgress
    else if h <? expires then Err PollNotEnded
    else Ok (spec (ops ++ [PFinish h])).
  Proof.
    unfold poll_finish. cbn [spec poll_spec poll_status_ poll_expires_at].
    destruct (finish_called expires ops) eqn:Hf; cbn [bool_decide decide].
    - by rewrite bool_decide_eq_true_2.
    - rewrite bool_decide_eq_false_2 by done.
      destruct (h <? expires) eqn:Hh; [done|]. f_equal.
      unfold spec, poll_spec. cbn [poll_id poll_quorum poll_size poll_tallies poll_participation].
      rewrite finish_called_app, Hf. cbn [finish_called orb].
      assert ((expires <=? h) = true) as -> by lia. cbn [orb].
      f_equal.
      + apply list_fmap_ext. intros j i _. unfold tallies_of.
        rewrite !(weight_for_ext _ _ _ (ops ++ [PFinish h]) ops); try done;
          intros; rewrite first_ballot_app; cbn; by destruct (first_ballot _ _ ops _).
      + apply map_eq. intros a'. rewrite !map_lookup_imap.
        destruct (s_participants s !! a') eqn:?; [|done]. cbn. rewrite first_ballot_app; cbn.
        by destruct (first_ballot _ _ ops _).
  Qed.

  Lemma spec_finish_rejected ops h e :
    poll_finish (spec ops) h = Err e -> spec (ops ++ [PFinish h]) = spec ops.
  Proof.
    rewrite spec_finish. intros He. unfold spec, poll_spec.
    rewrite finish_called_app. f_equal.
    + apply list_fmap_ext. intros j i _. unfold tallies_of.
      rewrite !(weight_for_ext _ _ _ (ops ++ [PFinish h]) ops); try done;
        intros; rewrite first_ballot_app; cbn; by destruct (first_ballot _ _ ops _).
    + cbn. destruct (finish_called expires ops); [done|]. cbn.
      destruct (h <? expires) eqn:?; [|done].
      assert ((expires <=? h) = false) as -> by lia. done.
    + apply map_eq. intros a'. rewrite !map_lookup_imap.
      destruct (s_participants s !! a') eqn:?; [|done]. cbn. rewrite first_ballot_app; cbn.
      by destruct (first_ballot _ _ ops _).
  Qed.

  Lemma poll_after_spec ops : poll_after s id expires size ops = spec ops.
  Proof using Hsum.
    unfold poll_after. induction ops as [|op ops IH] using rev_ind.
    - apply poll_new_spec.
    - rewrite run_snoc, IH. unfold exec, poll_step.
      destruct op as [h a vs|h].
      + destruct (poll_cast_vote (spec ops) h a vs) as [p|e|] eqn:Hc; cbn.
        * assert (is_Some (s_participants s !! a) /\ h < expires /\ length vs = size /\
                  first_ballot expires size ops a = None) as (?&?&?&?).
          { revert Hc. unfold poll_cast_vote. rewrite spec_participation.
            destruct (s_participants s !! a) as [w|] eqn:Hw; [|done]. cbn.
            destruct (h <? expires) eqn:Hh; [|done]. cbn.
            destruct (N.of_nat (length vs) =? N.of_nat size) eqn:Hl; [|done]. cbn.
            destruct (first_ballot expires size ops a) as [b|] eqn:Hb; [done|].
            intros _. split_and!; eauto; lia. }
          rewrite spec_vote_ok in Hc by done. by injection Hc as <-.
        * symmetry. eauto using spec_vote_rejected.
        * exfalso. by eapply spec_vote_no_panic.
      + destruct (poll_finish (spec ops) h) as [p|e|] eqn:Hc; cbn.
        * rewrite spec_finish in Hc. destruct (finish_called _ _); [done|].
          destruct (h <? expires); [done|]. by injection Hc as <-.
        * symmetry. eauto using spec_finish_rejected.
        * rewrite spec_finish in Hc. destruct (finish_called _ _); [done|]. by destruct (h <? expires).
  Qed.

  Lemma poll_after_vote_iff ops h a vs :
    is_ok (poll_cast_vote (poll_after s id expires size ops) h a vs) = true <->
    is_Some (s_participants s !! a) /\ h < expires /\ length vs = size /\
    first_ballot expires size ops a = None.
  Proof using Hsum.
    rewrite poll_after_spec. split.
    - destruct (poll_cast_vote (spec ops) h a vs) as [p|e|] eqn:Hc; [intros _|done|done].
      revert Hc. unfold poll_cast_vote. rewrite spec_participation.
      destruct (s_participants s !! a) as [w|] eqn:Hw; [|done]. cbn.
      destruct (h <? expires) eqn:Hh; [|done]. cbn.
      destruct (N.of_nat (length vs) =? N.of_nat size) eqn:Hl; [|done]. cbn.
      destruct (first_ballot expires size ops a) as [b|] eqn:Hb; [done|].
      intros _. split_and!; eauto; lia.
    - intros (?&?&?&?). by rewrite spec_vote_ok.
  Qed.
End PollHistory.

Lemma snapshot_sum_lt {E} t l s :
  snapshot_new (E:=E) t l = Ok s -> msum (fun _ w => w) (s_participants s) < U256.
Proof. intros H. apply snapshot_new_ok in H as (_&_&_&?&?&_). lia. Qed.

(** *** C03 *)
Lemma c03 t l s id expires size ops :
  snapshot_new (E:=unit) t l = Ok s ->
  let p := poll_after s id expires size ops in
  length (poll_tallies p) = size /\
  (forall i v, (i < size)%nat ->
     stored_tally p i v = Some (weight_for (s_participants s) expires size ops i v)) /\
  (forall a, is_Some (s_participants s !! a) -> stored_ballot p a = first_ballot expires size ops a) /\
  (forall a, s_participants s !! a = None -> stored_ballot p a = None).
Proof.
  intros Hs p. unfold p. rewrite poll_after_spec by exact (snapshot_sum_lt _ _ _ Hs).
  split_and!.
  - cbn. by rewrite fmap_length, seq_length.
  - intros i v Hi. unfold stored_tally. cbn. rewrite list_lookup_fmap, lookup_seq_lt by done. cbn.
    destruct v; done.
  - intros a [w Hw]. unfold stored_ballot. rewrite spec_participation, Hw. done.
  - intros a Ha. unfold stored_ballot. rewrite spec_participation, Ha. done.
Qed.

(** *** C04 *)
Lemma majority_quorum s l :
  majority_snapshot s l ->
  msum (fun _ w => w) (s_participants s) < U256 /\
  0 < s_quorum s /\
  msum (fun _ w => w) (s_participants s) < 2 * s_quorum s.
Proof.
  intros (num & den & t & t' & Ht & Hm & Hs).
  apply threshold_try_from_ok in Ht as [Hnd ->]. apply majority_try_from_ok in Hm as [Hmaj ->].
  apply snapshot_new_ok in Hs as (Hls & _ & Hq & Hlt & Hsum & _).
  cbn [t_num t_den] in *.
  destruct (decide (total_weight l = 0)).
  - lia.
  - pose proof (least_share_majority _ _ _ _ Hls Hnd Hmaj ltac:(lia)). lia.
Qed.

Lemma tallies_consensus_iff (f : vote -> N) q v :
  (forall v1 v2, v1 <> v2 -> f v1 + f v2 < 2 * q) ->
  tallies_consensus (tallies_of f) q = Some v <-> q <= f v.
Proof.
  intros H. cbn.
  pose proof (H FailedOnChain NotFound ltac:(done)).
  pose proof (H FailedOnChain SucceededOnChain ltac:(done)).
  pose proof (H NotFound SucceededOnChain ltac:(done)).
  destruct (q <=? f FailedOnChain) eqn:?; [|destruct (q <=? f NotFound) eqn:?; [|destruct (q <=? f SucceededOnChain) eqn:?]];
    destruct v; split; intros; try lia; try done.
Qed.

Lemma c04_iff l s id expires size ops i v :
  majority_snapshot s l -> (i < size)%nat ->
  poll_consensus (poll_after s id expires size ops) i = Ok (Some v) <->
  s_quorum s <= weight_for (s_participants s) expires size ops i v.
Proof.
  intros Hm Hi. apply majority_quorum in Hm as (Hlt & Hq & Hmaj).
  rewrite poll_after_spec by done. unfold poll_consensus. cbn.
  rewrite list_lookup_fmap, lookup_seq_lt by done. cbn [fmap option_fmap option_map Nat.add].
  rewrite <- (tallies_consensus_iff (weight_for (s_participants s) expires size ops i)).
  - split; [by intros [=]|by intros ->].
  - intros v1 v2 Hne. pose proof (weight_for_two (s_participants s) expires size ops i v1 v2 Hne). lia.
Qed.

Lemma c04_out_of_range l s id expires size ops i :
  majority_snapshot s l ->
  is_ok (poll_consensus (poll_after s id expires size ops) i) = true <-> (i < size)%nat.
Proof.
  intros Hm. apply majority_quorum in Hm as (Hlt & Hq & Hmaj).
  rewrite poll_after_spec by done. unfold poll_consensus. cbn.
  rewrite list_lookup_fmap. destruct (decide (i < size)%nat).
  - rewrite lookup_seq_lt by done. done.
  - rewrite lookup_seq_ge by lia. cbn. split; [done|lia].
Qed.

Lemma c04 l s id expires size ops i v :
  majority_snapshot s l ->
  poll_consensus (poll_after s id expires size ops) i = Ok (Some v) ->
  (forall v', s_quorum s <= weight_for (s_participants s) expires size ops i v' -> v' = v) /\
  (forall ops', poll_consensus (poll_after s id expires size (ops ++ ops')) i = Ok (Some v)).
Proof.
  intros Hm Hc.
  assert (i < size)%nat as Hi.
  { eapply c04_out_of_range; [done|]. by rewrite Hc. }
  split.
  - intros v' Hv'. eapply c04_iff in Hv'; [|done..]. rewrite Hc in Hv'. by injection Hv'.
  - intros ops'. eapply c04_iff; [done..|].
    eapply c04_iff in Hc; [|done..]. etrans; [exact Hc|]. apply weight_for_mono.
Qed.

(** *** C05 *)
Lemma poll_after_expired_finish {E} t l s id expires size ops h :
  snapshot_new (E:=E) t l = Ok s ->
  is_ok (poll_finish (poll_after s id expires size ops) h) = true <->
  finish_called expires ops = false /\ expires <= h.
Proof.
  intros Hs. rewrite poll_after_spec by exact (snapshot_sum_lt _ _ _ Hs).
  rewrite spec_finish by exact (snapshot_sum_lt _ _ _ Hs).
  destruct (finish_called expires ops); cbn; [split; [done|intros [? _]; done]|].
  destruct (h <? expires) eqn:?; cbn; [split; [done|lia]|]. split; [intros _; split; [done|lia]|done].
Qed.

Lemma poll_after_status {E} t l s id expires size ops :
  snapshot_new (E:=E) t l = Ok s ->
  poll_status_ (poll_after s id expires size ops) = Finished <-> finish_called expires ops = true.
Proof.
  intros Hs. rewrite poll_after_spec by exact (snapshot_sum_lt _ _ _ Hs). cbn.
  by destruct (finish_called expires ops).
Qed.

(** *** C06 *)
Lemma voted_consensus_iff b rs :
  length b = length rs ->
  voted_consensus b rs = true <->
  forall i v, rs !! i = Some (Some v) -> b !! i = Some v.
Proof.
  unfold voted_consensus. revert rs. induction b as [|v b IH]; intros [|r rs] Hl; try done.
  cbn [zip zip_with forallb]. rewrite andb_true_iff. rewrite IH by (cbn in Hl; lia). split.
  - intros [Hh Ht] [|i] w Hi; [|by apply Ht].
    cbn in *. injection Hi as ->. apply bool_decide_eq_true in Hh as ->. done.
  - intros H. split.
    + destruct r as [w|]; [|done]. apply bool_decide_eq_true. specialize (H 0%nat w eq_refl). by injection H.
    + intros i w Hi. by apply (H (S i)).
Qed.

Lemma string_leb_total a b : String.leb a b = true \/ String.leb b a = true.
Proof. apply String.leb_total. Qed.

Lemma elem_of_btree_iter {A} (m : gmap addr A) a x :
  (a, x) ∈ btree_iter m <-> m !! a = Some x.
Proof. unfold btree_iter. rewrite elem_of_isort. apply elem_of_map_to_list. Qed.

Lemma btree_iter_NoDup {A} (m : gmap addr A) : NoDup (btree_iter m).*1.
Proof.
  unfold btree_iter.
  assert ((isort (fun a b : string * A => String.leb a.1 b.1) (map_to_list m)).*1 ≡ₚ (map_to_list m).*1) as ->.
  { apply fmap_Permutation. apply isort_perm. }
  apply NoDup_fst_map_to_list.
Qed.

Lemma omap_fst_NoDup {A} (f : addr * A -> option addr) l :
  (forall x a, f x = Some a -> a = x.1) -> NoDup l.*1 -> NoDup (omap f l).
Proof.
  intros Hf. induction l as [|x l IH]; cbn; [constructor|].
  intros [Hni Hnd]%NoDup_cons. destruct (f x) as [a|] eqn:Hx; [|auto].
  constructor; [|auto]. intros Hin. apply elem_of_list_omap in Hin as (y & Hy & Hfy).
  apply Hf in Hx as ->. apply Hf in Hfy. apply Hni. rewrite Hfy. by apply elem_of_list_fmap_1.
Qed.

Lemma c06 {E} t l s id expires size ops :
  snapshot_new (E:=E) t l = Ok s ->
  let p := poll_after s id expires size ops in
  let ps := poll_state_of p in
  NoDup (ps_consensus_participants ps) /\
  (forall a, a ∈ ps_consensus_participants ps <->
     is_Some (s_participants s !! a) /\
     exists b, first_ballot expires size ops a = Some b /\
       forall i v, poll_consensus p i = Ok (Some v) -> b !! i = Some v) /\
  ps_poll_id ps = id /\
  length (ps_results ps) = size /\
  (forall i r, ps_results ps !! i = Some r <-> poll_consensus p i = Ok r).
Proof.
  intros Hs p ps. unfold ps, p. rewrite poll_after_spec by exact (snapshot_sum_lt _ _ _ Hs).
  clear ps p.
  set (p := poll_spec s id expires size ops).
  assert (forall i r, ps_results (poll_state_of p) !! i = Some r <-> poll_consensus p i = Ok r) as Hres.
  { intros i r. unfold poll_state_of, poll_consensus. cbn [ps_results].
    rewrite list_lookup_fmap. destruct (poll_tallies p !! i); cbn; naive_solver. }
  assert (length (ps_results (poll_state_of p)) = size) as Hlen.
  { cbn. by rewrite !fmap_length, seq_length. }
  split_and!; try done.
  - cbn. apply omap_fst_NoDup; [|apply btree_iter_NoDup].
    intros [a pt] a'. destruct (pt_vote pt); [|done]. destruct (voted_consensus _ _); [|done]. by intros [=].
  - intros a. unfold poll_state_of at 1. cbn [ps_consensus_participants].
    rewrite elem_of_list_omap. split.
    + intros ([a' pt] & Hin & Hf). apply elem_of_btree_iter in Hin.
      destruct (pt_vote pt) as [b|] eqn:Hb; [|done].
      destruct (voted_consensus b _) eqn:Hv; [|done]. injection Hf as ->.
      unfold p in Hin. rewrite spec_participation in Hin.
      destruct (s_participants s !! a) as [w|] eqn:Hw; [|done]. injection Hin as <-. cbn in Hb.
      split; [eauto|]. exists b. split; [done|].
      change (voted_consensus b (ps_results (poll_state_of p)) = true) in Hv.
      rewrite voted_consensus_iff in Hv by (rewrite Hlen; eauto using first_ballot_length).
      intros i v Hi. apply Hv. by apply Hres.
    + intros ([w Hw] & b & Hb & Hall).
      exists (a, {| pt_weight := w; pt_vote := Some b |}). split.
      * apply elem_of_btree_iter. unfold p. rewrite spec_participation, Hw. cbn. by rewrite Hb.
      * cbn [pt_vote]. change ((fun t => tallies_consensus t (poll_quorum p)) <$> poll_tallies p)
          with (ps_results (poll_state_of p)).
        assert (voted_consensus b (ps_results (poll_state_of p)) = true) as ->; [|done].
        rewrite voted_consensus_iff by (rewrite Hlen; eauto using first_ballot_length).
        intros i v Hi. apply Hall. by apply Hres.
Qed.

(** *** C02 and C05, in the form of the property files *)
Lemma c02_exists t l :
  0 < t_num t <= t_den t -> l <> [] -> Forall (fun p => 0 < p_weight p) l ->
  (total_weight l < U256 -> exists s, snapshot_new (E := unit) t l = Ok s) /\
  (U256 <= total_weight l -> snapshot_new (E := unit) t l = Panic).
Proof.
  intros Ht Hne Hpos. split; [intros; by apply snapshot_new_total|].
  intros Hge. unfold snapshot_new.
  assert (forall l tot m, tot < U256 -> U256 <= tot + total_weight l ->
    snapshot_collect (E:=unit) l tot m = Panic) as Hc.
  { clear. induction l as [|p l IH]; intros tot m Hlt Hge.
    - change (total_weight []) with 0 in Hge. lia.
    - change (total_weight (p :: l)) with (p_weight p + total_weight l) in *.
      cbn [snapshot_collect]. unfold add_u256, checked.
      destruct (tot + p_weight p <? U256) eqn:?; [|done]. cbn. apply IH; lia. }
  rewrite Hc; [done|done|lia].
Qed.

Lemma c02_quorum t l s :
  0 < t_num t <= t_den t -> snapshot_new (E := unit) t l = Ok s ->
  least_share (s_quorum s) (total_weight l) (t_num t) (t_den t) /\
  1 <= s_quorum s <= total_weight l.
Proof.
  intros Ht Hs. apply snapshot_new_ok in Hs as (Hls & _ & Hq & _). split; [done|].
  split; [lia|]. destruct Hls as [_ Hl]. apply Hl. nia.
Qed.

Lemma c02_participants t l s :
  NoDup (p_addr <$> l) -> snapshot_new (E := unit) t l = Ok s ->
  (forall a w, s_participants s !! a = Some w <->
     exists p, p ∈ l /\ p_addr p = a /\ p_weight p = w) /\
  msum (fun _ w => w) (s_participants s) = total_weight l.
Proof.
  intros Hnd Hs. apply snapshot_new_ok in Hs as (_ & _ & _ & _ & _ & Hl).
  destruct (msum_nodup l (s_participants s) Hnd Hl) as [Heq Hsum]. split; [|done].
  intros a w. rewrite Heq. rewrite <- elem_of_list_to_map.
  2:{ by rewrite <- list_fmap_compose. }
  rewrite elem_of_list_fmap. naive_solver.
Qed.

Lemma c02_intersect s l (g1 g2 : gset addr) :
  majority_snapshot s l -> g1 ## g2 ->
  let weight g := msum (fun a w => if bool_decide (a ∈ g) then w else 0) (s_participants s) in
  ~ (s_quorum s <= weight g1 /\ s_quorum s <= weight g2).
Proof.
  intros Hm Hd weight [H1 H2]. apply majority_quorum in Hm as (_ & _ & Hlt).
  assert (weight g1 + weight g2 <= msum (fun _ w => w) (s_participants s)); [|lia].
  unfold weight. rewrite <- msum_add. apply msum_le. intros a w _.
  repeat case_bool_decide; try lia. set_solver.
Qed.

Lemma c05_vote t l s id expires size ops h a vs :
  snapshot_new (E := unit) t l = Ok s ->
  is_ok (poll_cast_vote (poll_after s id expires size ops) h a vs) = true <->
  is_Some (s_participants s !! a) /\ h < expires /\ length vs = size /\
  first_ballot expires size ops a = None.
Proof. intros Hs. apply poll_after_vote_iff. exact (snapshot_sum_lt _ _ _ Hs). Qed.

Lemma c05_vote_errors t l s id expires size ops h a vs e :
  snapshot_new (E := unit) t l = Ok s ->
  poll_cast_vote (poll_after s id expires size ops) h a vs = Err e ->
  (e = NotParticipant /\ s_participants s !! a = None) \/
  (e = PollExpired /\ is_Some (s_participants s !! a) /\ expires <= h) \/
  (e = InvalidVoteSize /\ is_Some (s_participants s !! a) /\ h < expires /\ length vs <> size) \/
  (e = AlreadyVoted /\ is_Some (s_participants s !! a) /\ h < expires /\ length vs = size /\
     is_Some (first_ballot expires size ops a)).
Proof.
  intros Hs. pose proof (snapshot_sum_lt _ _ _ Hs). rewrite poll_after_spec by done.
  by apply spec_vote_err.
Qed.

Lemma c05_no_panic t l s id expires size ops h a vs :
  snapshot_new (E := unit) t l = Ok s ->
  poll_cast_vote (poll_after s id expires size ops) h a vs <> Panic.
Proof.
  intros Hs. pose proof (snapshot_sum_lt _ _ _ Hs). rewrite poll_after_spec by done.
  by apply spec_vote_no_panic.
Qed.

Lemma c05_finish t l s id expires size ops h :
  snapshot_new (E := unit) t l = Ok s ->
  is_ok (poll_finish (poll_after s id expires size ops) h) = true <->
  poll_status_ (poll_after s id expires size ops) <> Finished /\ expires <= h.
Proof.
  intros Hs. rewrite (poll_after_expired_finish t l s) by done.
  rewrite (poll_after_status t l s) by done. rewrite not_true_iff_false. done.
Qed.

Lemma c05_after_finish t l s id expires size ops h ops' h' a vs :
  snapshot_new (E := unit) t l = Ok s ->
  is_ok (poll_finish (poll_after s id expires size ops) h) = true -> h <= h' ->
  exists e, poll_cast_vote (poll_after s id expires size (ops ++ PFinish h :: ops')) h' a vs = Err e.
Proof.
  intros Hs Hf Hle. apply (poll_after_expired_finish (E:=unit) t l s) in Hf as [_ Hf]; [|done].
  destruct (poll_cast_vote _ h' a vs) as [p|e|] eqn:Hc; [|eauto|].
  - assert (is_ok (poll_cast_vote (poll_after s id expires size (ops ++ PFinish h :: ops')) h' a vs) = true) as Hok
      by (by rewrite Hc).
    apply (c05_vote t l s) in Hok; [|done]. lia.
  - exfalso. by eapply c05_no_panic.
Qed.

(** *** C01 *)
Lemma c01_interval num den t :
  threshold_try_from num den = Ok t <->
  0 < num <= den /\ t_num t = num /\ t_den t = den.
Proof.
  rewrite threshold_try_from_ok.
  split; [intros [? ->]; done|intros (? & <- & <-); split; [done|by destruct t]].
Qed.

Lemma c01_inverse : exists num den t t',
  threshold_try_from num den = Ok t /\ threshold_inv t = Some t' /\
  ~ (0 < t_num t' <= t_den t').
Proof. exists 1, 2. do 2 eexists. split_and!; [done|done|]. cbn. lia. Qed.
