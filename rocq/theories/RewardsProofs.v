(** Proofs about the rewards contract: epochs and the invariant. *)
From Verif Require Import Base BaseLemmas StdModel StdSpec StdProofs RewardsModel RewardsSpec.

Record rinv (s : rstate) : Prop := {
  ri_p : valid_rparams (r_params s);
  ri_u : e_num (r_updated s) <= e_start (r_updated s) < U64;
  ri_t : forall c n t, r_tallies s !! (c, n) = Some t ->
           ty_contract t = c /\ e_num (ty_epoch t) = n /\ valid_rparams (ty_params t);
  ri_e : forall ev c n, r_events s !! (ev, c) = Some n -> is_Some (r_tallies s !! (c, n));
  ri_b : forall c b, r_pools s !! c = Some b -> b < U128;
  ri_m : forall c n, r_marks s !! c = Some n -> n + 1 < U64;
}.

Lemma current_epoch_ok s h :
  valid_rparams (r_params s) -> e_num (r_updated s) <= e_start (r_updated s) ->
  e_start (r_updated s) <= h -> h < U64 ->
  let d := rp_duration (r_params s) in
  let u := r_updated s in
  current_epoch s h =
    Ok {| e_num := e_num u + (h - e_start u) / d; e_start := e_start u + (h - e_start u) / d * d |}.
Proof.
  intros [[Hd _] _] Hu Hs Hh. cbn zeta. unfold current_epoch.
  destruct (N.ltb_spec h (e_start (r_updated s))); [lia|].
  destruct (N.eqb_spec (rp_duration (r_params s)) 0); [lia|].
  set (d := rp_duration (r_params s)) in *. set (el := (h - e_start (r_updated s)) / d).
  assert (Hel : el * d <= h - e_start (r_updated s)).
  { unfold el. rewrite N.mul_comm. apply N.mul_div_le. lia. }
  assert (el <= el * d) by nia.
  unfold add_u64, checked. cbn [rbind].
  destruct (N.ltb_spec (e_num (r_updated s) + el) U64); [|lia]. cbn [rbind].
  destruct (N.ltb_spec (el * d) U64); [|lia]. cbn [rbind].
  destruct (N.ltb_spec (e_start (r_updated s) + el * d) U64); [|lia]. done.
Qed.

Lemma current_epoch_inv s h e :
  current_epoch s h = Ok e ->
  let d := rp_duration (r_params s) in
  let u := r_updated s in
  e_start u <= h /\ 0 < d /\
  e_num e = e_num u + (h - e_start u) / d /\ e_start e = e_start u + (h - e_start u) / d * d /\
  e_start e <= h < e_start e + d.
Proof.
  unfold current_epoch. cbn zeta. intros H.
  destruct (N.ltb_spec h (e_start (r_updated s))); [discriminate|].
  destruct (N.eqb_spec (rp_duration (r_params s)) 0); [discriminate|].
  apply rbind_ok in H as (a & Ha & H). apply rbind_ok in H as (b & Hb & H).
  apply rbind_ok in H as (x & Hx & H). apply checked_ok in Hb as [Hb ->].
  apply add_u64_ok in Ha as [Ha ->]. apply add_u64_ok in Hx as [Hx ->].
  injection H as <-. cbn.
  set (d := rp_duration (r_params s)) in *. set (q := h - e_start (r_updated s)) in *.
  pose proof (N.div_mod q d ltac:(lia)). pose proof (N.mod_lt q d ltac:(lia)).
  repeat split; try lia; nia.
Qed.

Lemma epoch_le s h e :
  current_epoch s h = Ok e -> e_num (r_updated s) <= e_start (r_updated s) -> e_num e <= e_start e.
Proof.
  intros He Hu. apply current_epoch_inv in He. cbn zeta in He. destruct He as (_ & Hd & -> & -> & _).
  generalize dependent (rp_duration (r_params s)). intros d Hd.
  generalize ((h - e_start (r_updated s)) / d). intros q.
  assert (q <= q * d) by nia. lia.
Qed.

Lemma current_epoch_past s h :
  h < e_start (r_updated s) -> current_epoch s h = Err BlockHeightInPast.
Proof. intros. unfold current_epoch. destruct (N.ltb_spec h (e_start (r_updated s))); [done|lia]. Qed.

(** Inversions of the steps. *)
Lemma record_inv s ev w c h s' :
  record_participation s ev w c h = Ok s' ->
  rinv s ->
  exists cur num t0 n cnt,
    current_epoch s h = Ok cur /\
    num = match r_events s !! (ev, c) with Some n => n | None => e_num cur end /\
    t0 = match r_tallies s !! (c, num) with
         | Some t => t
         | None => {| ty_contract := c; ty_count := 0; ty_part := ∅; ty_epoch := cur; ty_params := r_params s |}
         end /\
    (r_events s !! (ev, c) <> None -> is_Some (r_tallies s !! (c, num))) /\
    n = default 0 (ty_part t0 !! w) + 1 /\
    cnt = match r_events s !! (ev, c) with Some _ => ty_count t0 | None => ty_count t0 + 1 end /\
    s' = {| r_governance := r_governance s; r_denom := r_denom s; r_params := r_params s;
            r_updated := r_updated s;
            r_tallies := <[(c, num) :=
                {| ty_contract := c; ty_count := cnt; ty_part := <[w := n]> (ty_part t0);
                   ty_epoch := ty_epoch t0; ty_params := ty_params t0 |}]> (r_tallies s);
            r_events := <[(ev, c) := num]> (r_events s);
            r_pools := r_pools s; r_marks := r_marks s |} /\
    ty_contract t0 = c /\ e_num (ty_epoch t0) = num /\ valid_rparams (ty_params t0).
Proof.
  intros H Hinv. unfold record_participation in H.
  apply rbind_ok in H as (cur & Hcur & H).
  exists cur.
  destruct (r_events s !! (ev, c)) as [m|] eqn:Hev; cbn zeta in H.
  - destruct (ri_e s Hinv _ _ _ Hev) as [t Ht].
    destruct (ri_t s Hinv _ _ _ Ht) as (Hc & Hn & Hp).
    rewrite Ht in H. unfold tally_record in H. 
    destruct (ty_part t !! w) as [x|] eqn:Hw; res_inv; subst; cbn in *; res_inv; subst; cbn in *;
      (exists (e_num (ty_epoch t)), t; eexists _, _; split; [done|]; split; [done|]; rewrite Ht; split; [done|];
       split; [intros; eauto|]; split; [done|]; split; [done|]; rewrite Hw; cbn;
       split; [|done]; f_equal; by rewrite insert_id).
  - destruct (r_tallies s !! (c, e_num cur)) as [t|] eqn:Ht.
    + destruct (ri_t s Hinv _ _ _ Ht) as (Hc & Hn & Hp).
      unfold tally_record in H. 
      destruct (ty_part t !! w) as [x|] eqn:Hw; res_inv; subst; cbn in *; res_inv; subst; cbn in *;
        (exists (e_num cur), t; eexists _, _; split; [done|]; split; [done|]; rewrite Ht; split; [done|];
         split; [intros; done|]; split; [done|]; split; [done|]; rewrite Hw; cbn;
         split; [by rewrite Hn|done]).
    + unfold tally_record in H. cbn in H. rewrite lookup_empty in H.
      res_inv; subst; cbn in *; res_inv; subst; cbn in *.
      eexists (e_num cur), _, _, _. split; [done|]. split; [done|]. rewrite Ht. split; [done|].
      split; [done|]. split; [done|]. split; [done|]. cbn. rewrite lookup_empty. cbn.
      split; [done|]. split; [done|]. split; [done|]. apply (ri_p s Hinv).
Qed.

Lemma rinv_init i : valid_rinit i -> rinv (rstart i).
Proof.
  intros [Hp Hh]. split; cbn; try done; lia.
Qed.

Lemma update_inv s p h g s' :
  update_params s p h g = Ok s' ->
  exists cur, g = r_governance s /\ current_epoch s h = Ok cur /\
    e_start cur + rp_duration p < U64 /\
    s' = {| r_governance := r_governance s; r_denom := r_denom s; r_params := p;
            r_updated := if e_start cur + rp_duration p <? h
                         then {| e_num := e_num cur + 1; e_start := h |} else cur;
            r_tallies := r_tallies s; r_events := r_events s; r_pools := r_pools s;
            r_marks := r_marks s |}.
Proof.
  unfold update_params. intros H.
  apply rbind_ok in H as (u & Hu & H). apply ensure_ok, bool_decide_eq_true in Hu.
  apply rbind_ok in H as (cur & Hcur & H). apply rbind_ok in H as (b & Hb & H).
  apply add_u64_ok in Hb as [Hb ->].
  exists cur. split; [done|]. split; [done|]. split; [done|].
  destruct (e_start cur + rp_duration p <? h); res_inv; subst; done.
Qed.

Lemma distribute_inv s c h limit s' out :
  distribute_rewards s c h limit = Ok (s', out) ->
  (forall n, r_marks s !! c = Some n -> n + 1 < U64) ->
  exists cur to rewards,
    current_epoch s h = Ok cur /\
    next_epoch s c + default DEFAULT_EPOCHS_TO_PROCESS limit < U64 /\
    to = N.min (next_epoch s c + default DEFAULT_EPOCHS_TO_PROCESS limit - 1) (e_num cur - 2) /\
    next_epoch s c <= to /\ 2 <= e_num cur /\
    cumulate_rewards s c (next_epoch s c) to = Ok rewards /\
    exists total, sum_u128 (btree_iter rewards).*2 = Ok total /\ total <= pool_balance s c /\
    out = btree_iter rewards /\
    s' = {| r_governance := r_governance s; r_denom := r_denom s; r_params := r_params s;
         r_updated := r_updated s; r_tallies := r_tallies s; r_events := r_events s;
         r_pools := <[c := pool_balance s c - total]> (r_pools s);
         r_marks := <[c := to]> (r_marks s) |}.
Proof.
  unfold distribute_rewards. intros H Hm. 
  apply rbind_ok in H as (cur & Hcur & H).
  apply rbind_ok in H as (from & Hfrom & H).
  assert (from = next_epoch s c) as ->.
  { unfold next_epoch. destruct (r_marks s !! c); res_inv; subst; done. }
  apply rbind_ok in H as (bound & Hb & H). apply add_u64_ok in Hb as [Hb ->].
  cbn zeta in H.
  apply rbind_ok in H as (u & Hu & H). apply ensure_ok in Hu.
  apply rbind_ok in H as (rewards & Hr & H).
  apply rbind_ok in H as (total & Ht & H).
  apply rbind_ok in H as (u' & Hu' & H). apply ensure_ok in Hu'.
  injection H as <- <-. unfold EPOCH_PAYOUT_DELAY in *.
  eexists _, _, _. split; [done|]. split; [done|]. split; [done|].
  split; [lia|]. split; [lia|]. split; [done|]. exists total.
  split; [done|]. split; [lia|]. done.
Qed.

Lemma add_inv s c funds s' :
  add_rewards s c funds = Ok s' ->
  exists amount, funds = [(r_denom s, amount)] /\ 0 < amount /\ pool_balance s c + amount < U128 /\
    s' = {| r_governance := r_governance s; r_denom := r_denom s; r_params := r_params s;
            r_updated := r_updated s; r_tallies := r_tallies s; r_events := r_events s;
            r_pools := <[c := pool_balance s c + amount]> (r_pools s); r_marks := r_marks s |}.
Proof.
  unfold add_rewards. intros H. apply rbind_ok in H as (a & Ha & H).
  destruct (find _ funds) as [[d x]|] eqn:Hf; [|discriminate].
  apply find_some in Hf as [Hin Hd]. cbn in Hd. apply String.eqb_eq in Hd as ->.
  destruct (length funds =? 1)%nat eqn:Hl; [|discriminate]. apply Nat.eqb_eq in Hl.
  injection Ha as <-. cbn in H. res_inv. subst.
  destruct funds as [|y [|z funds]]; cbn in Hl; try lia.
  destruct Hin as [->|[]]. exists x. split; [done|]. split; [|done].
  apply negb_true_iff, N.eqb_neq in Hv. lia.
Qed.

Lemma rinv_step s op s' out :
  valid_rop op -> rinv s -> rewards_step s op = Ok (s', out) -> rinv s'.
Proof.
  intros [Hh Hop] Hinv Hs. destruct op as [h c ev w|c funds|h c limit|h g p]; cbn in Hs.
  - apply rbind_ok in Hs as (s1 & Hs & H1). injection H1 as <- <-.
    destruct (record_inv _ _ _ _ _ _ Hs Hinv) as
      (cur & num & t0 & n & cnt & Hcur & Hnum & Ht0 & Hsome & Hn & Hcnt & -> & Hc & He & Hp).
    clear Hnum Ht0.
    destruct Hinv. split; cbn; auto.
    + intros c' n' t. rewrite lookup_insert_Some. intros [[[= <- <-] <-]|[_ Ht]]; cbn; eauto.
    + intros ev' c' n'. rewrite lookup_insert_Some. intros [[[= <- <-] <-]|[_ Ht]]; cbn; eauto.
      * rewrite lookup_insert. eauto.
      * destruct (decide ((c, num) = (c', n'))) as [<-|Hne]; [rewrite lookup_insert; eauto|].
        rewrite lookup_insert_ne by done. eauto.
  - apply rbind_ok in Hs as (s1 & Hs & H1). injection H1 as <- <-.
    apply add_inv in Hs as (a & -> & Ha & Hb & ->).
    destruct Hinv. split; cbn; auto.
    intros c' b. rewrite lookup_insert_Some. intros [[<- <-]|[_ Hb']]; eauto.
  - apply distribute_inv in Hs; [|apply (ri_m s Hinv)].
    destruct Hs as (cur & to & r & Hcur & Hl & Hto & Hle & H2 & Hcum & total & Hsum & Hbal & -> & ->).
    specialize (Hh h eq_refl). pose proof (epoch_le _ _ _ Hcur (proj1 (ri_u s Hinv))) as Hnle.
    apply current_epoch_inv in Hcur. cbn zeta in Hcur. destruct Hcur as (Hu & Hd & Hn & Hst & Hin).
    destruct Hinv. split; cbn; auto.
    + intros c' b. rewrite lookup_insert_Some. intros [[<- <-]|[_ Hb']]; eauto.
      unfold pool_balance. destruct (r_pools s !! c) eqn:Hpc; cbn; [apply ri_b0 in Hpc; lia|].
      unfold U128. lia.
    + intros c' m. rewrite lookup_insert_Some. intros [[<- <-]|[_ Hb']]; eauto.
      lia.
  - apply rbind_ok in Hs as (s1 & Hs & H1). injection H1 as <- <-.
    apply update_inv in Hs as (cur & -> & Hcur & Hb & ->).
    specialize (Hh h eq_refl). pose proof (epoch_le _ _ _ Hcur (proj1 (ri_u s Hinv))) as Hnle.
    apply current_epoch_inv in Hcur. cbn zeta in Hcur. destruct Hcur as (Hu & Hd & Hn & Hst & Hin).
    destruct Hinv. split; cbn; auto.
    destruct (N.ltb_spec (e_start cur + rp_duration p) h); cbn; lia.
Qed.

Lemma rinv_run i ops : valid_rinit i -> Forall valid_rop ops -> rinv (rrun i ops).
Proof.
  intros Hi Hops. unfold rrun. apply (run_inv_ops _ valid_rop rinv); [done|by apply rinv_init|].
  intros. eapply rinv_step; eauto.
Qed.

(** C14 *)
Lemma c14_formula i ops h :
  valid_rinit i -> Forall valid_rop ops -> h < U64 ->
  let s := rrun i ops in
  let u := r_updated s in
  let d := rp_duration (r_params s) in
  (h < e_start u -> current_epoch s h = Err BlockHeightInPast) /\
  (e_start u <= h -> exists e, current_epoch s h = Ok e /\
     e_num e = e_num u + (h - e_start u) / d /\
     e_start e = e_start u + (e_num e - e_num u) * d /\
     e_start e <= h < e_start e + d).
Proof.
  intros Hi Hops Hh s u d. pose proof (rinv_run i ops Hi Hops) as Hinv. fold s in Hinv.
  split; [apply current_epoch_past|]. intros Hu.
  pose proof (current_epoch_ok s h (ri_p s Hinv) (proj1 (ri_u s Hinv)) Hu Hh) as He.
  cbn zeta in He. eexists. split; [exact He|].
  apply current_epoch_inv in He. cbn zeta in He. cbn [e_num e_start] in *.
  destruct He as (_ & _ & _ & _ & Hin). split; [done|]. split; [|done].
  fold u d. generalize ((h - e_start u) / d). intros q.
  replace (e_num u + q - e_num u) with q by lia. done.
Qed.

Lemma c14_monotone s h h' e e' :
  current_epoch s h = Ok e -> current_epoch s h' = Ok e' -> h <= h' ->
  e_num e <= e_num e' <= e_num e + (h' - h) /\ e_start e <= e_start e'.
Proof.
  intros He He' Hle. apply current_epoch_inv in He, He'. cbn zeta in *.
  destruct He as (Hu & Hd & Hn & Hs & Hin). destruct He' as (Hu' & _ & Hn' & Hs' & Hin').
  rewrite Hn, Hn', Hs, Hs' in *.
  set (d := rp_duration (r_params s)) in *. set (a := e_start (r_updated s)) in *.
  assert ((h - a) / d <= (h' - a) / d) by (apply N.div_le_mono; lia).
  assert ((h' - a) / d <= (h - a) / d + (h' - h)).
  { replace (h' - a) with ((h - a) + (h' - h)) by lia.
    pose proof (N.div_mod ((h - a) + (h' - h)) d ltac:(lia)).
    pose proof (N.div_mod (h - a) d ltac:(lia)).
    pose proof (N.mod_lt (h - a) d ltac:(lia)).
    set (x := (h - a + (h' - h)) / d) in *. set (y := (h - a) / d) in *.
    set (m1 := (h - a + (h' - h)) mod d) in *. set (m2 := (h - a) mod d) in *.
    destruct (N.le_gt_cases x (y + (h' - h))); [done|]. exfalso.
    assert (d * (y + (h' - h) + 1) <= d * x) by (apply N.mul_le_mono_l; lia). nia. }
  split; [lia|]. nia.
Qed.

Lemma c14_update i ops h g p s' :
  valid_rinit i -> Forall valid_rop ops -> h < U64 -> valid_rparams p ->
  let s := rrun i ops in
  update_params s p h g = Ok s' ->
  exists e, current_epoch s h = Ok e /\
    current_epoch s' h =
      Ok (if e_start e + rp_duration p <=? h then {| e_num := e_num e + 1; e_start := h |} else e).
Proof.
  intros Hi Hops Hh Hp s Hup. pose proof (rinv_run i ops Hi Hops) as Hinv. fold s in Hinv.
  apply update_inv in Hup as (cur & -> & Hcur & Hb & Hs'). exists cur. split; [done|].
  pose proof (current_epoch_inv _ _ _ Hcur) as Hc. cbn zeta in Hc.
  destruct Hc as (Hu & Hd & Hn & Hst & Hin).
  pose proof (epoch_le _ _ _ Hcur (proj1 (ri_u s Hinv))) as Hnle.
  assert (Hp' : valid_rparams (r_params s')) by (by rewrite Hs').
  assert (Hd' : r_params s' = p) by (by rewrite Hs').
  assert (Hu' : r_updated s' = if e_start cur + rp_duration p <? h
                         then {| e_num := e_num cur + 1; e_start := h |} else cur) by (by rewrite Hs').
  assert (Hle : e_num (r_updated s') <= e_start (r_updated s') /\ e_start (r_updated s') <= h).
  { rewrite Hu'. destruct (N.ltb_spec (e_start cur + rp_duration p) h); cbn; lia. }
  pose proof (current_epoch_ok s' h Hp' (proj1 Hle) (proj2 Hle) Hh) as He. cbn zeta in He.
  rewrite He, Hd', Hu'. destruct Hp as [[Hp1 _] _]. f_equal.
  destruct (N.ltb_spec (e_start cur + rp_duration p) h); cbn;
    destruct (N.leb_spec (e_start cur + rp_duration p) h); try lia.
  - rewrite N.sub_diag, N.div_0_l by lia. f_equal; lia.
  - assert (h = e_start cur + rp_duration p) as -> by lia.
    replace (e_start cur + rp_duration p - e_start cur) with (rp_duration p) by lia.
    rewrite N.div_same by lia. f_equal; lia.
  - rewrite N.div_small by lia. destruct cur; cbn. f_equal; lia.
Qed.

Lemma epoch_ext s s' h :
  r_params s' = r_params s -> r_updated s' = r_updated s -> current_epoch s' h = current_epoch s h.
Proof. unfold current_epoch. by intros -> ->. Qed.

(** Before a height, along a history of calls at or after it. *)
Lemma epoch_step s op s' out h h1 e :
  valid_rop op -> rinv s -> rewards_step s op = Ok (s', out) ->
  current_epoch s h = Ok e -> rop_height op = Some h1 -> h <= h1 -> 
  exists e', current_epoch s' h1 = Ok e' /\ e_num e <= e_num e'.
Proof.
  intros Hop Hinv Hs He Hh1 Hle.
  assert (H1 : h1 < U64) by (by apply Hop).
  assert (He1 : exists e1, current_epoch s h1 = Ok e1).
  { eexists. apply current_epoch_ok; try apply Hinv; [|done].
    apply current_epoch_inv in He. cbn zeta in He. lia. }
  destruct He1 as [e1 He1].
  assert (e_num e <= e_num e1) by (by apply (c14_monotone _ _ _ _ _ He He1)).
  destruct op as [h2 c ev w|c funds|h2 c limit|h2 g p]; cbn in Hs; cbn in Hh1; try discriminate;
    injection Hh1 as ->.
  - apply rbind_ok in Hs as (s1 & Hs & H2). injection H2 as <- <-.
    destruct (record_inv _ _ _ _ _ _ Hs Hinv) as
      (? & ? & ? & ? & ? & ? & ? & ? & ? & ? & ? & -> & _).
    exists e1. split; [by rewrite <- He1; apply epoch_ext|done].
  - apply distribute_inv in Hs; [|apply (ri_m s Hinv)].
    destruct Hs as (? & ? & ? & ? & ? & ? & ? & ? & ? & ? & ? & ? & ? & ->).
    exists e1. split; [by rewrite <- He1; apply epoch_ext|done].
  - apply rbind_ok in Hs as (s1 & Hs & Hq). injection Hq as <- <-.
    pose proof (rinv_step s (UpdateParams h1 g p) s1 [] Hop Hinv) as Hinv'.
    cbn in Hinv'. rewrite Hs in Hinv'. specialize (Hinv' eq_refl).
    apply update_inv in Hs as (cur & -> & Hcur & Hb & Hs'). rewrite He1 in Hcur. injection Hcur as ->.
    pose proof (current_epoch_inv _ _ _ He1) as Hc. cbn zeta in Hc.
    assert (Hu : r_updated s1 = if e_start cur + rp_duration p <? h1
                         then {| e_num := e_num cur + 1; e_start := h1 |} else cur) by (by rewrite Hs').
    eexists. split; [apply current_epoch_ok; try apply Hinv'; [|done]|].
    + rewrite Hu. destruct (e_start cur + rp_duration p <? h1); cbn; lia.
    + cbn. match goal with |- _ <= _ + ?q => generalize q end. intros q. rewrite Hu.
      destruct (e_start cur + rp_duration p <? h1); cbn; lia.
Qed.

Lemma add_epoch s c funds s' out h :
  rewards_step s (AddRewards c funds) = Ok (s', out) -> current_epoch s' h = current_epoch s h.
Proof.
  cbn. intros Hs. apply rbind_ok in Hs as (s1 & Hs & H2). injection H2 as <- <-.
  apply add_inv in Hs as (? & _ & _ & _ & ->). by apply epoch_ext.
Qed.

Lemma c14_history s ops h h' e :
  rinv s -> Forall valid_rop ops -> h' < U64 ->
  current_epoch s h = Ok e -> StronglySorted N.le (h :: heights ops ++ [h']) ->
  exists e', current_epoch (run rewards_step s ops) h' = Ok e' /\ e_num e <= e_num e'.
Proof.
  intros Hinv Hops Hh'. revert s h e Hinv.
  induction Hops as [|op ops Hop Hops IH]; intros s h e Hinv He Hsort.
  - cbn in *. apply StronglySorted_inv in Hsort as [_ Hle].
    apply Forall_inv in Hle.
    eexists. split; [apply current_epoch_ok; try apply Hinv; [|done]|].
    + apply current_epoch_inv in He. cbn zeta in He. lia.
    + eassert (current_epoch s h' = Ok _) as He'.
      { apply current_epoch_ok; try apply Hinv; [|done].
        apply current_epoch_inv in He. cbn zeta in He. lia. }
      apply (c14_monotone _ _ _ _ _ He He' Hle).
  - cbn [run]. destruct (rop_height op) as [h1|] eqn:Hh1.
    + assert (Hh : heights (op :: ops) = h1 :: heights ops) by (unfold heights; cbn; by rewrite Hh1).
      rewrite Hh in Hsort. cbn in Hsort. apply StronglySorted_inv in Hsort as [Hsort Hle].
      pose proof (Forall_inv Hle) as Hle1. cbn in Hle1.
      unfold exec. destruct (rewards_step s op) as [[s' out]| |] eqn:Hs.
      * destruct (epoch_step _ _ _ _ _ _ _ Hop Hinv Hs He Hh1 Hle1) as (e1 & He1 & Hn1).
        destruct (IH s' h1 e1 (rinv_step _ _ _ _ Hop Hinv Hs) He1 Hsort) as (e' & He' & Hn').
        exists e'. split; [done|lia].
      * assert (Hb : StronglySorted N.le (h :: heights ops ++ [h'])).
        { apply StronglySorted_inv in Hsort as [Hsort _]. constructor; [done|]. by apply Forall_inv_tail in Hle. }
        by apply (IH s h e).
      * assert (Hb : StronglySorted N.le (h :: heights ops ++ [h'])).
        { apply StronglySorted_inv in Hsort as [Hsort _]. constructor; [done|]. by apply Forall_inv_tail in Hle. }
        by apply (IH s h e).
    + assert (Hh : heights (op :: ops) = heights ops) by (unfold heights; cbn; by rewrite Hh1).
      rewrite Hh in Hsort.
      unfold exec. destruct (rewards_step s op) as [[s' out]| |] eqn:Hs; [|by apply (IH s h e)..].
      destruct op; try discriminate.
      apply (IH s' h e); [by eapply rinv_step|by erewrite add_epoch|done].
Qed.
