(** Rounding is to the nearest, the default price, and transactions. *)
From Verif Require Import Base BaseLemmas Text QueueModel BroadcasterModel BroadcasterSpec FeeModel FeeSpec FeeProofs FeeProofs2.

Lemma rne_tie a b : 0 < b -> 2 * (rne a b * b) = 2 * a + b \/ 2 * a = 2 * (rne a b * b) + b -> N.even (rne a b) = true.
Proof.
  intros Hb. unfold rne. pose proof (N.div_mod a b ltac:(lia)) as Hd. pose proof (N.mod_lt a b ltac:(lia)) as Hm.
  remember (a / b) as q. remember (a mod b) as r. clear Heqq Heqr.
  destruct (N.ltb_spec (2 * r) b); [nia|]. destruct (N.ltb_spec b (2 * r)); [nia|].
  destruct (N.even q) eqn:E; [done|]. intros _. rewrite N.even_add, E. done.
Qed.

(** An f64 other than the result is at least a unit in the last place away, or
    below the numbers with that last place. *)
Lemma other_repr n d y : 0 < d -> repr y -> y <> rounded n d ->
  let E := expo n d in
  y + 2 ^ E <= rounded n d \/ rounded n d + 2 ^ E <= y \/ (E <> 0 /\ y < 2 ^ 52 * 2 ^ E).
Proof.
  intros Hd (m & e & Hm & ->) Hne E. unfold rounded in *. fold E in Hne |- *. set (R := rne _ _) in *.
  destruct (decide (E <= e)) as [Hle|Hlt].
  - assert (2 ^ e = 2 ^ (e - E) * 2 ^ E) as Ee by (rewrite <- N.pow_add_r; f_equal; lia). rewrite Ee in *.
    rewrite N.mul_assoc in *. set (z := m * 2 ^ (e - E)) in *. pose proof (pow2_pos E).
    destruct (N.lt_total z R) as [|[->|]]; [left; nia|done|right; left; nia].
  - right. right. split; [lia|]. assert (2 * 2 ^ e <= 2 ^ E) by (rewrite <- N.pow_succ_r'; apply pow2_le; lia).
    change (2 ^ 53) with (2 * 2 ^ 52) in Hm. nia.
Qed.
Lemma rounded_nearest n d y : 0 < d -> repr y ->
  let dist := fun r => r * d - n * UNIT + (n * UNIT - r * d) in
  dist (rounded n d) <= dist y /\
  (dist (rounded n d) = dist y -> y = rounded n d \/ N.even (rne (n * UNIT) (d * 2 ^ expo n d)) = true).
Proof.
  intros Hd Hy dist. subst dist. cbv beta. destruct (decide (y = rounded n d)) as [->|Hne]; [split; [lia|by left]|].
  pose proof (rounded_err n d Hd) as [H1 H2]. pose proof (rne_tie (n * UNIT) (d * 2 ^ expo n d) (expo_pos n d Hd)) as Ht.
  pose proof (other_repr n d y Hd Hy Hne) as Ho. cbv zeta in Ho. pose proof (expo_lower n d Hd) as Hlow.
  assert (HR : rounded n d = rne (n * UNIT) (d * 2 ^ expo n d) * 2 ^ expo n d) by done.
  set (R := rne _ _) in *. set (r := rounded n d) in *. set (X := n * UNIT) in *. set (E := expo n d) in *.
  assert (Ht' : 2 * (r * d) = 2 * X + d * 2 ^ E \/ 2 * X = 2 * (r * d) + d * 2 ^ E -> N.even R = true).
  { intros H. apply Ht. rewrite HR in H. lia. }
  clear Ht. pose proof (pow2_pos E) as HE.
  destruct Ho as [Ho|[Ho|[HE0 Ho]]].
  - assert (y * d + 2 ^ E * d <= r * d) by nia. split; [lia|]. intros Heq. right. apply Ht'. lia.
  - assert (r * d + 2 ^ E * d <= y * d) by nia. split; [lia|]. intros Heq. right. apply Ht'. lia.
  - specialize (Hlow HE0). rewrite N.pow_add_r in Hlow.
    assert (y * d < 2 ^ 52 * 2 ^ E * d) by nia.
    destruct (N.le_gt_cases (r * d) X) as [Hle|Hgt].
    + assert (2 ^ 52 <= R). { apply rne_ge; [by apply expo_pos|]. fold X E. lia. }
      assert (2 ^ 52 * 2 ^ E * d <= r * d) by (rewrite HR; nia). split; lia.
    + assert (2 ^ 52 + 1 <= R).
      { assert (2 ^ 52 * 2 ^ E * d < R * 2 ^ E * d) by (rewrite <- HR; lia).
        assert (2 ^ 52 < R); [|lia]. apply (N.mul_lt_mono_pos_r (2 ^ E * d)); nia. }
      assert ((2 ^ 52 + 1) * (2 ^ E * d) <= r * d) by (rewrite HR; nia). split; lia.
Qed.

(** In terms of f64s. *)
Lemma f64_repr m e : is_f64 (FFin false m e) -> repr (m * 2 ^ e).
Proof. intros [Hm _]. by exists m, e. Qed.
Lemma round_nearest n d x y : 0 < d -> round false n d = x -> x <> FInf false -> is_f64 y ->
  is_f64 x /\
  forall dx dy, distance x n d = Some dx -> distance y n d = Some dy ->
    dx <= dy /\ (dx = dy -> forall m e m' e', x = FFin false m e -> y = FFin false m' e' -> m * 2 ^ e = m' * 2 ^ e' \/ N.even m = true).
Proof.
  intros Hd Hx Hfin Hy.
  assert (rounded n d < 2 ^ 2098) as Hr.
  { destruct (N.lt_ge_cases (rounded n d) (2 ^ 2098)) as [?|Hge]; [done|]. exfalso. apply Hfin. rewrite <- Hx.
    unfold round. fold (expo n d). pose proof (rounded_mantissa n d Hd) as Hle. unfold rounded in Hge.
    set (M := rne _ _) in *. set (E := expo n d) in *.
    destruct (N.eqb_spec M (2 ^ 53)) as [EM|EM].
    + rewrite EM, <- N.pow_add_r in Hge. apply N.pow_le_mono_r_iff in Hge; [|done].
      destruct (N.ltb_spec 2045 (E + 1)); [done|lia].
    + assert (2 ^ 2098 < 2 ^ (53 + E)) as HH. { rewrite N.pow_add_r. pose proof (pow2_pos E). nia. }
      apply N.pow_lt_mono_r_iff in HH; [|done]. destruct (N.ltb_spec 2045 E); [done|lia]. }
  destruct (round_fin false n d Hd Hr) as (m & e & Hme & Hu & Hm & He). rewrite Hme in Hx. subst x. split; [done|].
  intros dx dy Hdx Hdy. destruct y as [| |[] m' e']; try discriminate Hdy. cbn [distance] in Hdx, Hdy.
  injection Hdx as <-. injection Hdy as <-. pose proof (rounded_nearest n d _ Hd (f64_repr _ _ Hy)) as Hn. cbv zeta beta in Hn.
  destruct Hn as [Hn1 Hn2].
  rewrite Hu. split; [done|]. intros Heq m1 e1 m2 e2 [= <- <-] [= <- <-]. destruct (Hn2 Heq) as [E|Hev]; [left; lia|]. right.
  revert Hme. unfold round. cbv zeta. fold (expo n d). revert Hev. generalize (expo n d) as E. intros E.
  generalize (rne (n * UNIT) (d * 2 ^ E)) as M. intros M Hev. destruct (M =? 2 ^ 53); cbv beta iota.
  - destruct (2045 <? E + 1); [done|]. intros [= <- <-]. done.
  - destruct (2045 <? E); [done|]. intros [= <- <-]. done.
Qed.

(** *** The default price *)
Lemma default_price_is : default_price = FFin false 7378697629483821 1007.
Proof. vm_compute. reflexivity. Qed.
Lemma default_close : UNIT <= 20000 * (7378697629483821 * 2 ^ 1007) /\
  4 * (20000 * (7378697629483821 * 2 ^ 1007) - UNIT) <= 2 ^ 1022.
Proof. split; apply N.leb_le; vm_compute; reflexivity. Qed.

Lemma prod_default c : 0 < c -> c < 2 ^ 52 -> prod (20000 * c) (7378697629483821 * 2 ^ 1007) = c * UNIT.
Proof.
  intros Hc Hlt. destruct default_close as [D1 D2]. revert D1 D2. generalize (7378697629483821 * 2 ^ 1007) as P. intros P D1 D2.
  set (l := N.log2 c). pose proof (N.log2_spec c Hc) as [L1 L2]. fold l in L1, L2. rewrite N.pow_succ_r' in L2.
  assert (Hl : l < 52) by by apply N.log2_lt_pow2.
  set (G := 20000 * c * P). assert (HG : c * UNIT <= G) by (subst G; nia).
  assert (H1022 : UNIT = 2 ^ 52 * 2 ^ 1022) by (rewrite <- N.pow_add_r; done).
  set (q := 2 ^ 1022) in *. assert (Hq : 0 < q) by apply pow2_pos.
  assert (HG2 : 2 * (G - c * UNIT) < 2 ^ l * q).
  { assert (G - c * UNIT = c * (20000 * P - UNIT)) as -> by (subst G; nia). nia. }
  assert (HE : expo (20000 * c * UNIT * P) (UNIT * UNIT) = l + 1022).
  { unfold expo. replace (20000 * c * UNIT * P * UNIT) with (G * (UNIT * UNIT)) by (subst G; lia).
    rewrite N.div_mul by done. assert (N.log2 G = l + 1074) as ->; [|lia].
    apply N.log2_unique; [lia|]. rewrite N.pow_succ_r', N.pow_add_r. fold UNIT.
    split; [nia|]. rewrite H1022 in *. nia. }
  unfold prod, rounded. rewrite HE. replace (20000 * c * UNIT * P * UNIT) with (G * (UNIT * UNIT)) by (subst G; lia).
  assert (HP : 2 ^ (l + 1022) = 2 ^ l * q) by (subst q; apply N.pow_add_r). rewrite HP.
  assert (H52 : 2 ^ (52 - l) * 2 ^ l = 2 ^ 52) by (rewrite <- N.pow_add_r; f_equal; lia).
  rewrite (rne_half _ _ (c * 2 ^ (52 - l))).
  - rewrite H1022, <- H52. lia.
  - assert (0 < UNIT * UNIT) by done. assert (0 < 2 ^ l * q) by (pose proof (pow2_pos l); nia). nia.
  - replace (c * 2 ^ (52 - l) * (UNIT * UNIT * (2 ^ l * q))) with (c * UNIT * (UNIT * UNIT)).
    2: { replace (c * UNIT * (UNIT * UNIT)) with (c * (2 ^ 52 * q) * (UNIT * UNIT)) by (by rewrite <- H1022). rewrite <- H52. lia. }
    apply N.mul_le_mono_r. done.
  - replace (c * 2 ^ (52 - l) * (UNIT * UNIT * (2 ^ l * q))) with (c * UNIT * (UNIT * UNIT)).
    2: { replace (c * UNIT * (UNIT * UNIT)) with (c * (2 ^ 52 * q) * (UNIT * UNIT)) by (by rewrite <- H1022). rewrite <- H52. lia. }
    rewrite <- N.mul_sub_distr_r. rewrite N.mul_assoc. rewrite (N.mul_comm (UNIT * UNIT) (2 ^ l * q)).
    apply N.mul_lt_mono_pos_r; [done|]. done.
Qed.
Lemma fee_default limit : limit * 5 < 2 ^ 51 -> fee_amount default_price limit = div_up limit 20000.
Proof.
  intros Hl. assert (Hd : div_up (limit * 5) (10 ^ 5) = div_up limit 20000).
  { apply N.le_antisymm; pose proof (div_up_spec limit 20000 ltac:(done)); pose proof (div_up_spec (limit * 5) (10 ^ 5) ltac:(done));
      apply div_up_le; try done; change (10 ^ 5) with 100000 in *; lia. }
  destruct (decide (limit = 0)) as [->|H0]; [vm_compute; reflexivity|].
  destruct (fee_pays 5 5 limit ltac:(done) ltac:(done) Hl) as [H|[Hm _]].
  - rewrite <- Hd. exact H.
  - change (10 ^ 5) with 100000 in Hm. pose proof (N.div_mod (limit * 5) 100000 ltac:(done)) as H. rewrite Hm in H.
    revert H. generalize (limit * 5 / 100000) as c. intros c H. assert (limit = 20000 * c) as -> by lia.
    assert (Hdu : div_up (20000 * c) 20000 = c).
    { apply N.le_antisymm; [apply div_up_le; lia|]. pose proof (div_up_spec (20000 * c) 20000 ltac:(done)). lia. }
    rewrite Hdu. assert (c < 2 ^ 52) by (eapply N.lt_trans; [|exact (eq_refl : (2 ^ 51 ?= 2 ^ 52) = Lt)]; lia).
    rewrite default_price_is. rewrite fee_of.
    + rewrite prod_default by lia. apply N.le_antisymm; [by apply div_up_le|].
      pose proof (div_up_spec (c * UNIT) UNIT unit_pos) as [Hge _]. by apply N.mul_le_mono_pos_r in Hge.
    + eapply N.lt_trans; [|exact (eq_refl : (2 ^ 51 ?= 2 ^ 53) = Lt)]. lia.
    + rewrite prod_default by lia. eapply N.le_lt_trans; [by apply div_up_le|]. eapply N.lt_trans; [exact H1|done].
Qed.
