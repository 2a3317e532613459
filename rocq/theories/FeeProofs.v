(** Rounding. *)
From Verif Require Import Base BaseLemmas Text QueueModel BroadcasterModel BroadcasterSpec FeeModel FeeSpec.

Lemma unit_pos : 0 < UNIT.
Proof. done. Qed.
Lemma pow2_pos e : 0 < 2 ^ e.
Proof. apply N.neq_0_lt_0, N.pow_nonzero. done. Qed.
Lemma pow2_le a b : a <= b -> 2 ^ a <= 2 ^ b.
Proof. intros. by apply N.pow_le_mono_r. Qed.

Lemma rne_div a b : 0 < b -> a / b <= rne a b <= a / b + 1.
Proof. intros Hb. unfold rne. repeat case_match; lia. Qed.
Lemma rne_err a b : 0 < b -> 2 * (rne a b * b) <= 2 * a + b /\ 2 * a <= 2 * (rne a b * b) + b.
Proof.
  intros Hb. unfold rne. pose proof (N.div_mod a b ltac:(lia)) as Hd. pose proof (N.mod_lt a b ltac:(lia)) as Hm.
  remember (a / b) as q. remember (a mod b) as r. clear Heqq Heqr.
  destruct (N.ltb_spec (2 * r) b); [nia|]. destruct (N.ltb_spec b (2 * r)); [nia|]. destruct (N.even q); nia.
Qed.
Lemma rne_ge a b z : 0 < b -> z * b <= a -> z <= rne a b.
Proof. intros Hb H. pose proof (rne_div a b Hb). assert (z <= a / b); [|lia]. apply N.div_le_lower_bound; lia. Qed.
Lemma rne_le a b z : 0 < b -> a <= z * b -> rne a b <= z.
Proof.
  intros Hb H. pose proof (N.div_mod a b ltac:(lia)) as Hd. pose proof (N.mod_lt a b ltac:(lia)) as Hm.
  destruct (decide (a / b + 1 <= z)); [pose proof (rne_div a b Hb); lia|].
  assert (a / b = z /\ a mod b = 0) as [Hq Hr]; [nia|]. unfold rne. rewrite Hr.
  destruct (N.ltb_spec (2 * 0) b); lia.
Qed.
Lemma rne_half a b z : 0 < b -> z * b <= a -> 2 * (a - z * b) < b -> rne a b = z.
Proof.
  intros Hb H1 H2. assert (a / b = z) as E by (symmetry; apply (N.div_unique a b z (a - z * b)); lia).
  assert (a mod b = a - z * b) as Er by (pose proof (N.div_mod a b ltac:(lia)); rewrite E in *; lia).
  unfold rne. rewrite E, Er. destruct (N.ltb_spec (2 * (a - z * b)) b); lia.
Qed.

(** A number of units that an f64 can have, but for its size. *)
Definition repr (y : N) : Prop := exists m e, m < 2 ^ 53 /\ y = m * 2 ^ e.

Lemma repr_int n : n < 2 ^ 53 -> repr (n * UNIT).
Proof. intros. exists n, 1074. done. Qed.

(** The exponent and the number of units of the nearest f64. *)
Definition expo (n d : N) : N := N.log2 (n * UNIT / d) - 52.
Definition rounded (n d : N) : N := rne (n * UNIT) (d * 2 ^ expo n d) * 2 ^ expo n d.

Lemma expo_upper n d : 0 < d -> n * UNIT < d * 2 ^ (expo n d + 53).
Proof.
  intros Hd. unfold expo. set (q := n * UNIT / d).
  assert (n * UNIT < d * (q + 1)) as Hq.
  { pose proof (N.div_mod (n * UNIT) d ltac:(lia)). pose proof (N.mod_lt (n * UNIT) d ltac:(lia)). fold q in H. nia. }
  assert (q + 1 <= 2 ^ (N.log2 q - 52 + 53)); [|nia].
  destruct (decide (q = 0)) as [->|Hz]; [done|].
  pose proof (N.log2_spec q ltac:(lia)) as [_ Hl].
  assert (2 ^ N.succ (N.log2 q) <= 2 ^ (N.log2 q - 52 + 53)) by (apply pow2_le; lia). lia.
Qed.
Lemma expo_lower n d : 0 < d -> expo n d <> 0 -> d * 2 ^ (expo n d + 52) <= n * UNIT.
Proof.
  intros Hd. unfold expo. set (q := n * UNIT / d). intros He.
  destruct (decide (q = 0)) as [Hz|Hz]; [rewrite Hz in He; done|].
  pose proof (N.log2_spec q ltac:(lia)) as [Hl _]. replace (N.log2 q - 52 + 52) with (N.log2 q) by lia.
  pose proof (N.mul_div_le (n * UNIT) d ltac:(lia)) as Hq. fold q in Hq. nia.
Qed.
Lemma expo_pos n d : 0 < d -> 0 < d * 2 ^ expo n d.
Proof. intros. pose proof (pow2_pos (expo n d)). nia. Qed.

(** Rounding does not cross an f64. *)
Lemma rounded_ge n d y : 0 < d -> repr y -> y * d <= n * UNIT -> y <= rounded n d.
Proof.
  intros Hd (m & e & Hm & ->) H. unfold rounded. set (E := expo n d) in *.
  pose proof (pow2_pos E) as HE. pose proof (pow2_pos e) as He.
  destruct (decide (E <= e)) as [Hle|Hlt].
  - assert (2 ^ e = 2 ^ (e - E) * 2 ^ E) as Ee by (rewrite <- N.pow_add_r; f_equal; lia).
    assert (m * 2 ^ (e - E) <= rne (n * UNIT) (d * 2 ^ E)).
    { apply rne_ge; [by apply expo_pos|]. rewrite Ee in H. nia. }
    rewrite Ee. nia.
  - assert (E <> 0) as HE0 by lia. pose proof (expo_lower n d Hd HE0) as Hlow. fold E in Hlow.
    assert (2 ^ 52 <= rne (n * UNIT) (d * 2 ^ E)).
    { apply rne_ge; [by apply expo_pos|]. rewrite N.pow_add_r in Hlow. nia. }
    assert (2 * 2 ^ e <= 2 ^ E).
    { rewrite <- N.pow_succ_r'. apply pow2_le. lia. }
    change (2 ^ 53) with (2 * 2 ^ 52) in Hm. nia.
Qed.
Lemma rounded_le n d y : 0 < d -> repr y -> n * UNIT <= y * d -> rounded n d <= y.
Proof.
  intros Hd (m & e & Hm & ->) H. unfold rounded. set (E := expo n d) in *.
  pose proof (pow2_pos E) as HE. pose proof (pow2_pos e) as He.
  destruct (decide (E <= e)) as [Hle|Hlt].
  - assert (2 ^ e = 2 ^ (e - E) * 2 ^ E) as Ee by (rewrite <- N.pow_add_r; f_equal; lia).
    assert (rne (n * UNIT) (d * 2 ^ E) <= m * 2 ^ (e - E)).
    { apply rne_le; [by apply expo_pos|]. rewrite Ee in H. nia. }
    rewrite Ee. nia.
  - assert (E <> 0) as HE0 by lia. pose proof (expo_lower n d Hd HE0) as Hlow. fold E in Hlow.
    assert (2 * 2 ^ e <= 2 ^ E).
    { rewrite <- N.pow_succ_r'. apply pow2_le. lia. }
    rewrite N.pow_add_r in Hlow. change (2 ^ 53) with (2 * 2 ^ 52) in Hm.
    assert (m * 2 ^ e < 2 ^ E * 2 ^ 52); nia.
Qed.
Lemma rounded_exact n d y : 0 < d -> repr y -> n * UNIT = y * d -> rounded n d = y.
Proof. intros Hd Hy H. apply N.le_antisymm; [apply rounded_le|apply rounded_ge]; try done; lia. Qed.

(** The error is at most half a unit in the last place. *)
Lemma rounded_err n d : 0 < d ->
  2 * (rounded n d * d) <= 2 * (n * UNIT) + d * 2 ^ expo n d /\ 2 * (n * UNIT) <= 2 * (rounded n d * d) + d * 2 ^ expo n d.
Proof.
  intros Hd. unfold rounded. pose proof (rne_err (n * UNIT) (d * 2 ^ expo n d) (expo_pos n d Hd)) as [H1 H2].
  split; lia.
Qed.
(** ... which is 2^-53 of the value unless it is tiny. *)
Lemma rounded_rel n d : 0 < d -> d * 2 ^ 52 <= n * UNIT ->
  rounded n d * d * 2 ^ 53 <= n * UNIT * (2 ^ 53 + 1) /\ n * UNIT * (2 ^ 53 - 1) <= rounded n d * d * 2 ^ 53.
Proof.
  intros Hd Hn. pose proof (rounded_err n d Hd) as [H1 H2].
  assert (d * 2 ^ expo n d * 2 ^ 52 <= n * UNIT).
  { destruct (decide (expo n d = 0)) as [->|He]; [by rewrite N.pow_0_r, N.mul_1_r|].
    pose proof (expo_lower n d Hd He) as H. rewrite N.pow_add_r in H. lia. }
  change (2 ^ 53) with (2 * 2 ^ 52). set (P := 2 ^ 52) in *. set (R := rounded n d * d) in *. set (X := n * UNIT) in *.
  set (Y := d * 2 ^ expo n d) in *. assert (1 <= P) by done. split; [nia|].
  assert (2 * X * P <= 2 * R * P + X) by nia. nia.
Qed.

Lemma rounded_mantissa n d : 0 < d -> rne (n * UNIT) (d * 2 ^ expo n d) <= 2 ^ 53.
Proof.
  intros Hd. apply rne_le; [by apply expo_pos|]. pose proof (expo_upper n d Hd) as H. rewrite N.pow_add_r in H. lia.
Qed.
Lemma round_fin neg n d : 0 < d -> rounded n d < 2 ^ 2098 ->
  exists m e, round neg n d = FFin neg m e /\ m * 2 ^ e = rounded n d /\ m < 2 ^ 53 /\ e <= 2045.
Proof.
  intros Hd H. unfold round. fold (expo n d). pose proof (rounded_mantissa n d Hd) as Hm. unfold rounded in *.
  set (m := rne _ _) in *. set (E := expo n d) in *.
  destruct (N.eqb_spec m (2 ^ 53)) as [Em|Em].
  - rewrite Em in *. rewrite <- N.pow_add_r in H. apply N.pow_lt_mono_r_iff in H; [|done].
    destruct (N.ltb_spec 2045 (E + 1)); [lia|]. exists (2 ^ 52), (E + 1). split; [done|].
    rewrite <- !N.pow_add_r. split; [f_equal; lia|]. split; [done|lia].
  - assert (E <= 2045).
    { destruct (decide (E = 0)); [lia|]. pose proof (expo_lower n d Hd n0) as Hlow. fold E in Hlow.
      assert (2 ^ 52 <= m). { apply rne_ge; [by apply expo_pos|]. rewrite N.pow_add_r in Hlow. fold E. lia. }
      assert (2 ^ (52 + E) < 2 ^ 2098) as HH. { rewrite N.pow_add_r. pose proof (pow2_pos E). nia. }
      apply N.pow_lt_mono_r_iff in HH; [|done]. lia. }
    destruct (N.ltb_spec 2045 E); [lia|]. exists m, E. split; [done|]. split; [done|]. split; lia.
Qed.
Lemma round_small neg n d y : 0 < d -> n * UNIT <= y * d -> repr y -> y < 2 ^ 2098 ->
  exists m e, round neg n d = FFin neg m e /\ m * 2 ^ e = rounded n d /\ m < 2 ^ 53 /\ e <= 2045.
Proof. intros Hd H Hy Hlt. apply round_fin; [done|]. pose proof (rounded_le n d y Hd Hy H). lia. Qed.
