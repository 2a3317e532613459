(** Gas limits and fees. *)
From Verif Require Import Base BaseLemmas Text QueueModel BroadcasterModel BroadcasterSpec FeeModel FeeSpec FeeProofs.

Lemma of_N_exact n : n < 2 ^ 53 -> exists m e, of_N n = FFin false m e /\ m * 2 ^ e = n * UNIT.
Proof.
  intros Hn. unfold of_N. destruct (round_small false n 1 (n * UNIT)) as (m & e & H & Hm & _); [done|lia|by apply repr_int| |].
  { change (2 ^ 2098) with (2 ^ 1024 * UNIT). apply N.mul_lt_mono_pos_r; [done|]. eapply N.lt_le_trans; [exact Hn|]. by apply pow2_le. }
  exists m, e. split; [done|]. rewrite Hm. apply rounded_exact; [done|by apply repr_int|lia].
Qed.

(** Of a product by an integer. *)
Definition prod (g P : N) : N := rounded (g * UNIT * P) (UNIT * UNIT).
Lemma prod_ge g P y : repr y -> y <= g * P -> y <= prod g P.
Proof. intros Hy H. apply rounded_ge; [done|done|]. nia. Qed.
Lemma prod_le g P y : repr y -> g * P <= y -> prod g P <= y.
Proof. intros Hy H. apply rounded_le; [done|done|]. nia. Qed.
Lemma fmul_prod g p e : g < 2 ^ 53 ->
  (exists m' e', fmul (of_N g) (FFin false p e) = FFin false m' e' /\ m' * 2 ^ e' = prod g (p * 2 ^ e)) \/
  (fmul (of_N g) (FFin false p e) = FInf false /\ 2 ^ 2098 <= prod g (p * 2 ^ e)).
Proof.
  intros Hg. destruct (of_N_exact g Hg) as (m & e' & -> & Hm). cbn [fmul xorb].
  replace (m * p * 2 ^ (e' + e)) with (g * UNIT * (p * 2 ^ e)).
  2: { rewrite <- Hm, N.pow_add_r. lia. }
  fold (prod g (p * 2 ^ e)). destruct (N.lt_ge_cases (prod g (p * 2 ^ e)) (2 ^ 2098)) as [Hlt|Hge].
  - left. destruct (round_fin false (g * UNIT * (p * 2 ^ e)) (UNIT * UNIT)) as (m1 & e1 & H & H1 & _); [done|done|]. eauto.
  - right. split; [|done]. unfold round. fold (expo (g * UNIT * (p * 2 ^ e)) (UNIT * UNIT)).
    unfold prod, rounded in Hge. set (n := g * UNIT * (p * 2 ^ e)) in *. set (d := UNIT * UNIT) in *. 
    pose proof (rounded_mantissa n d) as Hle. specialize (Hle ltac:(done)).
    set (M := rne _ _) in *. set (E := expo n d) in *.
    destruct (N.eqb_spec M (2 ^ 53)) as [EM|EM].
    + rewrite EM, <- N.pow_add_r in Hge. apply N.pow_le_mono_r_iff in Hge; [|done].
      destruct (N.ltb_spec 2045 (E + 1)); [done|lia].
    + assert (2 ^ 2098 < 2 ^ (53 + E)) as HH. { rewrite N.pow_add_r. pose proof (pow2_pos E). nia. }
      apply N.pow_lt_mono_r_iff in HH; [|done]. destruct (N.ltb_spec 2045 E); [done|lia].
Qed.
Lemma fmul_prod_fin g p e : g < 2 ^ 53 -> prod g (p * 2 ^ e) < 2 ^ 2098 ->
  exists m' e', fmul (of_N g) (FFin false p e) = FFin false m' e' /\ m' * 2 ^ e' = prod g (p * 2 ^ e).
Proof. intros Hg H. destruct (fmul_prod g p e Hg) as [?|[_ ?]]; [done|lia]. Qed.

Lemma round_cases neg n d : (exists m e, round neg n d = FFin neg m e) \/ round neg n d = FInf neg.
Proof.
  unfold round. cbv zeta. generalize (N.log2 (n * UNIT / d) - 52) as e. intros e. generalize (rne (n * UNIT) (d * 2 ^ e)) as m. intros m. destruct (m =? 2 ^ 53); cbv beta iota zeta.
  - destruct (2045 <? e + 1); [by right|left; eauto].
  - destruct (2045 <? e); [by right|left; eauto].
Qed.
(** *** Gas limits *)
Lemma to_uint_fin bound m e : to_uint bound (FFin false m e) = N.min (m * 2 ^ e / UNIT) (bound - 1).
Proof. done. Qed.
Lemma limit_ge adj a b gas : 0 < b -> gas < 2 ^ 53 -> at_least adj a b -> gas * a / b < 2 ^ 53 -> gas * a / b <= gas_limit adj gas.
Proof.
  intros Hb Hg Hadj Hx. destruct adj as [| |[] p e]; try done. cbn [at_least] in Hadj. unfold gas_limit.
  set (x := gas * a / b) in *. assert (x < U64) by (eapply N.lt_trans; [exact Hx|done]).
  destruct (fmul_prod gas p e Hg) as [(m & e' & -> & Hm)|[-> _]]; cbn [to_uint]; [|lia].
  rewrite Hm. apply N.min_glb; [|lia]. apply N.div_le_lower_bound; [done|]. rewrite N.mul_comm.
  apply prod_ge; [by apply repr_int|].
  pose proof (N.mul_div_le (gas * a) b ltac:(lia)) as Hd. fold x in Hd.
  apply (N.mul_le_mono_pos_r _ _ b); [done|]. nia.
Qed.
Lemma limit_le adj a b gas : 0 < b -> gas < 2 ^ 53 -> at_most adj a b -> div_up (gas * a) b < 2 ^ 53 ->
  gas_limit adj gas <= div_up (gas * a) b.
Proof.
  intros Hb Hg Hadj Hx. unfold gas_limit. destruct adj as [| |[] p e]; try done.
  { destruct (of_N_exact gas Hg) as (m & e' & -> & Hm). cbn [fmul xorb].
    destruct (round_cases true (m * p * 2 ^ (e' + e)) (UNIT * UNIT)) as [(m1 & e1 & ->)| ->]; apply N.le_0_l. }
  cbn [at_most] in Hadj. set (x := div_up (gas * a) b) in *.
  assert (gas * (p * 2 ^ e) <= x * UNIT) as HP.
  { unfold x, div_up. pose proof (N.div_mod (gas * a + (b - 1)) b ltac:(lia)) as Hd.
    pose proof (N.mod_lt (gas * a + (b - 1)) b ltac:(lia)) as Hm. set (y := (gas * a + (b - 1)) / b) in *.
    assert (gas * a <= y * b) by nia. apply (N.mul_le_mono_pos_r _ _ b); [done|]. nia. }
  pose proof (prod_le gas _ _ (repr_int x Hx) HP) as Hle.
  assert (x * UNIT < 2 ^ 2098).
  { change (2 ^ 2098) with (2 ^ 1024 * UNIT). apply N.mul_lt_mono_pos_r; [done|]. eapply N.lt_le_trans; [exact Hx|]. by apply pow2_le. }
  destruct (fmul_prod_fin gas p e Hg ltac:(lia)) as (m & e' & -> & Hm). rewrite to_uint_fin, Hm.
  etrans; [apply N.le_min_l|]. apply N.div_le_upper_bound; [done|]. lia.
Qed.
Lemma limit_covers adj gas : at_least adj 1 1 -> gas < 2 ^ 53 -> gas <= gas_limit adj gas.
Proof.
  intros Hadj Hg. pose proof (limit_ge adj 1 1 gas ltac:(done) Hg Hadj) as H. rewrite N.mul_1_r, N.div_1_r in H. auto.
Qed.
Lemma default_one : default_adjustment = FFin false (2 ^ 52) 1022.
Proof. vm_compute. reflexivity. Qed.
Lemma default_is_one : at_least default_adjustment 1 1 /\ at_most default_adjustment 1 1.
Proof. rewrite default_one. cbn [at_least at_most]. rewrite <- N.pow_add_r. unfold UNIT. change (52 + 1022) with 1074. lia. Qed.
Lemma limit_default gas : gas < 2 ^ 53 -> gas_limit default_adjustment gas = gas.
Proof.
  intros Hg. apply N.le_antisymm.
  - pose proof (limit_le default_adjustment 1 1 gas) as H. unfold div_up in H. rewrite N.mul_1_r, N.add_0_r, N.div_1_r in H.
    apply H; [done|done|apply default_is_one|done].
  - apply limit_covers; [apply default_is_one|done].
Qed.
(** an adjustment that is not a number, or negative *)
Lemma limit_bad adj gas : match adj with FNan | FInf true | FFin true _ _ => True | _ => False end -> gas_limit adj gas = 0.
Proof.
  intros H. unfold gas_limit, of_N.
  assert (Hr : forall n d, to_uint U64 (round true n d) = 0).
  { intros n d. destruct (round_cases true n d) as [(m & e & ->)| ->]; done. }
  destruct (round_cases false gas 1) as [(m & e & ->)| ->]; destruct adj as [|[]|[] p e']; try done; cbn [fmul xorb].
  - by destruct (m =? 0).
  - apply Hr.
  - by destruct (p =? 0).
Qed.

(** *** Fees *)
Lemma div_up_le a b c : 0 < b -> a <= c * b -> div_up a b <= c.
Proof.
  intros Hb H. unfold div_up. assert ((a + (b - 1)) / b < c + 1); [|lia].
  apply N.div_lt_upper_bound; [lia|]. nia.
Qed.
Lemma div_up_gt a b c : 0 < b -> c * b < a -> c < div_up a b.
Proof. intros Hb H. unfold div_up. assert (c + 1 <= (a + (b - 1)) / b); [|lia]. apply N.div_le_lower_bound; [lia|]. nia. Qed.
Lemma div_up_spec a b : 0 < b -> a <= div_up a b * b /\ div_up a b * b < a + b.
Proof.
  intros Hb. unfold div_up. pose proof (N.div_mod (a + (b - 1)) b ltac:(lia)) as Hd.
  pose proof (N.mod_lt (a + (b - 1)) b ltac:(lia)) as Hm. set (y := (a + (b - 1)) / b) in *. nia.
Qed.
Lemma fee_of p e limit : limit < 2 ^ 53 -> div_up (prod limit (p * 2 ^ e)) UNIT < 2 ^ 53 ->
  fee_amount (FFin false p e) limit = div_up (prod limit (p * 2 ^ e)) UNIT.
Proof.
  intros Hl Hc. unfold fee_amount. set (F := prod limit (p * 2 ^ e)) in *.
  pose proof (div_up_spec F UNIT unit_pos) as [HF _].
  assert (F < 2 ^ 2098).
  { change (2 ^ 2098) with (2 ^ 1024 * UNIT). eapply N.le_lt_trans; [exact HF|].
    apply N.mul_lt_mono_pos_r; [done|]. eapply N.lt_le_trans; [exact Hc|]. by apply pow2_le. }
  destruct (fmul_prod_fin limit p e Hl H) as (m & e' & -> & Hm). cbn [fceil]. rewrite Hm. fold F.
  change ((F + (UNIT - 1)) / UNIT) with (div_up F UNIT). set (c := div_up F UNIT) in *.
  destruct (of_N_exact c Hc) as (m1 & e1 & Ho & H1). unfold of_N in Ho. rewrite Ho. rewrite to_uint_fin, H1.
  rewrite N.div_mul by done. apply N.min_l. assert (2 ^ 53 <= U128 - 1) by done. lia.
Qed.

Lemma pow10 k : k <= 300 -> 10 ^ k <= 2 ^ 1000.
Proof. intros H. transitivity (10 ^ 300); [by apply N.pow_le_mono_r|]. apply N.leb_le. by vm_compute. Qed.
Lemma decimal_units n k : k <= 300 -> 0 < n -> n < 2 ^ 51 ->
  exists p e, decimal false n (- Z.of_N k) = FFin false p e /\
    p * 2 ^ e * 10 ^ k * 2 ^ 53 <= n * UNIT * (2 ^ 53 + 1) /\ n * UNIT * (2 ^ 53 - 1) <= p * 2 ^ e * 10 ^ k * 2 ^ 53.
Proof.
  intros Hk Hn Hn'. unfold decimal. replace (Z.to_N (- Z.of_N k)) with 0 by lia. replace (Z.to_N (- - Z.of_N k)) with k by lia.
  rewrite N.pow_0_r, N.mul_1_r. assert (Hd : 0 < 10 ^ k) by (apply N.neq_0_lt_0, N.pow_nonzero; done).
  destruct (round_small false n (10 ^ k) (n * UNIT) Hd) as (m & e & H & Hm & _).
  { nia. } { apply repr_int. eapply N.lt_trans; [exact Hn'|done]. }
  { change (2 ^ 2098) with (2 ^ 1024 * UNIT). apply N.mul_lt_mono_pos_r; [done|]. eapply N.lt_trans; [exact Hn'|done]. }
  exists m, e. split; [done|]. rewrite Hm. apply rounded_rel; [done|].
  pose proof (pow10 k Hk) as H10. assert (2 ^ 1000 * 2 ^ 52 <= UNIT) by done. 
  transitivity (2 ^ 1000 * 2 ^ 52); [by apply N.mul_le_mono_r|]. nia.
Qed.

Lemma fee_pays n k limit : k <= 300 -> 0 < n -> limit * n < 2 ^ 51 ->
  let f := fee_amount (decimal false n (- Z.of_N k)) limit in
  f = div_up (limit * n) (10 ^ k) \/
  (limit * n mod 10 ^ k = 0 /\ f = limit * n / 10 ^ k + 1).
Proof.
  intros Hk Hn Hlt f. subst f.
  destruct (decide (limit = 0)) as [->|Hl0].
  { left. rewrite N.mul_0_l. unfold div_up. rewrite N.div_small.
    2: { assert (10 ^ k <> 0) by by apply N.pow_nonzero. lia. }
    unfold fee_amount, decimal. assert (of_N 0 = FFin false 0 0) as -> by (by vm_compute).
    destruct (round_cases false (n * 10 ^ Z.to_N (- Z.of_N k)) (10 ^ Z.to_N (- - Z.of_N k))) as [(m & e & ->)| ->]; [|by vm_compute].
    cbn [fmul xorb]. rewrite !N.mul_0_l. by vm_compute. }
  assert (Hn' : n < 2 ^ 51) by nia. assert (Hl : limit < 2 ^ 53).
  { eapply N.lt_trans; [|exact (eq_refl : (2 ^ 51 ?= 2 ^ 53) = Lt)]. nia. }
  destruct (decimal_units n k Hk Hn Hn') as (p & e & -> & Hup & Hlow).
  set (D := 10 ^ k) in *. assert (HD : 0 < D) by (apply N.neq_0_lt_0, N.pow_nonzero; done).
  set (P := p * 2 ^ e) in *. set (x := limit * n) in *. set (c := div_up x D).
  pose proof (div_up_spec x D HD) as [Hc1 Hc2]. fold c in Hc1, Hc2.
  assert (Hc : c <= 2 ^ 51) by nia.
  (* the exact product of the limit and the rounded price *)
  assert (HU : limit * P * D * 2 ^ 53 <= UNIT * (x * 2 ^ 53 + 2 ^ 51)).
  { transitivity (limit * (n * UNIT * (2 ^ 53 + 1))); [nia|]. 
    transitivity (UNIT * (x * 2 ^ 53 + x)); [subst x; lia|]. apply N.mul_le_mono_l. lia. }
  assert (HL : UNIT * (x * 2 ^ 53) <= limit * P * D * 2 ^ 53 + UNIT * 2 ^ 51).
  { transitivity (limit * (n * UNIT * (2 ^ 53 - 1)) + UNIT * x).
    { change (2 ^ 53 - 1) with 9007199254740991. change (2 ^ 53) with 9007199254740992. subst x. lia. }
    apply N.add_le_mono; [nia|]. apply N.mul_le_mono_l. lia. }
  (* not less than the price *)
  assert (Hlo : c <= div_up (prod limit P) UNIT).
  { destruct (decide (c = 0)) as [->|Hc0]; [lia|].
    assert (Hx : (c - 1) * D + 1 <= x) by nia.
    set (t := N.log2 D + 2).
    assert (Ht : 2 * D <= 2 ^ t /\ 2 ^ t <= 4 * D).
    { pose proof (N.log2_spec D HD) as [T1 T2]. subst t. rewrite N.pow_add_r. rewrite N.pow_succ_r' in T2. change (2 ^ 2) with 4. lia. }
    assert (Ht' : t <= 1074).
    { pose proof (pow10 k Hk) as H10. fold D in H10. assert (N.log2 D <= 1000); [|lia].
      rewrite <- (N.log2_pow2 1000) by done. by apply N.log2_le_mono. }
    set (y := ((c - 1) * 2 ^ t + 1) * 2 ^ (1074 - t)).
    assert (Hy2 : 2 ^ (1074 - t) * 2 ^ t = UNIT). { rewrite <- N.pow_add_r. unfold UNIT. f_equal. lia. }
    assert (Hrep : repr y).
    { exists ((c - 1) * 2 ^ t + 1), (1074 - t). split; [|done].
      assert ((c - 1) * 2 ^ t <= 4 * ((c - 1) * D)) by nia. change (2 ^ 53) with (4 * 2 ^ 51). lia. }
    assert (Hy : y <= limit * P).
    { assert (y * 2 ^ t <= limit * P * 2 ^ t).
      { replace (y * 2 ^ t) with (((c - 1) * 2 ^ t + 1) * UNIT) by (subst y; rewrite <- Hy2; lia).
        assert (0 < D * 2 ^ 53) by lia. apply (N.mul_le_mono_pos_r _ _ (D * 2 ^ 53)); [done|].
        assert (HL2 : UNIT * (((c - 1) * D + 1) * 2 ^ 53) <= limit * P * D * 2 ^ 53 + UNIT * 2 ^ 51).
        { etrans; [|exact HL]. apply N.mul_le_mono_l, N.mul_le_mono_r. done. }
        assert (HL3 : 2 ^ t * (UNIT * (((c - 1) * D + 1) * 2 ^ 53)) <= 2 ^ t * (limit * P * D * 2 ^ 53 + UNIT * 2 ^ 51)) by by apply N.mul_le_mono_l.
        assert (HL4 : UNIT * (D * 2 ^ 53) + 2 ^ t * (UNIT * 2 ^ 51) <= 2 ^ t * (UNIT * 2 ^ 53)).
        { replace (UNIT * (D * 2 ^ 53) + 2 ^ t * (UNIT * 2 ^ 51)) with (UNIT * (D * 2 ^ 53 + 2 ^ t * 2 ^ 51)) by lia.
          replace (2 ^ t * (UNIT * 2 ^ 53)) with (UNIT * (2 ^ t * 2 ^ 53)) by lia. apply N.mul_le_mono_l.
          change (2 ^ 53) with (4 * 2 ^ 51). lia. }
        lia. }
      apply (N.mul_le_mono_pos_r _ _ (2 ^ t)); [apply pow2_pos|done]. }
    pose proof (prod_ge limit P y Hrep Hy) as Hge.
    assert (c - 1 < div_up (prod limit P) UNIT); [|lia]. apply div_up_gt; [done|].
    eapply N.lt_le_trans; [|exact Hge]. subst y. rewrite <- Hy2. pose proof (pow2_pos (1074 - t)). lia. }
  (* not more than one above *)
  assert (Hhi : div_up (prod limit P) UNIT <= c + 1).
  { apply div_up_le; [done|]. apply prod_le; [apply repr_int; change (2 ^ 53) with (4 * 2 ^ 51); lia|].
    apply (N.mul_le_mono_pos_r _ _ (D * 2 ^ 53)); [lia|].
    transitivity (UNIT * (x * 2 ^ 53 + 2 ^ 51)); [lia|].
    transitivity (UNIT * ((c + 1) * (D * 2 ^ 53))); [|lia]. apply N.mul_le_mono_l. change (2 ^ 53) with (4 * 2 ^ 51). nia. }
  assert (Hf : fee_amount (FFin false p e) limit = div_up (prod limit P) UNIT).
  { apply fee_of; [done|]. fold P. change (2 ^ 53) with (4 * 2 ^ 51). lia. }
  rewrite Hf. destruct (decide (x mod D = 0)) as [Hm|Hm].
  - assert (c = x / D) as Ec.
    { pose proof (N.div_mod x D ltac:(lia)) as Hd. rewrite Hm in Hd. nia. }
    destruct (decide (div_up (prod limit P) UNIT = c)); [by left|]. right. split; [done|]. lia.
  - left. apply N.le_antisymm; [|done]. apply div_up_le; [done|].
    apply prod_le; [apply repr_int; change (2 ^ 53) with (4 * 2 ^ 51); lia|].
    assert (Hx : x + 1 <= c * D).
    { destruct (decide (x = c * D)) as [E|]; [|lia]. exfalso. apply Hm. rewrite E. apply N.mod_mul. lia. }
    apply (N.mul_le_mono_pos_r _ _ (D * 2 ^ 53)); [lia|].
    transitivity (UNIT * (x * 2 ^ 53 + 2 ^ 51)); [lia|].
    transitivity (UNIT * (c * (D * 2 ^ 53))); [|lia]. apply N.mul_le_mono_l. change (2 ^ 53) with (4 * 2 ^ 51). nia.
Qed.
