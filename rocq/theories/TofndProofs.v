(** Reading signatures in DER. *)
From Verif Require Import Base BaseLemmas Text TextLemmas StdModel EncodingModel EncodingSpec EncodingProofs EncodingProofs2
  DaemonModel TofndModel TofndSpec.

Lemma order : CURVE_ORDER = secp256k1_n.
Proof. vm_compute. reflexivity. Qed.

(** ** Numbers and their bytes *)
Lemma be_val_acc s : forall acc, be_val acc s = acc * 256 ^ N.of_nat (String.length s) + be_val 0 s.
Proof.
  induction s as [|c s IH]; intros acc; [cbn; lia|]. cbn [be_val String.length].
  rewrite IH, (IH (256 * 0 + _)), Nat2N.inj_succ, N.pow_succ_r'. lia.
Qed.
Lemma be_val_cons c s : be_val 0 (String c s) = N_of_ascii c * 256 ^ N.of_nat (String.length s) + be_val 0 s.
Proof. cbn [be_val]. rewrite be_val_acc. lia. Qed.
Lemma be_val_bound s : be_val 0 s < 256 ^ N.of_nat (String.length s).
Proof.
  induction s as [|c s IH]; [cbn; lia|]. rewrite be_val_cons. cbn [String.length]. rewrite Nat2N.inj_succ, N.pow_succ_r'.
  pose proof (N_ascii_bounded c). nia.
Qed.
Lemma be_val_inj s : forall s', String.length s = String.length s' -> be_val 0 s = be_val 0 s' -> s = s'.
Proof.
  induction s as [|c s IH]; intros [|c' s']; try done. intros [= Hl] H. rewrite !be_val_cons, Hl in H.
  pose proof (be_val_bound s) as H1. pose proof (be_val_bound s') as H2. rewrite Hl in H1.
  assert (Hc : N_of_ascii c = N_of_ascii c') by nia.
  assert (He : be_val 0 s = be_val 0 s') by nia.
  rewrite <- (ascii_N_embedding c), <- (ascii_N_embedding c'), Hc. f_equal. by apply IH.
Qed.
Lemma be_val_of_be s : forall acc, be_val acc s = of_be_go acc s.
Proof. induction s as [|c s IH]; intros acc; [done|]. cbn. apply IH. Qed.
Lemma be_val_bytes len n : n < 256 ^ N.of_nat len -> be_val 0 (be_bytes len n) = n.
Proof. intros H. rewrite be_val_of_be. unfold be_bytes. rewrite of_be_go_bytes by exact H. done. Qed.
Lemma bytes_be_val s : be_bytes (String.length s) (be_val 0 s) = s.
Proof.
  apply be_val_inj; [apply be_bytes_length|]. apply be_val_bytes, be_val_bound.
Qed.

(** ** The shortest form *)
Lemma pow256 k : 256 ^ k = 2 ^ (8 * k).
Proof. change 256 with (2 ^ 8). by rewrite <- N.pow_mul_r. Qed.
Lemma size_lt v m : N.size v <= m <-> v < 2 ^ m.
Proof.
  destruct (N.eq_dec v 0) as [->|Hv].
  { cbn. split; [|lia]. intros _. pose proof (N.pow_nonzero 2 m). lia. }
  rewrite N.size_log2 by done. rewrite N.log2_lt_pow2 by lia. lia.
Qed.
Lemma size_div v k : N.size v / 8 = k <-> v < 2 ^ (8 * k + 7) /\ (k = 0 \/ 2 ^ (8 * k - 1) <= v).
Proof.
  rewrite <- size_lt. destruct (N.eq_dec k 0) as [->|Hk].
  - split; [|intros [H _]; apply N.div_small; lia]. intros H. apply N.div_small_iff in H; [|done]. split; [lia|auto].
  - pose proof (size_lt v (8 * k - 1)) as H1. pose proof (N.div_mod (N.size v) 8) as H2. pose proof (N.mod_lt (N.size v) 8) as H3.
    split.
    + intros <-. split; [lia|]. right. apply N.nlt_ge. intros H. apply H1 in H. lia.
    + intros [Ha [Hb|Hb]]; [done|]. assert (~ N.size v <= 8 * k - 1) by (rewrite H1; lia). lia.
Qed.
Lemma shortest_size b : shortest b = true <->
  exists k, String.length b = S k /\ N.size (be_val 0 b) / 8 = N.of_nat k.
Proof.
  destruct b as [|c [|d s]]; cbn [shortest].
  - split; [done|]. by intros (k & ? & _).
  - rewrite N.ltb_lt. rewrite be_val_cons. cbn [String.length be_val]. change (256 ^ N.of_nat 0) with 1. rewrite N.mul_1_r, N.add_0_r.
    split.
    + intros H. exists 0%nat. split; [done|]. apply size_div. change (2 ^ (8 * N.of_nat 0 + 7)) with 128. auto.
    + intros (k & [= <-] & H). apply size_div in H as [H _]. exact H.
  - rewrite !be_val_cons. cbn [String.length]. set (j := String.length s). pose proof (be_val_bound s) as Hw. fold j in Hw.
    pose proof (N_ascii_bounded c) as Hc. pose proof (N_ascii_bounded d) as Hd.
    rewrite Nat2N.inj_succ, N.pow_succ_r'. set (P := 256 ^ N.of_nat j) in *. set (w := be_val 0 s) in *.
    set (x := N_of_ascii c) in *. set (y := N_of_ascii d) in *.
    assert (HP : 0 < P) by lia.
    assert (E1 : 2 ^ (8 * N.of_nat (S j) + 7) = 128 * (256 * P)).
    { unfold P. rewrite pow256, N.pow_add_r. change (2 ^ 7) with 128. rewrite Nat2N.inj_succ.
      replace (8 * N.succ (N.of_nat j)) with (8 * N.of_nat j + 8) by lia. rewrite N.pow_add_r. change (2 ^ 8) with 256. lia. }
    assert (E2 : 2 ^ (8 * N.of_nat (S j) - 1) = 128 * P).
    { unfold P. rewrite pow256, Nat2N.inj_succ. replace (8 * N.succ (N.of_nat j) - 1) with (8 * N.of_nat j + 7) by lia.
      rewrite N.pow_add_r. change (2 ^ 7) with 128. lia. }
    assert (Hs : N.size (x * (256 * P) + (y * P + w)) / 8 = N.of_nat (S j) <->
      x * (256 * P) + (y * P + w) < 128 * (256 * P) /\ 128 * P <= x * (256 * P) + (y * P + w)).
    { rewrite size_div, E1, E2. split; [intros [? [?|?]]; [lia|auto]|intros [? ?]; auto]. }
    split.
    + intros H. exists (S j). split; [done|]. apply Hs. destruct (N.eqb_spec x 0) as [E|E].
      * apply N.leb_le in H. rewrite E. nia.
      * apply N.ltb_lt in H. nia.
    + intros (k & [= <-] & H). apply Hs in H as [Ha Hb]. destruct (N.eqb_spec x 0) as [E|E].
      * apply N.leb_le. rewrite E in Hb. nia.
      * apply N.ltb_lt. nia.
Qed.
Lemma shortest_iff b : shortest b = true <-> b = int_bytes (be_val 0 b).
Proof.
  rewrite shortest_size. unfold int_bytes. split.
  - intros (k & Hl & Hs). rewrite Hs. replace (N.to_nat (N.of_nat k + 1)) with (String.length b) by lia. by rewrite bytes_be_val.
  - intros H. pose proof (f_equal String.length H) as Hl. rewrite be_bytes_length in Hl.
    exists (N.to_nat (N.size (be_val 0 b) / 8)). lia.
Qed.
Lemma int_bytes_length n : String.length (int_bytes n) = S (N.to_nat (N.size n / 8)).
Proof. unfold int_bytes. rewrite be_bytes_length. lia. Qed.
Lemma int_bytes_val n : be_val 0 (int_bytes n) = n.
Proof.
  apply be_val_bytes. destruct (proj1 (size_div n _) eq_refl) as [H _]. rewrite pow256. eapply N.lt_le_trans; [exact H|].
  apply N.pow_le_mono_r; lia.
Qed.
Lemma int_bytes_shortest n : shortest (int_bytes n) = true.
Proof. apply shortest_iff. by rewrite int_bytes_val. Qed.
