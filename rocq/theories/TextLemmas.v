From Verif Require Import Base BaseLemmas Text.

Lemma app_nil_str s : s +:+ EmptyString = s.
Proof. induction s as [|c s IH]; [done|]. cbn. by f_equal. Qed.
Lemma app_assoc_str a b c : (a +:+ b) +:+ c = a +:+ (b +:+ c).
Proof. induction a as [|d a IH]; [done|]. cbn. by f_equal. Qed.
Lemma app_length_str a b : String.length (a +:+ b) = (String.length a + String.length b)%nat.
Proof. induction a as [|d a IH]; [done|]. cbn. by rewrite IH. Qed.
Lemma app_inj_l_str a b c : a +:+ b = a +:+ c -> b = c.
Proof. induction a as [|d a IH]; [done|]. cbn. intros [= H]. auto. Qed.
Lemma app_inj_len_str a b c d :
  String.length a = String.length b -> a +:+ c = b +:+ d -> a = b /\ c = d.
Proof.
  revert b. induction a as [|x a IH]; intros [|y b] Hl; cbn in *; try done.
  intros [= -> H]. apply IH in H as [-> ->]; [done|lia].
Qed.
Lemma app_inj_len_r_str a b c d :
  String.length c = String.length d -> a +:+ c = b +:+ d -> a = b /\ c = d.
Proof.
  intros Hl H. apply app_inj_len_str; [|done].
  apply (f_equal String.length) in H. rewrite !app_length_str in H. lia.
Qed.

Lemma contains_app c a b : contains c (a +:+ b) = contains c a || contains c b.
Proof. induction a as [|d a IH]; [done|]. cbn. by rewrite IH, orb_assoc. Qed.

(** splitting at a separator that the left part does not contain *)
Lemma split_once_app c a b :
  contains c a = false -> split_once c (a +:+ String c b) = Some (a, b).
Proof.
  induction a as [|d a IH]; cbn.
  - by rewrite Ascii.eqb_refl.
  - intros [-> H]%orb_false_iff. by rewrite IH.
Qed.
Lemma split_once_some c s a b :
  split_once c s = Some (a, b) <-> s = a +:+ String c b /\ contains c a = false.
Proof.
  split.
  - revert a b. induction s as [|d s IH]; intros a b; cbn; [done|].
    destruct (Ascii.eqb c d) eqn:Hc.
    + apply Ascii.eqb_eq in Hc as ->. intros [= <- <-]. done.
    + destruct (split_once c s) as [[a' b']|]; [|done]. intros [= <- <-].
      destruct (IH a' b' eq_refl) as [-> Hn]. cbn. rewrite Hc, Hn. done.
  - intros [-> H]. by apply split_once_app.
Qed.
Lemma split_once_none c s : split_once c s = None <-> contains c s = false.
Proof.
  induction s as [|d s IH]; cbn; [done|].
  destruct (Ascii.eqb c d); cbn; [done|].
  destruct (split_once c s) as [[a b]|]; naive_solver.
Qed.
Lemma sep_app_inj c a b a' b' :
  contains c a = false -> contains c a' = false ->
  a +:+ String c b = a' +:+ String c b' -> a = a' /\ b = b'.
Proof.
  intros Ha Ha' H.
  pose proof (split_once_app c a b Ha) as H1. pose proof (split_once_app c a' b' Ha') as H2.
  rewrite H in H1. rewrite H1 in H2. by injection H2.
Qed.

Lemma split_nonempty c s : split c s <> [].
Proof. destruct s as [|d s]; cbn; [done|]. destruct (Ascii.eqb c d); [done|]. by destruct (split c s). Qed.

Lemma split_no_sep c s : contains c s = false -> split c s = [s].
Proof.
  induction s as [|d s IH]; [done|]. cbn. intros [-> H]%orb_false_iff. by rewrite IH.
Qed.
Lemma split_app c a s : contains c a = false -> split c (a +:+ String c s) = a :: split c s.
Proof.
  induction a as [|d a IH]; cbn.
  - by rewrite Ascii.eqb_refl.
  - intros [-> H]%orb_false_iff. by rewrite IH.
Qed.
(** inverse of [split] *)
Lemma join_split c s : join (String c EmptyString) (split c s) = s.
Proof.
  induction s as [|d s IH]; [done|]. cbn.
  destruct (Ascii.eqb c d) eqn:Hc.
  - apply Ascii.eqb_eq in Hc as ->.
    pose proof (split_nonempty d s) as Hne. destruct (split d s); [done|]. cbn. cbn in IH. by rewrite IH.
  - pose proof (split_nonempty c s) as Hne. destruct (split c s) as [|p ps]; [done|].
    destruct ps; cbn in *; by rewrite IH.
Qed.
Lemma split_pieces c s p : p ∈ split c s -> contains c p = false.
Proof.
  revert p. induction s as [|d s IH]; intros p; cbn.
  - intros ->%elem_of_list_singleton. done.
  - destruct (Ascii.eqb c d) eqn:Hc.
    + intros [->|Hin]%elem_of_cons; [done|auto].
    + pose proof (split_nonempty c s) as Hne. destruct (split c s) as [|q qs]; [done|].
      intros [->|Hin]%elem_of_cons.
      * cbn. rewrite Hc. apply IH. left.
      * apply IH. by right.
Qed.
Lemma split_two c s a b :
  split c s = [a; b] <-> s = a +:+ String c b /\ contains c a = false /\ contains c b = false.
Proof.
  split.
  - intros H. pose proof (join_split c s) as Hj. rewrite H in Hj. cbn in Hj.
    split; [done|]. split; apply (split_pieces c s); rewrite H; set_solver.
  - intros (-> & Ha & Hb). rewrite split_app by done. by rewrite split_no_sep.
Qed.

(** decimal *)
Lemma ascii_N_embedding c : ascii_of_N (N_of_ascii c) = c.
Proof. apply ascii_N_embedding. Qed.
Lemma N_of_digit d : d < 10 -> N_of_ascii (digit d) = 48 + d.
Proof. intros. unfold digit. apply N_ascii_embedding. lia. Qed.
Lemma undigit_digit d : d < 10 -> undigit (digit d) = Some d.
Proof.
  intros Hd. unfold undigit. rewrite N_of_digit by done.
  destruct ((48 <=? 48 + d) && (48 + d <=? 57)) eqn:?; [f_equal; lia|lia].
Qed.
Lemma undec_dec_go fuel : forall n acc a,
  n < 2 ^ N.of_nat fuel ->
  undec (dec_go fuel n acc) a = undec acc (a * 10 ^ N.of_nat (String.length (dec_go fuel n EmptyString)) + n).
Proof.
  assert (forall fuel n acc, String.length (dec_go fuel n acc) =
    (String.length (dec_go fuel n EmptyString) + String.length acc)%nat) as Hlen.
  { clear. induction fuel as [|f IH]; intros n acc; [done|]. cbn [dec_go].
    destruct (n <? 10); [done|]. rewrite IH. rewrite (IH _ (String _ EmptyString)). cbn. lia. }
  induction fuel as [|f IH]; intros n acc a Hn.
  - cbn. assert (n = 0) as -> by (cbn in Hn; lia). f_equal. lia.
  - cbn [dec_go]. destruct (n <? 10) eqn:Hlt.
    + cbn [undec String.length]. rewrite N.mod_small by lia. rewrite undigit_digit by lia.
      f_equal.
    + pose proof (N.div_mod n 10 ltac:(lia)) as Hdm. pose proof (N.mod_lt n 10 ltac:(lia)).
      rewrite IH.
      * cbn [undec]. rewrite undigit_digit by lia. f_equal.
        rewrite (Hlen f _ (String _ EmptyString)). cbn [String.length].
        rewrite Nat2N.inj_add. rewrite N.pow_add_r. cbn. lia.
      * rewrite Nat2N.inj_succ, N.pow_succ_r' in Hn. lia.
Qed.
Lemma dec_fuel n : n < 2 ^ N.of_nat (S (N.to_nat (N.size n))).
Proof.
  rewrite Nat2N.inj_succ, N2Nat.id.
  pose proof (N.size_gt n). rewrite N.pow_succ_r'. lia.
Qed.
Lemma undec_dec n : undec (dec n) 0 = Some n.
Proof. unfold dec. rewrite undec_dec_go by apply dec_fuel. cbn. f_equal. Qed.
Lemma dec_go_nonempty fuel n acc : (fuel <> 0)%nat \/ acc <> EmptyString -> dec_go fuel n acc <> EmptyString.
Proof.
  revert n acc. induction fuel as [|f IH]; intros n acc; cbn [dec_go]; [intros [?|?]; done|].
  intros _. destruct (n <? 10); [done|]. apply IH. by right.
Qed.
Lemma dec_nonempty n : dec n <> EmptyString.
Proof. apply dec_go_nonempty. by left. Qed.
Lemma dec_inj n m : dec n = dec m -> n = m.
Proof. intros H. pose proof (undec_dec n) as Hn. rewrite H, undec_dec in Hn. by injection Hn. Qed.

(** every character of a printed number is a digit *)
Fixpoint all_chars (P : ascii -> bool) (s : string) : bool :=
  match s with EmptyString => true | String c s' => P c && all_chars P s' end.
Definition is_digit (c : ascii) : bool := match undigit c with Some _ => true | None => false end.
Lemma all_chars_app P a b : all_chars P (a +:+ b) = all_chars P a && all_chars P b.
Proof. induction a as [|c a IH]; [done|]. cbn. by rewrite IH, andb_assoc. Qed.
Lemma dec_go_digits fuel : forall n acc, all_chars is_digit acc = true -> all_chars is_digit (dec_go fuel n acc) = true.
Proof.
  induction fuel as [|f IH]; intros n acc Hacc; [done|]. cbn [dec_go].
  assert (all_chars is_digit (String (digit (n mod 10)) acc) = true).
  { cbn. rewrite Hacc. unfold is_digit. rewrite undigit_digit; [done|]. pose proof (N.mod_lt n 10). lia. }
  destruct (n <? 10); auto.
Qed.
Lemma dec_digits n : all_chars is_digit (dec n) = true.
Proof. by apply dec_go_digits. Qed.
Lemma all_chars_contains P c s : P c = false -> all_chars P s = true -> contains c s = false.
Proof.
  intros Hc. induction s as [|d s IH]; [done|]. cbn.
  intros [Hd Hs]%andb_true_iff. rewrite IH by done. rewrite orb_false_r.
  apply Ascii.eqb_neq. intros ->. congruence.
Qed.
Lemma dec_contains c n : is_digit c = false -> contains c (dec n) = false.
Proof. intros H. eapply all_chars_contains; [done|apply dec_digits]. Qed.

Lemma parse_uint_dec bound n : n < bound -> parse_uint bound (dec n) = Some n.
Proof.
  intros Hn. unfold parse_uint.
  pose proof (dec_nonempty n) as Hne. pose proof (dec_digits n) as Hd. pose proof (undec_dec n) as Hu.
  destruct (dec n) as [|c s]; [done|].
  assert (Ascii.eqb c "+" = false) as ->.
  { apply Ascii.eqb_neq. intros ->. by cbn in Hd. }
  cbn [is_empty]. rewrite Hu. assert ((n <? bound) = true) as -> by lia. done.
Qed.
Lemma parse_uint_lt bound s n : parse_uint bound s = Some n -> n < bound.
Proof.
  unfold parse_uint. destruct (is_empty _); [done|]. destruct (undec _ 0); [|done].
  destruct (_ <? bound) eqn:?; [|done]. intros [= <-]. lia.
Qed.

(** hex *)
Lemma unhex_hex_digit n : n < 16 -> unhex_digit (hex_digit n) = Some n.
Proof.
  intros Hn. assert (exists k, (k < 16)%nat /\ n = N.of_nat k) as (k & Hk & ->).
  { exists (N.to_nat n). lia. }
  do 16 (destruct k as [|k]; [done|]). lia.
Qed.
Lemma N_of_ascii_lt c : N_of_ascii c < 256.
Proof. apply N_ascii_bounded. Qed.
Lemma of_to_hex s : of_hex (to_hex s) = Some s.
Proof.
  induction s as [|c s IH]; [done|]. cbn [to_hex of_hex].
  pose proof (N_of_ascii_lt c).
  pose proof (N.div_mod (N_of_ascii c) 16 ltac:(lia)).
  pose proof (N.mod_lt (N_of_ascii c) 16 ltac:(lia)).
  rewrite !unhex_hex_digit by lia. rewrite IH. do 2 f_equal.
  rewrite <- (ascii_N_embedding c) at 3. f_equal. lia.
Qed.
Lemma to_hex_inj a b : to_hex a = to_hex b -> a = b.
Proof. intros H. pose proof (of_to_hex a) as Ha. rewrite H, of_to_hex in Ha. by injection Ha. Qed.
Definition is_hex (c : ascii) : bool := match unhex_digit c with Some _ => true | None => false end.
Lemma to_hex_chars s : all_chars is_hex (to_hex s) = true.
Proof.
  induction s as [|c s IH]; [done|]. cbn [to_hex all_chars]. rewrite IH.
  pose proof (N_of_ascii_lt c).
  pose proof (N.div_mod (N_of_ascii c) 16 ltac:(lia)).
  pose proof (N.mod_lt (N_of_ascii c) 16 ltac:(lia)).
  unfold is_hex. rewrite !unhex_hex_digit by lia. done.
Qed.
Lemma to_hex_length s : String.length (to_hex s) = (2 * String.length s)%nat.
Proof. induction s as [|c s IH]; [done|]. cbn [to_hex String.length]. lia. Qed.

(** big-endian bytes *)
Lemma be_bytes_go_length len : forall n acc,
  String.length (be_bytes_go len n acc) = (len + String.length acc)%nat.
Proof. induction len as [|l IH]; intros n acc; cbn; [done|]. rewrite IH. cbn. lia. Qed.
Lemma be_bytes_length len n : String.length (be_bytes len n) = len.
Proof. unfold be_bytes. rewrite be_bytes_go_length. cbn. lia. Qed.
Lemma be_bytes_go_inj len : forall n m acc acc',
  n < 256 ^ N.of_nat len -> m < 256 ^ N.of_nat len -> String.length acc = String.length acc' ->
  be_bytes_go len n acc = be_bytes_go len m acc' -> n = m /\ acc = acc'.
Proof.
  induction len as [|l IH]; intros n m acc acc' Hn Hm Hl.
  - cbn in *. intros ->. split; [lia|done].
  - rewrite Nat2N.inj_succ, N.pow_succ_r' in Hn, Hm.
    pose proof (N.div_mod n 256 ltac:(lia)). pose proof (N.mod_lt n 256 ltac:(lia)).
    pose proof (N.div_mod m 256 ltac:(lia)). pose proof (N.mod_lt m 256 ltac:(lia)).
    cbn [be_bytes_go]. intros Heq. apply IH in Heq as [Hd Hacc].
    + injection Hacc as Hc ->. split; [|done].
      apply (f_equal N_of_ascii) in Hc. rewrite !N_ascii_embedding in Hc by lia. lia.
    + apply N.div_lt_upper_bound; lia.
    + apply N.div_lt_upper_bound; lia.
    + cbn. lia.
Qed.
Lemma be_bytes_inj len n m :
  n < 256 ^ N.of_nat len -> m < 256 ^ N.of_nat len -> be_bytes len n = be_bytes len m -> n = m.
Proof. intros Hn Hm H. by apply be_bytes_go_inj in H as [? _]. Qed.

(** lower case *)
Lemma lower_ascii_idem c : lower_ascii (lower_ascii c) = lower_ascii c.
Proof. destruct c as [[] [] [] [] [] [] [] []]; vm_compute; done. Qed.
Lemma lower_idem s : lower (lower s) = lower s.
Proof. induction s as [|c s IH]; [done|]. cbn. by rewrite IH, lower_ascii_idem. Qed.
Lemma lower_length s : String.length (lower s) = String.length s.
Proof. induction s as [|c s IH]; [done|]. cbn. by rewrite IH. Qed.
Lemma lower_ascii_colon c : Ascii.eqb ":" (lower_ascii c) = Ascii.eqb ":" c.
Proof. destruct c as [[] [] [] [] [] [] [] []]; vm_compute; done. Qed.
Lemma lower_contains_colon s : contains ":" (lower s) = contains ":" s.
Proof. induction s as [|c s IH]; [done|]. cbn [lower contains]. by rewrite IH, lower_ascii_colon. Qed.
