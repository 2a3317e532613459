(** Bytes of keys, ranges, and the equivalence of the byte store with a map
    of places. *)
From Verif Require Import Base BaseLemmas Text TextLemmas StdModel StdProofs MapLemmas EncodingModel EncodingProofs.
From Verif Require Import StorageModel StorageSpec.

(** ** Order of byte strings *)
Lemma scompare_cons c d a b :
  String.compare (String c a) (String d b) =
  match (N_of_ascii c ?= N_of_ascii d) with Eq => String.compare a b | r => r end.
Proof. reflexivity. Qed.
Lemma scompare_app p a b : String.compare (p +:+ a) (p +:+ b) = String.compare a b.
Proof. induction p as [|c p IH]; simpl; [done|]. unfold Ascii.compare. by rewrite N.compare_refl. Qed.
Lemma leb_app p a b : String.leb (p +:+ a) (p +:+ b) = String.leb a b.
Proof. unfold String.leb. by rewrite scompare_app. Qed.
Lemma ltb_app p a b : String.ltb (p +:+ a) (p +:+ b) = String.ltb a b.
Proof. unfold String.ltb. by rewrite scompare_app. Qed.
Lemma leb_cons c a d b :
  String.leb (String c a) (String d b) = true <->
  N_of_ascii c < N_of_ascii d \/ (c = d /\ String.leb a b = true).
Proof.
  unfold String.leb. rewrite scompare_cons. destruct (N.compare_spec (N_of_ascii c) (N_of_ascii d)) as [E|E|E].
  - assert (c = d) as -> by (rewrite <- (ascii_N_embedding c), E; apply ascii_N_embedding).
    split; [by right|intros [?|[_ H]]; [lia|done]].
  - split; [by left|done].
  - split; [done|]. intros [?|[-> _]]; lia.
Qed.
Lemma ltb_cons c a d b :
  String.ltb (String c a) (String d b) = true <->
  N_of_ascii c < N_of_ascii d \/ (c = d /\ String.ltb a b = true).
Proof.
  unfold String.ltb. rewrite scompare_cons. destruct (N.compare_spec (N_of_ascii c) (N_of_ascii d)) as [E|E|E].
  - assert (c = d) as -> by (rewrite <- (ascii_N_embedding c), E; apply ascii_N_embedding).
    split; [by right|intros [?|[_ H]]; [lia|done]].
  - split; [by left|done].
  - split; [done|]. intros [?|[-> _]]; lia.
Qed.
Lemma leb_nil a : String.leb EmptyString a = true.
Proof. by destruct a. Qed.
Lemma ltb_nil_r a : String.ltb a EmptyString = false.
Proof. by destruct a. Qed.

(** ** The upper bound of a range *)
Fixpoint all_ff (s : string) : Prop :=
  match s with EmptyString => True | String c s' => N_of_ascii c = 255 /\ all_ff s' end.
Fixpoint zeros (n : nat) : string :=
  match n with O => EmptyString | S n' => String (ascii_of_N 0) (zeros n') end.
(** the keys below the upper bound that do not have the prefix *)
Fixpoint over (p x : string) : Prop :=
  match p, x with
  | String c p', String d x' =>
      (d = c /\ over p' x') \/
      (all_ff p' /\ N_of_ascii d = N_of_ascii c + 1 /\ exists j, x' = zeros j /\ (j < String.length p')%nat)
  | _, _ => False
  end.

Lemma N_of_ascii_of n : n < 256 -> N_of_ascii (ascii_of_N n) = n.
Proof. apply N_ascii_embedding. Qed.
Lemma bump_spec p :
  (all_ff p /\ bump p = (true, zeros (String.length p))) \/ (~ all_ff p /\ (bump p).1 = false).
Proof.
  induction p as [|c p IH]; simpl; [by left|].
  destruct IH as [[H E]|[H E]].
  - rewrite E. simpl. destruct (N.eqb_spec (N_of_ascii c) 255) as [Hc|Hc].
    + left. done.
    + right. split; [|done]. by intros [? _].
  - right. split; [by intros [_ ?]|]. destruct (bump p) as [b r]. simpl in E. subst b. done.
Qed.
Lemma leb_ff p x : all_ff p -> String.leb p x = true -> exists y, x = p +:+ y.
Proof.
  revert x. induction p as [|c p IH]; intros x Hf Hl; [by exists x|].
  destruct x as [|d x]; [done|]. destruct Hf as [Hc Hf].
  apply leb_cons in Hl as [Hl|[-> Hl]].
  - pose proof (N_of_ascii_lt d). lia.
  - destruct (IH x Hf Hl) as [y ->]. by exists y.
Qed.
Lemma ltb_zeros x n : String.ltb x (zeros n) = true -> exists j, x = zeros j /\ (j < n)%nat.
Proof.
  revert x. induction n as [|n IH]; intros x H; simpl in H; [by rewrite ltb_nil_r in H|].
  destruct x as [|d x]; [exists 0%nat; split; [done|lia]|].
  apply ltb_cons in H as [H|[-> H]].
  - change (N_of_ascii d < 0) in H. lia.
  - destruct (IH x H) as (j & -> & Hj). exists (S j). split; [done|lia].
Qed.
Lemma range_spec p x :
  ~ all_ff p -> String.leb p x = true -> String.ltb x (upper_bound p) = true -> (exists y, x = p +:+ y) \/ over p x.
Proof.
  unfold upper_bound. revert x. induction p as [|c p IH]; intros x Hn Hl Hu; [by exfalso; apply Hn|].
  destruct x as [|d x]; [done|]. simpl in Hu.
  destruct (bump_spec p) as [[Hf E]|[Hf E]].
  - rewrite E in Hu. simpl in Hu. destruct (N.eqb_spec (N_of_ascii c) 255) as [Hc|Hc]; [by exfalso; apply Hn|].
    simpl in Hu. pose proof (N_of_ascii_lt c).
    apply leb_cons in Hl as [Hl|[-> Hl]].
    + apply ltb_cons in Hu as [Hu|[-> Hu]].
      * rewrite N_of_ascii_of in Hu by lia. lia.
      * right. simpl. right. split; [done|]. split; [by rewrite N_of_ascii_of by lia|]. by apply ltb_zeros.
    + destruct (leb_ff p x Hf Hl) as [y ->]. left. by exists y.
  - destruct (bump p) as [b r] eqn:Eb. simpl in E. subst b. simpl in Hu.
    apply leb_cons in Hl as [Hl|[-> Hl]]; apply ltb_cons in Hu as [Hu|[He Hu]]; try lia.
    + subst d. lia.
    + destruct (IH x Hf Hl) as [[y ->]|Ho].
      { by simpl. }
      * left. by exists y.
      * right. simpl. by left.
Qed.
Lemma range_prefix p y : ~ all_ff p -> String.leb p (p +:+ y) = true /\ String.ltb (p +:+ y) (upper_bound p) = true.
Proof.
  intros Hn. split.
  - rewrite <- (app_nil_str p) at 1. rewrite leb_app. apply leb_nil.
  - unfold upper_bound. induction p as [|c p IH]; [by exfalso; apply Hn|]. simpl.
    destruct (bump_spec p) as [[Hf E]|[Hf E]].
    + rewrite E. simpl. destruct (N.eqb_spec (N_of_ascii c) 255) as [Hc|Hc]; [by exfalso; apply Hn|].
      simpl. apply ltb_cons. left. pose proof (N_of_ascii_lt c). rewrite N_of_ascii_of by lia. lia.
    + destruct (bump p) as [b r] eqn:Eb. simpl in E. subst b. simpl. apply ltb_cons. right. split; [done|].
      by apply IH.
Qed.

(** ** Length prefixes *)
Lemma be_bytes_2 n : be_bytes 2 n = String (ascii_of_N (n / 256 mod 256)) (String (ascii_of_N (n mod 256)) EmptyString).
Proof. reflexivity. Qed.
Lemma with_length_some s x : with_length s = Some x <-> slen s <= 65535 /\ x = be_bytes 2 (slen s) +:+ s.
Proof.
  unfold with_length, MAX_PART. destruct (N.leb_spec (slen s) 65535); split.
  - by intros [= <-].
  - by intros [_ ->].
  - done.
  - intros [? _]. lia.
Qed.
Lemma with_length_app_inj s t x y a b :
  with_length s = Some x -> with_length t = Some y -> x +:+ a = y +:+ b -> s = t /\ a = b.
Proof.
  intros [Hs ->]%with_length_some [Ht ->]%with_length_some He.
  rewrite !app_assoc_str in He. apply app_inj_len_str in He as [Hl He]; [|by rewrite !be_bytes_length].
  apply be_bytes_inj in Hl; [|change (256 ^ N.of_nat 2) with 65536; lia|change (256 ^ N.of_nat 2) with 65536; lia].
  apply app_inj_len_str in He; [done|]. unfold slen in Hl. lia.
Qed.
Lemma with_lengths_cons s l x :
  with_lengths (s :: l) = Some x <-> exists a b, with_length s = Some a /\ with_lengths l = Some b /\ x = a +:+ b.
Proof.
  simpl. destruct (with_length s) as [a|], (with_lengths l) as [b|]; split; try done; try naive_solver.
Qed.
Lemma with_lengths_is_some l : is_Some (with_lengths l) <-> Forall (fun p => slen p <= 65535) l.
Proof.
  induction l as [|s l IH]; [split; [done|by eexists]|].
  rewrite Forall_cons, <- IH. split.
  - intros [x Hx]. apply with_lengths_cons in Hx as (a & b & Ha & Hb & _). apply with_length_some in Ha as [? _].
    split; [done|by eexists].
  - intros [Hs [b Hb]]. eexists. apply with_lengths_cons. exists (be_bytes 2 (slen s) +:+ s), b.
    split; [by apply with_length_some|]. done.
Qed.
Lemma with_lengths_inj l1 l2 x y a b :
  length l1 = length l2 -> with_lengths l1 = Some x -> with_lengths l2 = Some y -> x +:+ a = y +:+ b ->
  l1 = l2 /\ a = b.
Proof.
  revert l2 x y. induction l1 as [|s l1 IH]; intros [|t l2] x y Hlen Hx Hy He; try done.
  - simpl in Hx, Hy. injection Hx as <-. injection Hy as <-. done.
  - apply with_lengths_cons in Hx as (u & v & Hu & Hv & ->).
    apply with_lengths_cons in Hy as (u' & v' & Hu' & Hv' & ->).
    rewrite !app_assoc_str in He. destruct (with_length_app_inj _ _ _ _ _ _ Hu Hu' He) as [-> He'].
    destruct (IH l2 v v') as [-> ->]; [by injection Hlen|done..].
Qed.
Lemma path_is_some k ns ps l : k = SEntry ns ps l -> slen ns <= 65535 -> is_Some (path k) <-> fits k.
Proof.
  intros -> Hns. unfold path, fits. rewrite <- with_lengths_is_some. split.
  - intros [x Hx]. destruct (with_lengths (ns :: ps)) as [y|] eqn:E; [|done].
    apply with_lengths_cons in E as (a & b & _ & Hb & _). by eexists.
  - intros [b Hb]. assert (H : is_Some (with_lengths (ns :: ps))).
    { eexists. apply with_lengths_cons. exists (be_bytes 2 (slen ns) +:+ ns), b. split; [by apply with_length_some|]. done. }
    destruct H as [y ->]. by eexists.
Qed.

(** ** Layouts *)
Lemma proper_items L n : proper L = true -> n ∈ l_items L -> starts_nul n = false.
Proof.
  unfold proper. rewrite !andb_true_iff. intros [[[_ _] H] _] Hn.
  rewrite forallb_forall in H. apply elem_of_list_In in Hn. specialize (H n Hn). by apply negb_true_iff in H.
Qed.
Lemma proper_maps L ns k : proper L = true -> (ns, k) ∈ l_maps L -> slen ns < 255.
Proof.
  unfold proper. rewrite !andb_true_iff. intros [_ H] Hn.
  rewrite forallb_forall in H. apply elem_of_list_In in Hn. specialize (H _ Hn). simpl in H. lia.
Qed.
Lemma NoDup_fst_inj {A B} (l : list (A * B)) a b c : NoDup l.*1 -> (a, b) ∈ l -> (a, c) ∈ l -> b = c.
Proof.
  induction l as [|[x y] l IH]; intros Hn Hb Hc; [by apply elem_of_nil in Hb|].
  rewrite fmap_cons, NoDup_cons in Hn. destruct Hn as [Hx Hn].
  apply elem_of_cons in Hb as [Hb|Hb], Hc as [Hc|Hc].
  - congruence.
  - exfalso. apply Hx. injection Hb as -> _. apply elem_of_list_fmap. by exists (x, c).
  - exfalso. apply Hx. injection Hc as -> _. apply elem_of_list_fmap. by exists (x, b).
  - by apply IH.
Qed.
Lemma proper_arity L ns j k : proper L = true -> (ns, j) ∈ l_maps L -> (ns, k) ∈ l_maps L -> j = k.
Proof.
  unfold proper. rewrite !andb_true_iff, !bool_decide_eq_true. intros [[[_ H] _] _]. by apply NoDup_fst_inj.
Qed.
Lemma short_ns s x a : slen s < 255 -> with_length s = Some x -> starts_nul (x +:+ a) = true.
Proof.
  intros Hs [_ ->]%with_length_some. rewrite be_bytes_2. simpl. rewrite (N.div_small (slen s)) by lia. done.
Qed.
Lemma entry_path_split L ns ps l x :
  proper L = true -> place L (SEntry ns ps l) -> path (SEntry ns ps l) = Some x ->
  exists p, with_lengths (ns :: ps) = Some p /\ x = p +:+ l /\ starts_nul x = true.
Proof.
  intros HL Hp. unfold path. destruct (with_lengths (ns :: ps)) as [p|] eqn:E; [|done]. intros [= <-].
  exists p. split; [done|]. split; [done|]. apply with_lengths_cons in E as (a & b & Ha & Hb & ->).
  rewrite app_assoc_str. apply (short_ns ns); [|done]. by apply (proper_maps L ns (length ps)).
Qed.
Lemma path_inj L k1 k2 x :
  proper L = true -> place L k1 -> place L k2 -> path k1 = Some x -> path k2 = Some x -> k1 = k2.
Proof.
  intros HL H1 H2 E1 E2.
  destruct k1 as [n1|ns1 ps1 l1], k2 as [n2|ns2 ps2 l2].
  - simpl in E1, E2. congruence.
  - destruct (entry_path_split _ _ _ _ _ HL H2 E2) as (p & _ & _ & Hn). simpl in E1. injection E1 as ->.
    pose proof (proper_items _ _ HL H1). congruence.
  - destruct (entry_path_split _ _ _ _ _ HL H1 E1) as (p & _ & _ & Hn). simpl in E2. injection E2 as ->.
    pose proof (proper_items _ _ HL H2). congruence.
  - destruct (entry_path_split _ _ _ _ _ HL H1 E1) as (p1 & W1 & -> & _).
    destruct (entry_path_split _ _ _ _ _ HL H2 E2) as (p2 & W2 & He & _).
    pose proof W1 as W1'. pose proof W2 as W2'.
    apply with_lengths_cons in W1' as (a & b & Ha & Hb & ->). apply with_lengths_cons in W2' as (c & d & Hc & Hd & ->).
    rewrite !app_assoc_str in He. destruct (with_length_app_inj _ _ _ _ _ _ Ha Hc He) as [-> He'].
    assert (Hl : length ps1 = length ps2) by (by apply (proper_arity L ns2)).
    by destruct (with_lengths_inj _ _ _ _ _ _ Hl Hb Hd He') as [-> ->].
Qed.

(** ** Ranges return exactly the entries under the prefix *)
Lemma over_app a p x : ~ all_ff p -> over (a +:+ p) x -> exists x', x = a +:+ x' /\ over p x'.
Proof.
  intros Hn. revert x. induction a as [|c a IH]; intros x Ho; [by exists x|].
  destruct x as [|d x]; [done|]. simpl in Ho. destruct Ho as [[-> Ho]|[Hf _]].
  - destruct (IH x Ho) as (x' & -> & Hx'). by exists x'.
  - exfalso. apply Hn. clear -Hf. induction a as [|e a IH]; [done|]. apply IH. by destruct Hf.
Qed.
Lemma zeros_length n : String.length (zeros n) = n.
Proof. induction n; simpl; congruence. Qed.
Lemma over_length p x : over p x -> (String.length x <= String.length p)%nat.
Proof.
  revert x. induction p as [|c p IH]; intros [|d x] Ho; try done. simpl in Ho. simpl.
  destruct Ho as [[_ Ho]|(_ & _ & j & -> & Hj)]; [specialize (IH _ Ho); lia|rewrite zeros_length; lia].
Qed.
Lemma over_shorter p x : over p x -> (String.length x < String.length p)%nat.
Proof.
  revert x. induction p as [|c p IH]; intros [|d x] Ho; try done. simpl in Ho. simpl.
  destruct Ho as [[_ Ho]|(_ & _ & j & -> & Hj)]; [specialize (IH _ Ho); lia|rewrite zeros_length; lia].
Qed.
Lemma with_length_not_ff s x b : slen s < 65535 -> with_length s = Some x -> ~ all_ff (x +:+ b).
Proof.
  intros Hs [_ ->]%with_length_some. rewrite be_bytes_2. simpl. intros (H1 & H2 & _).
  rewrite N_of_ascii_of in H1 by (apply N.mod_lt; lia). rewrite N_of_ascii_of in H2 by (apply N.mod_lt; lia).
  rewrite (N.mod_small (slen s / 256)) in H1 by (apply N.div_lt_upper_bound; lia).
  pose proof (N.div_mod (slen s) 256 ltac:(lia)). lia.
Qed.
Lemma slen_app a b : slen (a +:+ b) = slen a + slen b.
Proof. unfold slen. rewrite app_length_str. lia. Qed.
(** the first part of a key above decides its length *)
Lemma over_part s x t y r :
  slen s < 65535 -> with_length s = Some x -> with_length t = Some y -> over x (y +:+ r) -> False.
Proof.
  intros Hs [_ ->]%with_length_some [Ht ->]%with_length_some Ho.
  pose proof (over_shorter _ _ Ho) as Hl. rewrite !app_length_str, !be_bytes_length in Hl.
  rewrite !be_bytes_2 in Ho. simpl in Ho.
  assert (Hd1 : slen s / 256 < 256) by (apply N.div_lt_upper_bound; lia).
  assert (Hd2 : slen t / 256 < 256) by (apply N.div_lt_upper_bound; lia).
  rewrite (N.mod_small (slen s / 256)) in Ho by done. rewrite (N.mod_small (slen t / 256)) in Ho by done.
  pose proof (N.mod_lt (slen s) 256 ltac:(lia)) as Hm1. pose proof (N.mod_lt (slen t) 256 ltac:(lia)) as Hm2.
  pose proof (N.div_mod (slen s) 256 ltac:(lia)) as D1. pose proof (N.div_mod (slen t) 256 ltac:(lia)) as D2.
  assert (Hinj : forall a b, a < 256 -> b < 256 -> ascii_of_N a = ascii_of_N b -> a = b).
  { intros a b Ha Hb He. rewrite <- (N_of_ascii_of a Ha), He. by apply N_of_ascii_of. }
  destruct Ho as [[H1 [[H2 Ho]|(Hf & H2 & j & Hj & Hlt)]]|(Hf & H1 & j & Hj & Hlt)].
  - apply Hinj in H1; [|done..]. apply Hinj in H2; [|done..].
    apply over_shorter in Ho. rewrite app_length_str in Ho. unfold slen in *. lia.
  - apply Hinj in H1; [|done..]. rewrite !N_of_ascii_of in H2 by done.
    apply (f_equal String.length) in Hj. rewrite zeros_length, app_length_str in Hj. unfold slen in *. lia.
  - rewrite !N_of_ascii_of in H1 by done. destruct Hf as [Hf _]. rewrite N_of_ascii_of in Hf by done.
    destruct j as [|j]; [done|]. simpl in Hj. injection Hj as Hz Hj.
    change (ascii_of_N 0) with (ascii_of_N 0) in Hz.
    assert (Hz' : slen t mod 256 = 0). { apply Hinj; [done|lia|]. by rewrite Hz. }
    apply (f_equal String.length) in Hj. rewrite zeros_length, app_length_str in Hj.
    simpl in Hlt. unfold slen in *. lia.
Qed.
Lemma over_parts ps qs x y r :
  length ps = length qs -> ps <> [] -> Forall (fun p => slen p < 65535) ps ->
  with_lengths ps = Some x -> with_lengths qs = Some y -> over x (y +:+ r) -> False.
Proof.
  revert qs x y. induction ps as [|s ps IH]; intros [|t qs] x y Hlen Hne Hs Hx Hy Ho; try done.
  apply with_lengths_cons in Hx as (a & b & Ha & Hb & ->). apply with_lengths_cons in Hy as (c & d & Hc & Hd & ->).
  apply Forall_cons in Hs as [Hs Hss]. rewrite app_assoc_str in Ho.
  destruct ps as [|s' ps].
  - simpl in Hb. injection Hb as <-. rewrite app_nil_str in Ho. by apply (over_part s a t c (d +:+ r)).
  - assert (Hn : ~ all_ff b).
    { apply with_lengths_cons in Hb as (u & v & Hu & Hv & ->). apply Forall_cons in Hss as [Hs' _].
      by apply (with_length_not_ff s'). }
    apply over_app in Ho as (x' & He & Ho); [|done].
    destruct (with_length_app_inj _ _ _ _ _ _ Hc Ha He) as [-> <-].
    by apply (IH qs b d); [injection Hlen| | | | |].
Qed.
Lemma over_entry L ns ps p k x :
  proper L = true -> (ns, length ps) ∈ l_maps L -> Forall (fun p => slen p < 65535) ps ->
  with_lengths (ns :: ps) = Some p -> place L k -> path k = Some x -> over p x -> False.
Proof.
  intros HL Hm Hs Hp Hk Hx Ho. pose proof (proper_maps _ _ _ HL Hm) as Hns.
  destruct k as [n|ns' ps' l'].
  - simpl in Hx. injection Hx as ->. pose proof (proper_items _ _ HL Hk) as Hnul.
    apply with_lengths_cons in Hp as (a & b & Ha & Hb & ->).
    apply with_length_some in Ha as [_ ->]. rewrite be_bytes_2 in Ho. simpl in Ho.
    destruct x as [|d x]; [done|]. simpl in Hnul.
    rewrite (N.div_small (slen ns)) in Ho by lia.
    destruct Ho as [[-> _]|(Hf & _)]; [done|].
    destruct Hf as [Hf _]. rewrite N_of_ascii_of in Hf by (apply N.mod_lt; lia). rewrite N.mod_small in Hf by lia. lia.
  - destruct (entry_path_split _ _ _ _ _ HL Hk Hx) as (q & Hq & -> & _).
    pose proof Hp as Hp'. pose proof Hq as Hq'.
    apply with_lengths_cons in Hp' as (a & b & Ha & Hb & ->). apply with_lengths_cons in Hq' as (c & d & Hc & Hd & ->).
    destruct ps as [|s ps].
    + simpl in Hb. injection Hb as <-. rewrite app_nil_str in Ho. rewrite app_assoc_str in Ho.
      apply (over_part ns a ns' c (d +:+ l')); [lia|done..].
    + assert (Hn : ~ all_ff b).
      { apply with_lengths_cons in Hb as (u & v & Hu & Hv & ->). apply Forall_cons in Hs as [Hs' _].
        by apply (with_length_not_ff s). }
      rewrite app_assoc_str in Ho. apply over_app in Ho as (x' & He & Ho); [|done].
      destruct (with_length_app_inj _ _ _ _ _ _ Hc Ha He) as [-> <-].
      apply (over_parts (s :: ps) ps' b d l'); [|done..].
      by apply (proper_arity L ns).
Qed.
