(** ABI round trip. *)
From Verif Require Import Base BaseLemmas MapLemmas Text TextLemmas StdModel MultisigTypes EncodingModel EncodingSpec
  EncodingProofs.

(** [s] occurs in [w] at position [pos] *)
Definition occurs (w : string) (pos : nat) (s : string) : Prop :=
  exists pre post, w = pre +:+ (s +:+ post) /\ String.length pre = pos.

Lemma occurs_sub w pos s : occurs w pos s -> sub w pos (String.length s) = Some s.
Proof.
  intros (pre & post & -> & <-). unfold sub. rewrite !app_length_str.
  destruct (Nat.leb_spec (String.length pre + String.length s)
              (String.length pre + (String.length s + String.length post))) as [_|?]; [|lia].
  by rewrite sdrop_app, stake_app.
Qed.
Lemma occurs_sub_n w pos s n : occurs w pos s -> String.length s = n -> sub w pos n = Some s.
Proof. intros H <-. by apply occurs_sub. Qed.
Lemma occurs_app w pos a b : occurs w pos (a +:+ b) -> occurs w pos a /\ occurs w (pos + String.length a) b.
Proof.
  intros (pre & post & -> & <-). rewrite app_assoc_str. split.
  - exists pre, (b +:+ post). done.
  - exists (pre +:+ a), post. by rewrite app_assoc_str, app_length_str.
Qed.
Lemma occurs_le w pos s : occurs w pos s -> (pos + String.length s <= String.length w)%nat.
Proof. intros (pre & post & -> & <-). rewrite !app_length_str. lia. Qed.
Lemma occurs_self w : occurs w 0 w.
Proof. exists EmptyString, EmptyString. by rewrite app_nil_str. Qed.

Lemma of_be_go_bytes len : forall n acc s, n < 256 ^ N.of_nat len ->
  of_be_go acc (be_bytes_go len n s) = of_be_go (acc * 256 ^ N.of_nat len + n) s.
Proof.
  induction len as [|l IH]; intros n acc s Hn.
  { change (256 ^ N.of_nat 0) with 1 in *. cbn [be_bytes_go]. f_equal. lia. }
  rewrite Nat2N.inj_succ, N.pow_succ_r' in *. cbn [be_bytes_go].
  rewrite IH by (apply N.div_lt_upper_bound; lia).
  cbn [of_be_go]. rewrite N_ascii_embedding by (apply N.mod_lt; lia).
  f_equal. pose proof (N.div_mod n 256). lia.
Qed.
Lemma of_be_word n : n < U256 -> of_be (word n) = n.
Proof. intros H. unfold of_be, word, be_bytes. rewrite of_be_go_bytes by exact H. done. Qed.
Lemma word_length n : String.length (word n) = 32%nat.
Proof. apply be_bytes_length. Qed.

Lemma a_uint_word w base p n : n < U256 -> occurs w p (word n) -> a_uint w base p = Some n.
Proof.
  intros Hn Ho. unfold a_uint. rewrite (occurs_sub_n _ _ _ _ Ho (word_length n)).
  by rewrite of_be_word.
Qed.
Lemma a_index_word w p n : slen w < U256 -> n <= slen w -> occurs w p (word n) ->
  a_index w p = Some (N.to_nat n).
Proof.
  intros Hw Hn Ho. unfold a_index. rewrite (a_uint_word _ _ _ n); [|lia|done].
  destruct (N.leb_spec n (slen w)); [done|lia].
Qed.

(** the head of [t] is at [p]; a dynamic one points to its tail *)
Definition holds (w : string) (base p : nat) (t : token) : Prop :=
  exists off, occurs w p (if is_dynamic t then word off else raw_head t) /\
    (is_dynamic t = true -> occurs w (base + N.to_nat off) (encode_tail t)).
Fixpoint layout (w : string) (base p : nat) (l : list token) : Prop :=
  match l with
  | [] => True
  | t :: l' => holds w base p t /\ layout w base (p + N.to_nat (head_len t)) l'
  end.
Definition enc1 (t : token) : token * string := (t, encode_tail t).

Lemma static_tail t : is_dynamic t = false -> encode_tail t = EmptyString.
Proof. by destruct t. Qed.
Lemma layout_heads w base l : forall off hp,
  occurs w hp (heads off (enc1 <$> l)) -> occurs w (base + N.to_nat off) (sconcat (enc1 <$> l).*2) ->
  layout w base hp l.
Proof.
  induction l as [|t l IH]; intros off hp Hh Ht; [done|].
  rewrite !fmap_cons in *. cbn [heads sconcat fst snd enc1] in *. unfold enc1 in Hh at 1. cbn [heads] in Hh.
  apply occurs_app in Hh as [Hh1 Hh2]. apply occurs_app in Ht as [Ht1 Ht2].
  cbn [layout]. split; [by exists off|].
  assert (Hl : String.length (if is_dynamic t then word off else raw_head t) = N.to_nat (head_len t)).
  { unfold head_len. destruct (is_dynamic t); [by rewrite word_length|]. unfold slen. by rewrite Nat2N.id. }
  rewrite Hl in Hh2. eapply IH; [exact Hh2|].
  replace (base + N.to_nat (off + slen (encode_tail t)))%nat
    with (base + N.to_nat off + String.length (encode_tail t))%nat; [done|].
  unfold slen. lia.
Qed.
Lemma heads_length l : forall off, slen (heads off (enc1 <$> l)) = lsum head_len l.
Proof.
  induction l as [|t l IH]; intros off; [done|].
  rewrite fmap_cons, lsum_cons. unfold enc1 at 1. cbn [heads]. unfold slen at 1.
  rewrite app_length_str, Nat2N.inj_add. fold (slen (heads (off + slen (encode_tail t)) (enc1 <$> l))).
  rewrite IH. f_equal. unfold head_len. destruct (is_dynamic t); [by rewrite word_length|done].
Qed.
Lemma layout_tuple w pos l : occurs w pos (heads_tails (enc1 <$> l)) -> layout w pos pos l.
Proof.
  unfold heads_tails. intros [H1 H2]%occurs_app.
  set (off := lsum (fun x => head_len x.1) (enc1 <$> l)) in *.
  assert (Ho : String.length (heads off (enc1 <$> l)) = N.to_nat off).
  { pose proof (heads_length l off) as H. unfold slen in H. rewrite <- (Nat2N.id (String.length _)), H.
    unfold off. by rewrite lsum_fmap. }
  rewrite Ho in H2. by eapply layout_heads.
Qed.

(** decoder [d] reads token [t] as [a] *)
Definition repr {A} (d : adec A) (t : token) (a : A) : Prop :=
  forall w base p, slen w < U256 -> holds w base p t -> d w base p = Some a.

Lemma repr_uint n : n < U256 -> repr a_uint (TUint n) n.
Proof. intros Hn w base p _ (off & Ho & _). by apply a_uint_word. Qed.
Lemma pad_right_32 b : String.length b = 32%nat -> pad_right b = b.
Proof. intros H. unfold pad_right. rewrite H. cbn. apply app_nil_str. Qed.
Lemma repr_bytes32 b : String.length b = 32%nat -> repr a_bytes32 (TFixedBytes b) b.
Proof.
  intros Hb w base p _ (off & Ho & _). cbn [is_dynamic raw_head] in Ho. rewrite pad_right_32 in Ho by done.
  by apply occurs_sub_n.
Qed.
Lemma repr_address b : String.length b = 20%nat -> repr a_address (TAddress b) b.
Proof.
  intros Hb w base p _ (off & Ho & _). cbn [is_dynamic raw_head] in Ho.
  unfold a_address. rewrite (occurs_sub_n _ _ _ 32 Ho) by (by rewrite app_length_str, zeros_length, Hb).
  pose proof (stake_app (zeros 12) b) as H1. pose proof (sdrop_app (zeros 12) b) as H2.
  rewrite zeros_length in H1, H2. by rewrite H1, H2, String.eqb_refl.
Qed.
Lemma repr_bytes_gen t b : is_dynamic t = true -> encode_tail t = word (slen b) +:+ pad_right b ->
  repr a_bytes t b.
Proof.
  intros Hd He w base p Hw (off & Ho & Ht). rewrite Hd in Ho. specialize (Ht Hd). rewrite He in Ht.
  apply occurs_app in Ht as [Hl Hp]. rewrite word_length in Hp.
  unfold pad_right in Hp. apply occurs_app in Hp as [Hp _].
  pose proof (occurs_le _ _ _ Hl). pose proof (occurs_le _ _ _ Hp).
  unfold a_bytes. rewrite (a_index_word _ _ off); [|done|unfold slen; lia|done].
  rewrite (a_index_word _ _ (slen b)); [|done|unfold slen; lia|done].
  unfold slen. rewrite Nat2N.id. by apply occurs_sub.
Qed.
Lemma repr_bytes b : repr a_bytes (TBytes b) b.
Proof. by apply repr_bytes_gen. Qed.
Lemma repr_string b : repr a_bytes (TString b) b.
Proof. by apply repr_bytes_gen. Qed.

Lemma repr_elems {A} (d : adec A) w base l vs : slen w < U256 ->
  Forall (fun t => head_len t = 32) l -> Forall2 (repr d) l vs ->
  forall p, layout w base p l -> a_elems d w base p (length l) = Some vs.
Proof.
  intros Hw Hl H. induction H as [|t v l vs Ht H IH]; intros p; [done|].
  apply Forall_cons in Hl as [Hh Hl]. cbn [layout]. rewrite Hh. intros [H1 H2].
  cbn [a_elems length]. rewrite (Ht _ _ _ Hw H1). change (N.to_nat 32) with 32%nat in H2.
  by rewrite (IH Hl _ H2).
Qed.
Lemma lsum_heads l : Forall (fun t => head_len t = 32) l -> lsum head_len l = 32 * N.of_nat (length l).
Proof.
  induction 1 as [|t l Ht H IH]; [done|]. rewrite lsum_cons, IH, Ht. cbn [length]. lia.
Qed.
Lemma repr_array {A} (d : adec A) l vs :
  Forall (fun t => head_len t = 32) l -> Forall2 (repr d) l vs -> repr (a_array d) (TArray l) vs.
Proof.
  intros Hl H w base p Hw (off & Ho & Ht). cbn [is_dynamic] in Ho. specialize (Ht eq_refl).
  cbn [encode_tail] in Ht. change (map _ l) with (enc1 <$> l) in Ht.
  apply occurs_app in Ht as [Hn Hp]. rewrite word_length in Hp.
  pose proof (occurs_le _ _ _ Hn). pose proof (occurs_le _ _ _ Hp) as Hle.
  assert (Hlen : (32 * length l <= String.length (heads_tails (enc1 <$> l)))%nat).
  { unfold heads_tails. rewrite app_length_str.
    pose proof (heads_length l (lsum (fun x => head_len x.1) (enc1 <$> l))) as Hs.
    rewrite (lsum_heads l Hl) in Hs. unfold slen in Hs. lia. }
  unfold a_array. rewrite (a_index_word _ _ off); [|done|unfold slen; lia|done].
  rewrite (a_index_word _ _ (N.of_nat (length l))); [|done|unfold slen; lia|done].
  rewrite Nat2N.id. apply repr_elems; [done..|]. by apply layout_tuple.
Qed.

Lemma abi_layout l : layout (abi_encode l) 0 0 l.
Proof. apply layout_tuple. apply occurs_self. Qed.

Lemma head_fixed b : String.length b = 32%nat -> head_len (TFixedBytes b) = 32.
Proof. intros H. unfold head_len, slen. cbn [is_dynamic raw_head]. by rewrite pad_right_32, H. Qed.
Lemma head_address b : String.length b = 20%nat -> head_len (TAddress b) = 32.
Proof. intros H. unfold head_len, slen. cbn [is_dynamic raw_head]. by rewrite app_length_str, zeros_length, H. Qed.
Lemma head_uint n : head_len (TUint n) = 32.
Proof. unfold head_len, slen. cbn [is_dynamic raw_head]. by rewrite word_length. Qed.

Lemma repr_array_fixed (l : list string) : Forall (fun b => String.length b = 32%nat) l ->
  repr (a_array a_bytes32) (TArray (TFixedBytes <$> l)) l.
Proof.
  intros H. apply repr_array.
  - rewrite Forall_fmap. eapply Forall_impl; [exact H|]. apply head_fixed.
  - induction H; [constructor|]. rewrite fmap_cons. constructor; [by apply repr_bytes32|done].
Qed.
Lemma repr_array_address (l : list string) : Forall (fun b => String.length b = 20%nat) l ->
  repr (a_array a_address) (TArray (TAddress <$> l)) l.
Proof.
  intros H. apply repr_array.
  - rewrite Forall_fmap. eapply Forall_impl; [exact H|]. apply head_address.
  - induction H; [constructor|]. rewrite fmap_cons. constructor; [by apply repr_address|done].
Qed.
Lemma repr_array_uint (l : list N) : Forall (fun n => n < U256) l ->
  repr (a_array a_uint) (TArray (TUint <$> l)) l.
Proof.
  intros H. apply repr_array.
  - rewrite Forall_fmap. eapply Forall_impl; [exact H|]. intros n _. apply head_uint.
  - induction H; [constructor|]. rewrite fmap_cons. constructor; [by apply repr_uint|done].
Qed.
Lemma repr_array_bytes (l : list string) : repr (a_array a_bytes) (TArray (TBytes <$> l)) l.
Proof.
  apply repr_array.
  - rewrite Forall_fmap. apply Forall_true. done.
  - induction l; [constructor|]. rewrite fmap_cons. constructor; [apply repr_bytes|done].
Qed.
Lemma repr_array_string (l : list string) : repr (a_array a_bytes) (TArray (TString <$> l)) l.
Proof.
  apply repr_array.
  - rewrite Forall_fmap. apply Forall_true. done.
  - induction l; [constructor|]. rewrite fmap_cons. constructor; [apply repr_string|done].
Qed.

(** positions of the heads of a tuple *)
Lemma head_array l : head_len (TArray l) = 32. Proof. done. Qed.
Lemma head_string b : head_len (TString b) = 32. Proof. done. Qed.
Lemma head_bytes b : head_len (TBytes b) = 32. Proof. done. Qed.
Lemma head_empty : head_len (TFixedBytes "") = 0. Proof. done. Qed.
Ltac lay H := cbn [layout] in H;
  rewrite ?head_uint, ?head_array, ?head_string, ?head_bytes, ?head_empty, ?head_address, ?head_fixed in H by done;
  change (N.to_nat 32) with 32%nat in H; change (N.to_nat 0) with 0%nat in H; cbn [Nat.add] in H.

Lemma small_u256 n : n < 2 ^ 32 -> n < U256.
Proof. intros H. eapply N.lt_trans; [exact H|]. done. Qed.

Lemma abi_data_view d : data_ok d -> slen (abi_encode_data d) < 2 ^ 32 ->
  abi_decode_data (abi_encode_data d) = Some (data_view d).
Proof.
  intros [Hc Hi] Hs%small_u256. unfold abi_encode_data in *.
  pose proof (abi_layout [TUint (d_chain d);
              TArray (TFixedBytes ∘ c_id <$> d_commands d);
              TArray (TString ∘ command_type_str ∘ c_ty <$> d_commands d);
              TArray (TBytes ∘ c_params <$> d_commands d)]) as Hl.
  set (w := abi_encode _) in *.
  lay Hl. destruct Hl as (H0 & H1 & H2 & H3 & _).
  unfold abi_decode_data, data_view, a_pair.
  rewrite (repr_uint _ Hc _ _ _ Hs H0).
  rewrite list_fmap_compose in H1. rewrite (repr_array_fixed (c_id <$> d_commands d)) ; [|by rewrite Forall_fmap|exact Hs|exact H1].
  rewrite (list_fmap_compose (command_type_str ∘ c_ty) TString) in H2.
  rewrite (repr_array_string _ _ _ _ Hs H2).
  rewrite list_fmap_compose in H3.
  by rewrite (repr_array_bytes _ _ _ _ Hs H3).
Qed.
