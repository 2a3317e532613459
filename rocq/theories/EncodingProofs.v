(** BCS and ABI round trips. *)
From Verif Require Import Base BaseLemmas MapLemmas Text TextLemmas StdModel MultisigTypes EncodingModel EncodingSpec.

Lemma stake_app a b : stake (String.length a) (a +:+ b) = a.
Proof. induction a as [|c a IH]; cbn; [by destruct b|]. by f_equal. Qed.
Lemma sdrop_app a b : sdrop (String.length a) (a +:+ b) = b.
Proof. induction a; [by destruct b|]. done. Qed.
Lemma stake_drop n s : stake n s +:+ sdrop n s = s.
Proof. revert s. induction n as [|n IH]; intros [|c s]; [done..|]. cbn. by rewrite IH. Qed.
Lemma stake_length n s : (n <= String.length s)%nat -> String.length (stake n s) = n.
Proof. revert s. induction n as [|n IH]; intros [|c s]; cbn; intros H; [lia..|]. rewrite IH; lia. Qed.
Lemma sdrop_length n s : String.length (sdrop n s) = (String.length s - n)%nat.
Proof. revert s. induction n as [|n IH]; intros [|c s]; [done..|]. cbn. by rewrite IH. Qed.
Lemma sdrop_add n m s : sdrop (n + m) s = sdrop m (sdrop n s).
Proof. revert s. induction n as [|n IH]; intros [|c s]; [done..| |]; cbn; [by destruct m|]. apply IH. Qed.
Lemma zeros_length n : String.length (zeros n) = n.
Proof. induction n; cbn; congruence. Qed.
Lemma N_ascii_embedding n : n < 256 -> N_of_ascii (ascii_of_N n) = n.
Proof. apply Ascii.N_ascii_embedding. Qed.

(** ** BCS *)
(** [s] is read by [p] as [a], whatever follows *)
Definition reads {A} (p : parser A) (a : A) (s : string) : Prop := forall r, p (s +:+ r) = Some (a, r).

Lemma reads_bind {A B} (p : parser A) (k : A -> parser B) a b s s' :
  reads p a s -> reads (k a) b s' -> reads (p_bind p k) b (s +:+ s').
Proof. intros H1 H2 r. unfold p_bind. rewrite app_assoc_str, H1. apply H2. Qed.
Lemma reads_ret {A} (a : A) : reads (p_ret a) a EmptyString.
Proof. done. Qed.
Lemma reads_pair {A B} (p : parser A) (q : parser B) a b s s' :
  reads p a s -> reads q b s' -> reads (p_pair p q) (a, b) (s +:+ s').
Proof.
  intros H1 H2. unfold p_pair. apply (reads_bind _ _ a); [done|].
  rewrite <- (app_nil_str s'). apply (reads_bind _ _ b); [done|]. apply reads_ret.
Qed.
Lemma reads_run {A} (p : parser A) a s : reads p a s -> p_run p s = Some a.
Proof. intros H. unfold p_run. rewrite <- (app_nil_str s), H. done. Qed.

Lemma reads_take s : reads (p_take (String.length s)) s s.
Proof.
  intros r. unfold p_take. rewrite app_length_str.
  destruct (Nat.leb_spec (String.length s) (String.length s + String.length r)) as [_|?]; [|lia].
  by rewrite stake_app, sdrop_app.
Qed.
Lemma reads_take_n n s : String.length s = n -> reads (p_take n) s s.
Proof. intros <-. apply reads_take. Qed.

Lemma le_bytes_length n x : String.length (le_bytes n x) = n.
Proof. revert x. induction n as [|n IH]; intros x; cbn; [done|]. by rewrite IH. Qed.
Lemma of_le_bytes n x : x < 256 ^ N.of_nat n -> of_le (le_bytes n x) = x.
Proof.
  revert x. induction n as [|n IH]; intros x Hx; [cbn in *; lia|].
  cbn [le_bytes of_le]. rewrite N_ascii_embedding by (apply N.mod_lt; lia).
  rewrite IH; [pose proof (N.div_mod x 256); lia|].
  apply N.div_lt_upper_bound; [lia|]. by rewrite <- N.pow_succ_r', <- Nat2N.inj_succ.
Qed.
Lemma reads_le n x : x < 256 ^ N.of_nat n -> reads (p_le n) x (le_bytes n x).
Proof.
  intros Hx. unfold p_le. rewrite <- (app_nil_str (le_bytes n x)).
  apply (reads_bind _ _ (le_bytes n x)); [apply reads_take_n, le_bytes_length|].
  rewrite (of_le_bytes n x Hx). apply reads_ret.
Qed.

Lemma uleb_reads fuel : forall n, n < 128 ^ N.of_nat fuel -> (0 < fuel)%nat ->
  reads (p_uleb_go fuel) n (uleb_go fuel n).
Proof.
  induction fuel as [|f IH]; intros n Hn Hf r; [lia|].
  cbn [uleb_go]. destruct (N.ltb_spec n 128) as [Hlt|Hge].
  - cbn [String.append p_uleb_go]. rewrite N_ascii_embedding by lia.
    destruct (N.ltb_spec n 128); [done|lia].
  - cbn [String.append p_uleb_go].
    assert (n mod 128 < 128) by (apply N.mod_lt; lia).
    rewrite N_ascii_embedding by lia.
    destruct (N.ltb_spec (n mod 128 + 128) 128); [lia|].
    assert (Hd : n / 128 < 128 ^ N.of_nat f).
    { apply N.div_lt_upper_bound; [lia|]. by rewrite <- N.pow_succ_r', <- Nat2N.inj_succ. }
    assert (Hp : 1 <= n / 128) by (apply N.div_le_lower_bound; lia).
    destruct f as [|f]; [change (128 ^ N.of_nat 0) with 1 in Hd; lia|].
    rewrite (IH _ Hd) by lia.
    destruct (N.eqb_spec (n / 128) 0); [lia|].
    do 2 f_equal. pose proof (N.div_mod n 128). lia.
Qed.
Lemma reads_len n s : bcs_len n = Some s -> reads p_len n s.
Proof.
  unfold bcs_len. destruct (N.leb_spec n BCS_MAX) as [H|]; [|done].
  intros [= <-] r. unfold p_len, uleb. unfold BCS_MAX in H.
  rewrite (uleb_reads 5 n); [|cbn; lia..].
  destruct (N.ltb_spec n (2 ^ 31)); [done|lia].
Qed.
Lemma bcs_len_le n s : bcs_len n = Some s -> n <= BCS_MAX.
Proof. unfold bcs_len. destruct (N.leb_spec n BCS_MAX); [done|]. done. Qed.
Lemma reads_bytes b s : bcs_bytes b = Some s -> reads p_bytes b s.
Proof.
  unfold bcs_bytes. destruct (bcs_len (slen b)) as [l|] eqn:E; [|done]. intros [= <-].
  unfold p_bytes. apply (reads_bind _ _ (slen b)); [by apply reads_len|].
  unfold slen. rewrite Nat2N.id. apply reads_take.
Qed.
Lemma reads_times {A B} (f : A -> option string) (g : A -> B) (p : parser B) l s :
  (forall a s, a ∈ l -> f a = Some s -> reads p (g a) s) ->
  bcs_tuple (f <$> l) = Some s -> reads (p_times (length l) p) (g <$> l) s.
Proof.
  revert s. induction l as [|a l IH]; intros s Hf; rewrite ?fmap_cons; cbn [bcs_tuple p_times length].
  { intros [= <-]. apply reads_ret. }
  destruct (f a) as [sa|] eqn:Ea; [|done].
  destruct (bcs_tuple (f <$> l)) as [sl|] eqn:El; [|done]. intros [= <-].
  apply (reads_bind _ _ (g a)); [apply Hf; [by left|done]|].
  rewrite <- (app_nil_str sl). apply (reads_bind _ _ (g <$> l)); [|apply reads_ret].
  apply IH; [|done]. intros a' s' Ha. apply Hf. by right.
Qed.
Lemma reads_seq {A B} (f : A -> option string) (g : A -> B) (p : parser B) l s :
  (forall a s, a ∈ l -> f a = Some s -> reads p (g a) s) ->
  bcs_seq f l = Some s -> reads (p_seq p) (g <$> l) s.
Proof.
  intros Hf. unfold bcs_seq. cbn [bcs_tuple].
  destruct (bcs_len (N.of_nat (length l))) as [sn|] eqn:En; [|done].
  destruct (bcs_tuple (f <$> l)) as [sl|] eqn:El; [|done]. intros [= <-].
  unfold p_seq. apply (reads_bind _ _ (N.of_nat (length l))); [by apply reads_len|].
  rewrite Nat2N.id. by apply (reads_times f).
Qed.
Lemma reads_bytes_seq l s : bcs_seq bcs_bytes l = Some s -> reads (p_seq p_bytes) l s.
Proof.
  intros H. rewrite <- (list_fmap_id l). apply (reads_seq bcs_bytes id); [|done].
  intros a s' _. apply reads_bytes.
Qed.
Lemma reads_le_seq n l s : Forall (fun x => x < 256 ^ N.of_nat n) l ->
  bcs_seq (fun w => Some (le_bytes n w)) l = Some s -> reads (p_seq (p_le n)) l s.
Proof.
  intros Hl H. rewrite <- (list_fmap_id l).
  apply (reads_seq (fun w => Some (le_bytes n w)) id); [|done].
  intros a s' Ha [= <-]. apply reads_le. rewrite Forall_forall in Hl. by apply Hl.
Qed.
Lemma reads_fixed_seq n l s : Forall (fun x => String.length x = n) l ->
  bcs_seq Some l = Some s -> reads (p_seq (p_take n)) l s.
Proof.
  intros Hl H. rewrite <- (list_fmap_id l). apply (reads_seq Some id); [|done].
  intros a s' Ha [= <-]. apply reads_take_n. rewrite Forall_forall in Hl. by apply Hl.
Qed.

Lemma tuple_cons x l s : bcs_tuple (x :: l) = Some s ->
  exists a b, x = Some a /\ bcs_tuple l = Some b /\ s = a +:+ b.
Proof.
  cbn. destruct x as [a|]; [|done]. destruct (bcs_tuple l) as [b|]; [|done].
  intros [= <-]. eauto.
Qed.
Lemma tuple_nil s : bcs_tuple [] = Some s -> s = EmptyString.
Proof. by intros [= <-]. Qed.
Ltac tup := repeat match goal with
  | H : bcs_tuple (_ :: _) = Some _ |- _ =>
      let a := fresh "s" in let b := fresh "r" in let H1 := fresh "Ha" in let H2 := fresh "Hb" in
      apply tuple_cons in H as (a & b & H1 & H2 & ->)
  | H : bcs_tuple [] = Some _ |- _ => apply tuple_nil in H; subst
  | H : Some _ = Some _ |- _ => apply (inj Some) in H; subst
  end; rewrite ?app_nil_str; rewrite <- ?app_assoc_str.

Lemma bytes32_ok s x : bytes32 s = Some x -> x = s /\ String.length s = 32%nat.
Proof. unfold bytes32. destruct (Nat.eqb_spec (String.length s) 32); [|done]. by intros [= <-]. Qed.

Lemma ids_ok (cs : list command) ids : try_map (fun c => expect (E:=perror) (bytes32 (c_id c))) cs = Ok ids ->
  ids = c_id <$> cs /\ Forall (fun c => String.length (c_id c) = 32%nat) cs.
Proof.
  intros H%try_map_ok. induction H as [|c i cs ids Hc H [IH1 IH2]]; [done|].
  apply expect_ok, bytes32_ok in Hc as [-> Hl]. cbn. rewrite IH1. split; [done|]. by constructor.
Qed.
Lemma parse_uint_mono b b' s m : parse_uint b s = Some m -> m < b' -> parse_uint b' s = Some m.
Proof.
  unfold parse_uint. destruct (is_empty _); [done|]. destruct (undec _ 0) as [n|]; [|done].
  destruct (n <? b); [|done]. intros [= ->] H. destruct (N.ltb_spec m b'); [done|lia].
Qed.
Lemma parse_dec_ok b n m : parse_uint b (dec n) = Some m -> m = n /\ n < b.
Proof.
  intros H. pose proof (parse_uint_lt _ _ _ H).
  pose proof (parse_uint_mono _ (N.max (m + 1) (n + 1)) _ _ H ltac:(lia)) as H'.
  rewrite parse_uint_dec in H' by lia. injection H' as ->. done.
Qed.
Lemma u256_to_u64_ok n m : u256_to_u64 n = Ok m -> m = n /\ n < U64.
Proof. unfold u256_to_u64. intros H%expect_ok. by apply parse_dec_ok in H. Qed.
Lemma u256_to_u128_ok n m : u256_to_u128 n = Ok m -> m = n /\ n < U128.
Proof. unfold u256_to_u128. intros H%expect_ok. by apply parse_dec_ok in H. Qed.
Lemma weights_ok {A} (f : A -> N) (l : list A) ws : try_map (fun o => u256_to_u128 (f o)) l = Ok ws ->
  ws = f <$> l /\ Forall (fun x => x < U128) ws.
Proof.
  intros H%try_map_ok. induction H as [|c i cs ids Hc H [IH1 IH2]]; [done|].
  apply u256_to_u128_ok in Hc as [-> Hl]. cbn. rewrite <- IH1. split; [done|]. by constructor.
Qed.

Lemma bcs_data_view d s : bcs_encode d = Ok s ->
  bcs_decode_data s = Some (data_view d) /\ d_chain d < U64 /\
  Forall (fun c => String.length (c_id c) = 32%nat) (d_commands d).
Proof.
  unfold bcs_encode. intros H. res_inv.
  match goal with H : u256_to_u64 _ = _ |- _ => apply u256_to_u64_ok in H as [-> Hch] end.
  match goal with H : try_map _ _ = _ |- _ => apply ids_ok in H as [-> Hids] end.
  match goal with H : bcs_tuple _ = _ |- _ => rename H into Ht end.
  split; [|done]. tup. unfold bcs_decode_data, data_view. apply reads_run.
  repeat apply reads_pair.
  - apply reads_le. exact Hch.
  - apply reads_fixed_seq; [by rewrite Forall_fmap|done].
  - by apply reads_bytes_seq.
  - by apply reads_bytes_seq.
Qed.
Lemma command_type_str_inj a b : command_type_str a = command_type_str b -> a = b.
Proof. by destruct a, b. Qed.
Lemma data_view_inj d d' : data_view d = data_view d' -> d = d'.
Proof.
  destruct d as [ch cs], d' as [ch' cs']. unfold data_view. cbn [d_chain d_commands].
  intros [= -> H1 H2 H3]. f_equal. revert cs' H1 H2 H3.
  induction cs as [|[i t p] cs IH]; intros [|[i' t' p'] cs']; [done..|].
  cbn. intros [= -> H1] [= Ht H2] [= -> H3]. apply command_type_str_inj in Ht as ->.
  f_equal. by apply IH.
Qed.
Lemma bcs_data_inj d d' s : bcs_encode d = Ok s -> bcs_encode d' = Ok s -> d = d'.
Proof.
  intros [H _]%bcs_data_view [H' _]%bcs_data_view. apply data_view_inj. congruence.
Qed.
Lemma bcs_params_view chain src dst hash s : bcs_command_params chain src dst hash = Ok s ->
  exists d, of_hex (strip_0x dst) = Some d /\ String.length d = 32%nat /\
    bcs_decode_params s = Some (chain, src, d, hash).
Proof.
  unfold bcs_command_params. intros H. res_inv.
  match goal with H : bytes32 _ = _ |- _ => apply bytes32_ok in H as [-> Hl] end.
  match goal with H : bcs_tuple _ = _ |- _ => rename H into Ht end.
  eexists. repeat split; [eassumption|done|]. tup. unfold bcs_decode_params. apply reads_run.
  repeat apply reads_pair; [by apply reads_bytes..| |by apply reads_bytes].
  by apply reads_take_n.
Qed.
