(** What is read fits what would be written. *)
From Verif Require Import Base BaseLemmas Text TextLemmas StdModel RouterTypes RegistryTypes OperatorsModel MultisigTypes
  RewardsModel RegistryModel RouterModel NexusModel ProverModel EventsModel JsonModel JsonProofs WireModel WireSpec2 WireProofs10.

(** ** numbers *)
Lemma dec_go_acc f : forall n acc, dec_go f n acc = dec_go f n "" +:+ acc.
Proof.
  induction f as [|f IH]; intros n acc; [reflexivity|]. cbn [dec_go]. destruct (n <? 10); [reflexivity|].
  rewrite IH. rewrite (IH _ (String _ "")). rewrite app_assoc_str. reflexivity.
Qed.
Lemma dec_go_fuel f : forall f' n acc, n < 2 ^ N.of_nat f -> n < 2 ^ N.of_nat f' -> f <> O -> f' <> O -> dec_go f n acc = dec_go f' n acc.
Proof.
  induction f as [|f IH]; intros f' n acc H H' Hf Hf'; [done|]. destruct f' as [|f']; [done|]. cbn [dec_go].
  destruct (n <? 10) eqn:E; [reflexivity|]. rewrite Nat2N.inj_succ, N.pow_succ_r' in H, H'.
  assert (n / 10 < 2 ^ N.of_nat f) by (pose proof (N.div_mod n 10 ltac:(lia)); pose proof (N.mod_lt n 10 ltac:(lia)); lia).
  assert (n / 10 < 2 ^ N.of_nat f') by (pose proof (N.div_mod n 10 ltac:(lia)); pose proof (N.mod_lt n 10 ltac:(lia)); lia).
  assert (1 <= n / 10) by (apply N.div_le_lower_bound; lia).
  apply IH; [done|done| |]; intros ->; cbn in *; lia.
Qed.
Lemma dec_step a d : 0 < a -> d < 10 -> dec (a * 10 + d) = dec a +:+ String (digit d) "".
Proof.
  intros Ha Hd. unfold dec at 1.
  pose proof (dec_fuel (a * 10 + d)) as HF. remember (N.to_nat (N.size (a * 10 + d))) as F eqn:HFe. clear HFe. cbn [dec_go].
  assert ((a * 10 + d <? 10) = false) as -> by lia.
  assert ((a * 10 + d) mod 10 = d) as ->.
  { rewrite N.add_comm, N.mod_add by lia. apply N.mod_small. done. }
  assert ((a * 10 + d) / 10 = a) as ->.
  { rewrite N.add_comm, N.div_add by lia. rewrite N.div_small by done. lia. }
  rewrite dec_go_acc. f_equal. unfold dec.
  rewrite Nat2N.inj_succ, N.pow_succ_r' in HF.
  apply dec_go_fuel; [lia|apply dec_fuel| |lia]. intros ->. cbn in HF. lia.
Qed.
Lemma undigit_inv c d : undigit c = Some d -> d < 10 /\ c = digit d.
Proof.
  unfold undigit, digit. destruct ((48 <=? N_of_ascii c) && (N_of_ascii c <=? 57)) eqn:E; [|done]. intros [= <-].
  split; [lia|]. replace (48 + (N_of_ascii c - 48)) with (N_of_ascii c) by lia. symmetry. apply ascii_N_embedding.
Qed.
Lemma undec_pos s : forall a n, 0 < a -> undec s a = Some n -> dec n = dec a +:+ s.
Proof.
  induction s as [|c s IH]; intros a n Ha H.
  - cbn in H. injection H as <-. by rewrite app_nil_str.
  - cbn [undec] in H. destruct (undigit c) as [d|] eqn:Ec; [|done]. apply undigit_inv in Ec as [Hd ->].
    apply IH in H; [|lia]. rewrite H, dec_step, app_assoc_str by done. reflexivity.
Qed.
Lemma dec_small d : d < 10 -> dec d = String (digit d) "".
Proof.
  intros Hd. unfold dec. cbn [dec_go]. assert ((d <? 10) = true) as -> by lia. rewrite N.mod_small by done. reflexivity.
Qed.
Lemma undec_zero s n : undec s 0 = Some n -> s <> "" -> exists z, s = zeros z +:+ dec n.
Proof.
  induction s as [|c s IH]; intros H Hs; [done|]. cbn [undec] in H. destruct (undigit c) as [d|] eqn:Ec; [|done].
  apply undigit_inv in Ec as [Hd ->]. rewrite N.mul_0_l, N.add_0_l in H.
  destruct (N.eq_dec d 0) as [->|Hd0].
  - destruct s as [|c' s].
    + cbn in H. injection H as <-. exists O. reflexivity.
    + destruct (IH H) as [z Hz]; [done|]. exists (S z). cbn [zeros]. change (digit 0) with "0"%char. rewrite Hz. reflexivity.
  - exists O. apply undec_pos in H; [|lia]. rewrite H, dec_small by done. reflexivity.
Qed.
Lemma parse_respelled b s n : parse_uint b s = Some n -> respelled s (dec n).
Proof.
  unfold parse_uint. intros H. right. right. exists n.
  set (body := match s with String c s' => if Ascii.eqb c "+" then s' else s | "" => s end) in H.
  destruct (is_empty body) eqn:E; [done|]. destruct (undec body 0) as [m|] eqn:Em; [|done].
  destruct (m <? b); [|done]. injection H as ->. destruct (undec_zero body n Em) as [z Hz]; [by intros ->|].
  exists z. split; [reflexivity|]. unfold body in Hz. destruct s as [|c s]; [by left|].
  destruct (Ascii.eqb c "+") eqn:Ec; [|by left]. apply Ascii.eqb_eq in Ec. subst c. right. rewrite Hz. reflexivity.
Qed.

(** ** hex *)
Lemma hex_lower c x : unhex_digit c = Some x -> hex_digit x = lower_ascii c /\ x < 16.
Proof. destruct c as [[] [] [] [] [] [] [] []]; vm_compute; intros H; inversion H; split; reflexivity. Qed.
Lemma hex_respelled s : forall b, of_hex s = Some b -> lower s = to_hex b.
Proof.
  assert (forall n s, (String.length s <= n)%nat -> forall b, of_hex s = Some b -> lower s = to_hex b) as G;
    [|intros b; by apply (G (String.length s))].
  clear s. induction n as [|n IH]; intros s Hn b H.
  - destruct s; [|cbn in Hn; lia]. cbn in H. by injection H as <-.
  - destruct s as [|a [|a' s]]; cbn [of_hex] in H; [by injection H as <-|done|].
    destruct (unhex_digit a) as [x|] eqn:E1; [|done]. destruct (unhex_digit a') as [y|] eqn:E2; [|done].
    destruct (of_hex s) as [r|] eqn:E3; [|done].
    assert (b = String (ascii_of_N (16 * x + y)) r) as -> by congruence. clear H. apply hex_lower in E1 as [E1 Hx], E2 as [E2 Hy].
    assert (exists z, z = 16 * x + y) as [z Hz] by eauto. rewrite <- Hz.
    assert (z / 16 = x) as Hdiv by (symmetry; apply (N.div_unique _ 16 x y); lia).
    assert (z mod 16 = y) as Hmod by (symmetry; apply (N.mod_unique _ 16 x y); lia).
    change (lower (String a (String a' s))) with (String (lower_ascii a) (String (lower_ascii a') (lower s))).
    change (to_hex (String (ascii_of_N z) r)) with (String (hex_digit (N_of_ascii (ascii_of_N z) / 16)) (String (hex_digit (N_of_ascii (ascii_of_N z) mod 16)) (to_hex r))).
    rewrite N_ascii_embedding by lia. rewrite Hdiv, Hmod.
    rewrite E1, E2, (IH s) with (b := r); [reflexivity| |done]. cbn in Hn. lia.
Qed.

(** ** decoders *)
Definition dfits {A} (d : jval -> option A) (e : A -> jval) : Prop := forall v a, d v = Some a -> fits v (e a).
Lemma str_fits : dfits d_str JStr. Proof. intros [] a H; try done. cbn in H. injection H as ->. constructor. Qed.
Lemma num_fits b : dfits (d_num b) JNum.
Proof. intros [] a H; try done. cbn in H. destruct (n <? b); [|done]. injection H as ->. constructor. Qed.
Ltac obind H := lazymatch type of H with mbind _ ?x = Some _ => let E := fresh "E" in destruct x eqn:E; [cbn [mbind option_bind] in H|discriminate H] end.
Lemma str_inv' v s : d_str v = Some s -> v = JStr s.
Proof. destruct v; try done. cbn. congruence. Qed.
Lemma uint_fits b : dfits (d_uint b) e_uint.
Proof. intros v a H. unfold d_uint in H. obind H. apply str_inv' in E as ->. apply fits_string. by eapply parse_respelled. Qed.
Lemma hex_fits : dfits d_hex e_hex.
Proof. intros v a H. unfold d_hex in H. obind H. apply str_inv' in E as ->. apply fits_string. right. left. by apply hex_respelled. Qed.
Lemma hash_fits : dfits d_hash32 e_hex.
Proof. intros v a H. unfold d_hash32 in H. obind H. destruct (_ =? _)%nat; [|done]. injection H as ->. by apply hex_fits. Qed.
Lemma nonempty_fits : dfits d_nonempty JStr.
Proof.
  intros v a H. unfold d_nonempty in H. obind H. apply str_inv' in E as ->. unfold nonempty_string_of in H.
  destruct (is_empty s); [done|]. injection H as ->. constructor.
Qed.
Lemma chain_fits : dfits d_chain JStr.
Proof.
  intros v a H. unfold d_chain in H. obind H. apply str_inv' in E as ->. unfold chain_name_of in H.
  destruct (_ || _); [done|]. injection H as <-. apply fits_string. right. by left.
Qed.
Lemma nonempty_u64_fits : dfits d_nonempty_u64 e_uint.
Proof.
  intros v a H. unfold d_nonempty_u64 in H. obind H. unfold nonempty_u64 in H. destruct (n =? 0); [done|]. injection H as ->. by eapply uint_fits.
Qed.
Lemma nonempty_u128_fits : dfits d_nonempty_u128 e_uint. Proof. apply uint_fits. Qed.
Lemma vote_fits : dfits d_vote e_vote.
Proof.
  intros v a H. unfold d_vote in H. obind H. apply str_inv' in E as ->.
  repeat match type of H with (if String.eqb ?x ?y then _ else _) = _ =>
    let E := fresh in destruct (String.eqb x y) eqn:E; [apply String.eqb_eq in E; subst; injection H as <-; constructor|] end. done.
Qed.
Lemma direction_fits : dfits d_direction e_direction.
Proof.
  intros v a H. unfold d_direction in H. obind H. apply str_inv' in E as ->.
  repeat match type of H with (if String.eqb ?x ?y then _ else _) = _ =>
    let E := fresh in destruct (String.eqb x y) eqn:E; [apply String.eqb_eq in E; subst; injection H as <-; constructor|] end. done.
Qed.
Lemma all_fits {A} (d : jval -> option A) e l r : dfits d e -> d_all d l = Some r -> Forall2 fits l (e <$> r).
Proof.
  intros Hd. revert r. induction l as [|v l IH]; intros r H; cbn in H; [injection H as <-; constructor|].
  destruct (d v) as [a|] eqn:Ea; [|done]. cbn in H. destruct (d_all d l) as [q|]; [|done]. injection H as <-.
  cbn. constructor; [by apply Hd|]. by apply IH.
Qed.
Lemma vec_fits {A} (d : jval -> option A) e : dfits d e -> dfits (d_vec d) (e_list e).
Proof. intros Hd [] a H; try done. apply fits_array. by eapply all_fits. Qed.
Lemma pair_fits {A B} (d1 : jval -> option A) (d2 : jval -> option B) e1 e2 :
  dfits d1 e1 -> dfits d2 e2 -> dfits (d_pair d1 d2) (fun p => JArr [e1 p.1; e2 p.2]).
Proof.
  intros H1 H2 v [x y] H. destruct v as [| | | | |l|]; try done. destruct l as [|a [|b [|]]]; try done. cbn in H.
  destruct (d1 a) eqn:Ea; [|done]. cbn in H. destruct (d2 b) eqn:Eb; [|done]. injection H as <- <-.
  apply fits_array. repeat constructor; [by apply H1|by apply H2].
Qed.
Lemma weights_fits : dfits (d_vec (d_pair d_hex (d_uint U256))) (e_list (fun p => JArr [e_hex p.1; e_uint p.2])).
Proof. apply vec_fits, pair_fits; [apply hex_fits|apply uint_fits]. Qed.
Lemma threshold_fits : dfits d_threshold e_threshold.
Proof.
  intros v a H. unfold d_threshold in H. obind H. destruct p as [x y]. cbn [fst snd] in H.
  destruct (threshold_try_from x y) as [t| |] eqn:Et; try done. injection H as ->.
  apply (pair_fits _ _ e_uint e_uint (uint_fits _) (uint_fits _)) in E. cbn [fst snd] in E.
  assert (e_threshold a = JArr [e_uint x; e_uint y]) as ->; [|done].
  unfold threshold_try_from, nonempty_u64 in Et.
  destruct (x =? 0); [discriminate Et|]. destruct (y =? 0); [discriminate Et|]. cbn [rbind] in Et.
  destruct (y <? x); [discriminate Et|].
  injection Et as <-. reflexivity.
Qed.
Lemma opt_fits {A} (d : jval -> option A) e : dfits d e -> dfits (d_opt d) (e_opt e).
Proof.
  intros Hd v a H. destruct v; cbn in H; try (injection H as <-; constructor);
  match type of H with Some <$> ?x = _ => destruct x eqn:E; [|discriminate H] end; cbn in H; injection H as <-; by apply Hd.
Qed.

(** ** structures *)
Lemma fld_fits {A B} l name (d : jval -> option A) e (k : A -> option B) b :
  dfits d e -> fld l name d k = Some b -> exists v a, assoc name l = Some v /\ fits v (e a) /\ k a = Some b.
Proof.
  intros Hd H. unfold fld in H. destruct (assoc name l) as [v|]; [|done]. cbn in H. destruct (d v) as [a|] eqn:E; [|done]. cbn in H.
  exists v, a. split; [done|]. split; [by apply Hd|done].
Qed.
Lemma fld_opt_fits {A B} l name (d : jval -> option A) e (k : option A -> option B) b :
  dfits d e -> fld_opt l name d k = Some b ->
  exists a, k a = Some b /\ (match assoc name l with Some v => fits v (e_opt e a) | None => e_opt e a = JNull end).
Proof.
  intros Hd H. unfold fld_opt in H. destruct (assoc name l) as [v|].
  - destruct (d_opt d v) as [a|] eqn:E; [|done]. cbn in H. exists a. split; [done|]. by apply (opt_fits d e Hd).
  - exists None. by split.
Qed.
(** the members of an object and the list of what they fit *)
Definition reads (l : list (string * jval)) (l0 : list (string * jval)) : Prop :=
  Forall (fun p => match assoc p.1 l with Some v => fits v p.2 | None => p.2 = JNull end) l0.
Lemma assoc_in l k v : NoDup l.*1 -> (k, v) ∈ l -> assoc k l = Some v.
Proof.
  induction l as [|[k1 v1] l IH]; intros Hn H; [by apply elem_of_nil in H|]. cbn in Hn. apply NoDup_cons in Hn as [Hk Hn].
  cbn. apply elem_of_cons in H as [H|H].
  - injection H as <- <-. by rewrite String.eqb_refl.
  - destruct (String.eqb k k1) eqn:E; [|by apply IH]. apply String.eqb_eq in E. subst. exfalso. apply Hk.
    change k1 with (k1, v).1. by apply elem_of_list_fmap_1.
Qed.
Lemma assoc_elem l k v : assoc k l = Some v -> k ∈ l.*1.
Proof.
  induction l as [|[k1 v1] l IH]; [done|]. cbn. destruct (String.eqb k k1) eqn:E; [|right; by apply IH].
  apply String.eqb_eq in E. subst. intros _. left.
Qed.
Lemma struct_fits {A} names (f : list (string * jval) -> option A) (e : A -> list (string * jval)) :
  (forall l a, f l = Some a -> (e a).*1 = names /\ reads l (e a)) -> dfits (struct names f) (fun a => JObj (e a)).
Proof.
  intros Hf v a H. destruct v as [| | | | | |l]; try done. unfold struct in H.
  destruct (forallb _ l) eqn:Hk; [|done]. destruct (distinct l.*1) eqn:Hd; [|done]. cbn in H. apply distinct_NoDup in Hd.
  destruct (Hf _ _ H) as [Hn Hr]. apply fits_object; [done| |].
  - intros k v Hv. rewrite forallb_forall in Hk. specialize (Hk (k, v) (proj1 (elem_of_list_In _ _) Hv)). cbn in Hk.
    apply existsb_exists in Hk as (k' & Hk' & Heq). apply String.eqb_eq in Heq. subst k'. rewrite <- Hn in Hk'.
    apply elem_of_list_In, elem_of_list_fmap in Hk' as ([k' v0] & -> & Hin). exists v0. split; [done|].
    apply (proj1 (Forall_forall _ _) Hr) in Hin. cbn [fst snd] in *. rewrite (assoc_in l k' v Hd Hv) in Hin. exact Hin.
  - intros k v0 Hin. apply (proj1 (Forall_forall _ _) Hr) in Hin. cbn in Hin. destruct (assoc k l) as [v|] eqn:E; [|by left].
    right. by eapply assoc_elem.
Qed.

Create HintDb fits.
Ltac fgo H :=
  lazymatch type of H with
  | fld _ _ _ _ = Some _ =>
      eapply fld_fits in H; [|solve [eauto with fits]]; let v := fresh "v" in let a := fresh "a" in let E := fresh "Hassoc" in let F := fresh "Hfits" in
      destruct H as (v & a & E & F & H); fgo H
  | fld_opt _ _ _ _ = Some _ =>
      eapply fld_opt_fits in H; [|solve [eauto with fits]]; let a := fresh "a" in let F := fresh "Hopt" in destruct H as (a & H & F); fgo H
  | Some _ = Some _ => injection H as <-
  end.
Ltac sgo := apply struct_fits; let H := fresh in intros ? ? H; fgo H; split; [reflexivity|];
  repeat first [apply Forall_nil; exact I | apply Forall_cons; split; [cbn [fst snd]; first [assumption | match goal with E : assoc _ _ = Some _ |- _ => rewrite E; assumption end]|]].
Global Hint Resolve str_fits num_fits uint_fits hex_fits hash_fits nonempty_fits chain_fits nonempty_u64_fits nonempty_u128_fits vote_fits direction_fits
  threshold_fits vec_fits weights_fits : fits.
Lemma ccid_fits : dfits d_ccid e_ccid. Proof. unfold d_ccid, e_ccid. sgo. Qed.
Global Hint Resolve ccid_fits : fits.
Lemma message_fits : dfits d_message e_message. Proof. unfold d_message, e_message. sgo. Qed.
Lemma operators_fits : dfits d_operators e_operators. Proof. unfold d_operators, e_operators. sgo. Qed.
Lemma params_fits : dfits d_params e_params. Proof. unfold d_params, e_params. sgo. Qed.
Lemma public_key_fits : dfits d_public_key e_public_key.
Proof.
  intros v a H. unfold d_public_key in H. obind H. obind H. obind H. destruct p as [KK w]. cbn [fst snd] in *.
  assert (v = JObj [(KK, w)]) as ->.
  { unfold variant in E. destruct v as [| | | | | |l]; try done. destruct l as [|q [|]]; try done. congruence. }
  assert (a = {| pk_type := k; pk_bytes := s |}) as ->.
  { unfold public_key_try_from in H. destruct k; [destruct (_ || _)|destruct (_ =? _)%nat]; congruence. }
  assert (KK = match k with KEcdsa => "ecdsa" | KEd25519 => "ed25519" end) as ->.
  { unfold d_key_type in E0. cbn in E0. destruct (String.eqb KK "ecdsa") eqn:E2; [apply String.eqb_eq in E2; injection E0 as <-; done|].
    destruct (String.eqb KK "ed25519") eqn:E3; [apply String.eqb_eq in E3; injection E0 as <-; done|done]. }
  unfold e_public_key. cbn [pk_type pk_bytes]. apply fits_object.
  - apply NoDup_singleton.
  - intros k1 v Hk. apply elem_of_list_singleton in Hk. injection Hk as -> ->. eexists. split; [by left|]. by apply hex_fits.
  - intros k1 v0 Hk. apply elem_of_list_singleton in Hk. injection Hk as -> ->. right. left.
Qed.
Global Hint Resolve message_fits operators_fits params_fits public_key_fits : fits.

Lemma variant_obj v p : variant v = Some p -> v = JObj [p].
Proof. destruct v as [| | | | | |l]; try done. destruct l as [|q [|]]; try done. cbn. congruence. Qed.
Lemma tagged_fits k w w0 : fits w w0 -> fits (JObj [(k, w)]) (JObj [(k, w0)]).
Proof.
  intros H. apply fits_object.
  - apply NoDup_singleton.
  - intros k' v Hk. apply elem_of_list_singleton in Hk. injection Hk as -> ->. eexists. split; [by left|done].
  - intros k' v Hk. apply elem_of_list_singleton in Hk. injection Hk as -> ->. right. left.
Qed.
(** a variant's structure: what was read and what would be written *)
Lemma struct_of {A} names (f : list (string * jval) -> option A) v a : struct names f v = Some a ->
  exists l, v = JObj l /\ f l = Some a /\ NoDup l.*1 /\ forall k, k ∈ l.*1 -> k ∈ names.
Proof.
  destruct v as [| | | | | |l]; try done. unfold struct. destruct (forallb _ l) eqn:Hk; [|done]. destruct (distinct l.*1) eqn:Hd; [|done].
  cbn. intros H. exists l. split; [done|]. split; [done|]. split; [by apply distinct_NoDup|].
  intros k Hin. apply elem_of_list_fmap in Hin as ([k1 v] & -> & Hin). rewrite forallb_forall in Hk.
  specialize (Hk _ (proj1 (elem_of_list_In _ _) Hin)). apply existsb_exists in Hk as (k' & Hk' & Heq).
  apply String.eqb_eq in Heq. cbn in *. subst. by apply elem_of_list_In.
Qed.
Lemma reads_fits l l0 : NoDup l.*1 -> (forall k, k ∈ l.*1 -> k ∈ l0.*1) -> reads l l0 -> fits (JObj l) (JObj l0).
Proof.
  intros Hd Hk Hr. apply fits_object; [done| |].
  - intros k v Hv. assert (k ∈ l.*1) as Hin by (change k with (k, v).1; by apply elem_of_list_fmap_1).
    apply Hk, elem_of_list_fmap in Hin as ([k' v0] & -> & Hin). exists v0. split; [done|].
    apply (proj1 (Forall_forall _ _) Hr) in Hin. cbn [fst snd] in *. rewrite (assoc_in l k' v Hd Hv) in Hin. exact Hin.
  - intros k v0 Hin. apply (proj1 (Forall_forall _ _) Hr) in Hin. cbn in Hin. destruct (assoc k l) as [v|] eqn:E; [|by left].
    right. by eapply assoc_elem.
Qed.
Ltac vcase H :=
  let l := fresh "l" in let Hl := fresh "Hl" in let Hn := fresh "Hn" in let Hk := fresh "Hk" in
  apply struct_of in H as (l & Hl & H & Hn & Hk); cbn [snd] in Hl; subst;
  fgo H; apply tagged_fits, reads_fits; [exact Hn|exact Hk|];
  repeat first [apply Forall_nil; exact I | apply Forall_cons; split; [cbn [fst snd]; first [assumption | match goal with E : assoc _ _ = Some _ |- _ => rewrite E; assumption end]|]].
Ltac vgo H :=
  obind H; match goal with E : variant _ = Some ?p |- _ => apply variant_obj in E as ->; destruct p as [k w] end; cbn [fst snd] in H;
  repeat match type of H with (if String.eqb ?x ?s then _ else _) = _ =>
    let E := fresh "E" in destruct (String.eqb x s) eqn:E; [apply String.eqb_eq in E; subst x|clear E] end; try discriminate H.
Ltac vlist H := match type of H with _ <$> ?x = Some _ => let E := fresh "E" in destruct x eqn:E; [|discriminate H]; cbn in H; injection H as <-;
  apply tagged_fits; eapply vec_fits; [|exact E]; eauto with fits end.
Lemma vv_fits : dfits d_vv e_vv.
Proof. intros v m H. unfold d_vv in H. vgo H; vcase H. Qed.
Lemma rw_fits : dfits d_rw e_rw.
Proof. intros v m H. unfold d_rw in H. vgo H; vcase H. Qed.
Lemma ms_fits v m : d_ms v = Some m -> plain_ms m -> fits v (e_ms m).
Proof. intros H Hm. unfold d_ms in H. vgo H; [vcase H|vcase H| |vcase H..]. exfalso. apply struct_of in H as (l & _ & H & _). unfold fld in H. obind H. obind H. injection H as <-. done. Qed.
Lemma gw_fits : dfits d_gw e_gw.
Proof. intros v m H. unfold d_gw in H. vgo H; vlist H. Qed.
Lemma ag_fits : dfits d_ag e_ag.
Proof. intros v m H. unfold d_ag in H. vgo H. vcase H. Qed.
Lemma nx_fits v m : d_nx v = Some m -> plain_nx m -> fits v (e_nx m).
Proof. intros H Hm. unfold d_nx in H. vgo H; [vlist H|]. exfalso. destruct (d_vec d_nmessage w); [|discriminate H]. injection H as <-. done. Qed.
Lemma rt_fits : dfits d_rt e_rt.
Proof. intros v m H. unfold d_rt in H. vgo H; [vcase H..|vlist H]. Qed.
Lemma sr_fits : dfits d_sr e_sr.
Proof. intros v m H. unfold d_sr in H. vgo H; vcase H. Qed.
Lemma pr_fits : dfits d_pr e_pr.
Proof.
  intros v m H. destruct v as [| | | |s| |l]; try done.
  - cbn [d_pr] in H.
    repeat match type of H with (if String.eqb ?x ?y then _ else _) = _ =>
      let E := fresh in destruct (String.eqb x y) eqn:E; [apply String.eqb_eq in E; subst; injection H as <-; constructor|] end. done.
  - unfold d_pr in H. vgo H. vcase H.
Qed.
