(** Reading back what is written: base64 and UTF-8. *)
From Coq Require Import ZifyN.
From Verif Require Import Base BaseLemmas Text TextLemmas StdModel EncodingModel EventsModel JsonModel JsonSpec JsonProofs.

Ltac Zify.zify_post_hook ::= Z.to_euclidean_division_equations.

Lemma ascii_code n : n < 256 -> N_of_ascii (ascii_of_N n) = n.
Proof. apply N_ascii_embedding. Qed.

Lemma unb64_b64 n : n < 64 -> unb64_char (b64_char n) = Some n.
Proof.
  intros Hn. unfold b64_char, unb64_char.
  destruct (N.ltb_spec n 26); [|destruct (N.ltb_spec n 52); [|destruct (N.ltb_spec n 62); [|destruct (N.eqb_spec n 62) as [->|]; [reflexivity|]]]].
  - rewrite ascii_code by lia.
    rewrite (proj2 (N.leb_le 65 (65 + n))), (proj2 (N.leb_le (65 + n) 90)) by lia. cbn [andb]. f_equal. lia.
  - rewrite ascii_code by lia.
    rewrite (proj2 (N.leb_gt (71 + n) 90)) by lia. rewrite andb_false_r.
    rewrite (proj2 (N.leb_le 97 (71 + n))), (proj2 (N.leb_le (71 + n) 122)) by lia. cbn [andb]. f_equal. lia.
  - rewrite ascii_code by lia.
    rewrite (proj2 (N.leb_gt 65 (n - 4))) by lia. cbn [andb].
    rewrite (proj2 (N.leb_gt 97 (n - 4))) by lia. cbn [andb].
    rewrite (proj2 (N.leb_le 48 (n - 4))), (proj2 (N.leb_le (n - 4) 57)) by lia. cbn [andb]. f_equal. lia.
  - assert (n = 63) as -> by lia. reflexivity.
Qed.
Lemma b64_unb64 c n : unb64_char c = Some n -> n < 64 /\ b64_char n = c.
Proof.
  destruct c as [[] [] [] [] [] [] [] []]; vm_compute; intros [= <-]; split; reflexivity.
Qed.
Lemma b64_not_pad n : n < 64 -> N_of_ascii (b64_char n) =? 61 = false.
Proof.
  intros Hn. apply N.eqb_neq. intros E.
  assert (b64_char n = "="%char) as E' by by apply (f_equal ascii_of_N) in E; rewrite ascii_N_embedding in E.
  pose proof (unb64_b64 n Hn) as H. rewrite E' in H. done.
Qed.

Lemma string3_ind (P : string -> Prop) :
  P "" -> (forall a, P (String a "")) -> (forall a b, P (String a (String b ""))) ->
  (forall a b c s, P s -> P (String a (String b (String c s)))) -> forall s, P s.
Proof.
  intros H0 H1 H2 H3.
  assert (forall s, P s /\ (forall a, P (String a s)) /\ (forall a b, P (String a (String b s)))) as H.
  { induction s as [|c s (IH1 & IH2 & IH3)]; [done|]. split; [done|]. split; [done|]. intros a b. by apply H3. }
  intros s. apply H.
Qed.
Lemma string4_ind (P : string -> Prop) :
  P "" -> (forall a, P (String a "")) -> (forall a b, P (String a (String b ""))) ->
  (forall a b c, P (String a (String b (String c "")))) ->
  (forall a b c d s, P s -> P (String a (String b (String c (String d s))))) -> forall s, P s.
Proof.
  intros H0 H1 H2 H3 H4.
  assert (forall s, P s /\ (forall a, P (String a s)) /\ (forall a b, P (String a (String b s))) /\
    (forall a b c, P (String a (String b (String c s))))) as H.
  { induction s as [|c s (IH1 & IH2 & IH3 & IH4)]; [done|]. split; [done|]. split; [done|]. split; [done|].
    intros x y z. by apply H4. }
  intros s. apply H.
Qed.

Lemma of_to_base64 s : of_base64 (to_base64 s) = Some s.
Proof.
  induction s as [|a|a b|a b c s IH] using string3_ind; [done|..];
    pose proof (N_of_ascii_lt a) as Ha; try (pose proof (N_of_ascii_lt b) as Hb);
    try (pose proof (N_of_ascii_lt c) as Hc); cbn [to_base64 of_base64].
  - rewrite !unb64_b64 by lia. change (N_of_ascii "=" =? 61) with true. cbn [is_empty negb].
    rewrite (proj2 (N.eqb_eq _ 0)) by lia. do 2 f_equal.
    rewrite <- (ascii_N_embedding a) at 3. f_equal. lia.
  - rewrite !unb64_b64 by lia. change (N_of_ascii "=" =? 61) with true. cbn [is_empty negb].
    rewrite b64_not_pad by lia. rewrite (proj2 (N.eqb_eq _ 0)) by lia. f_equal.
    f_equal; [|f_equal].
    + rewrite <- (ascii_N_embedding a) at 3. f_equal. lia.
    + rewrite <- (ascii_N_embedding b) at 3. f_equal. lia.
  - rewrite !unb64_b64 by lia. rewrite b64_not_pad by lia. rewrite IH. f_equal.
    f_equal; [|f_equal; [|f_equal]].
    + rewrite <- (ascii_N_embedding a) at 3. f_equal. lia.
    + rewrite <- (ascii_N_embedding b) at 3. f_equal. lia.
    + rewrite <- (ascii_N_embedding c) at 3. f_equal. lia.
Qed.

Lemma to_of_base64 s : forall t, of_base64 s = Some t -> s = to_base64 t.
Proof.
  induction s as [|a|a b|a b c|w x y z s IH] using string4_ind; intros t; try done.
  - by intros [= <-].
  - cbn [of_base64]. destruct (unb64_char w) as [w'|] eqn:Ew; [|done]. destruct (unb64_char x) as [x'|] eqn:Ex; [|done].
    apply b64_unb64 in Ew as [Hw <-]. apply b64_unb64 in Ex as [Hx <-]. cbv zeta.
    destruct (N.eqb_spec (N_of_ascii z) 61) as [Ez|Ez].
    + assert (z = "="%char) as -> by by apply (f_equal ascii_of_N) in Ez; rewrite ascii_N_embedding in Ez.
      destruct s as [|]; [|done]. cbn [is_empty negb].
      destruct (N.eqb_spec (N_of_ascii y) 61) as [Ey|Ey].
      * assert (y = "="%char) as -> by by apply (f_equal ascii_of_N) in Ey; rewrite ascii_N_embedding in Ey.
        destruct (N.eqb_spec (x' mod 16) 0) as [E|]; [|done]. injection 1 as <-. cbn [to_base64].
        rewrite ascii_code by lia.
        replace ((w' * 4 + x' / 16) / 4) with w' by lia. replace ((w' * 4 + x' / 16) mod 4 * 16) with x' by lia. done.
      * destruct (unb64_char y) as [y'|] eqn:Ey'; [|done]. apply b64_unb64 in Ey' as [Hy <-].
        destruct (N.eqb_spec (y' mod 4) 0) as [E|]; [|done]. injection 1 as <-. cbn [to_base64].
        rewrite !ascii_code by lia.
        replace ((w' * 4 + x' / 16) / 4) with w' by lia.
        replace ((w' * 4 + x' / 16) mod 4 * 16 + (x' mod 16 * 16 + y' / 4) / 16) with x' by lia.
        replace ((x' mod 16 * 16 + y' / 4) mod 16 * 4) with y' by lia. done.
    + destruct (unb64_char y) as [y'|] eqn:Ey'; [|done]. apply b64_unb64 in Ey' as [Hy <-].
      destruct (unb64_char z) as [z'|] eqn:Ez'; [|done]. apply b64_unb64 in Ez' as [Hz <-].
      destruct (of_base64 s) as [t'|]; [|done]. injection 1 as <-. rewrite (IH t' eq_refl). cbn [to_base64].
      rewrite !ascii_code by lia.
      replace ((w' * 4 + x' / 16) / 4) with w' by lia.
      replace ((w' * 4 + x' / 16) mod 4 * 16 + (x' mod 16 * 16 + y' / 4) / 16) with x' by lia.
      replace ((x' mod 16 * 16 + y' / 4) mod 16 * 4 + (y' mod 4 * 64 + z') / 64) with y' by lia.
      replace ((y' mod 4 * 64 + z') mod 64) with z' by lia. done.
Qed.

Lemma base64_exact s t : of_base64 s = Some t <-> s = to_base64 t.
Proof. split; [apply to_of_base64|]. intros ->. apply of_to_base64. Qed.

(** ** UTF-8 *)

Lemma utf8_strong (P : string -> Prop) :
  (forall s, (forall t, (String.length t < String.length s)%nat -> P t) -> P s) -> forall s, P s.
Proof.
  intros H s. remember (String.length s) as n eqn:E. revert s E.
  induction n as [n IH] using lt_wf_ind. intros s ->. apply H. intros t Ht. by eapply IH.
Qed.

Lemma utf8_app a b : utf8 a = true -> utf8 b = true -> utf8 (a +:+ b) = true.
Proof.
  intros Ha Hb. revert Ha. induction a as [a IH] using utf8_strong. destruct a as [|c a]; [done|].
  cbn [utf8 append]. destruct (N_of_ascii c <? 128).
  { intros Ha. apply IH; [cbn; lia|done]. }
  destruct (between 194 223 c).
  { destruct a as [|d a]; [done|]. cbn [append]. intros [-> H]%andb_true_iff. apply IH; [cbn; lia|done]. }
  destruct (between 224 239 c).
  { destruct a as [|d [|e a]]; [done|done|]. cbn [append].
    intros [[-> ->]%andb_true_iff H]%andb_true_iff. apply IH; [cbn; lia|done]. }
  destruct (between 240 244 c); [|done].
  destruct a as [|d [|e [|f a]]]; [done|done|done|]. cbn [append].
  intros [[[-> ->]%andb_true_iff ->]%andb_true_iff H]%andb_true_iff. apply IH; [cbn; lia|done].
Qed.

Lemma utf8_ascii s : all_chars (fun c => N_of_ascii c <? 128) s = true -> utf8 s = true.
Proof. induction s as [|c s IH]; [done|]. cbn. intros [-> H]%andb_true_iff. auto. Qed.
Lemma escape_ascii c : N_of_ascii c <? 128 = true -> all_chars (fun c => N_of_ascii c <? 128) (escape c) = true.
Proof. destruct c as [[] [] [] [] [] [] [] []]; vm_compute; done. Qed.
Lemma escape_other c : 128 <= N_of_ascii c -> escape c = String c "".
Proof.
  intros H. unfold escape. cbv zeta.
  repeat match goal with |- context [N_of_ascii c =? ?n] => rewrite (proj2 (N.eqb_neq (N_of_ascii c) n)) by lia end.
  rewrite (proj2 (N.ltb_ge _ _)) by lia. done.
Qed.
Lemma cont_range c : cont c = true -> 128 <= N_of_ascii c.
Proof. intros [H _]%andb_true_iff. by apply N.leb_le in H. Qed.
Lemma between_range l h c : between l h c = true -> l <= N_of_ascii c.
Proof. intros [H _]%andb_true_iff. by apply N.leb_le in H. Qed.

Lemma utf8_escaped s : utf8 s = true -> utf8 (escaped s) = true.
Proof.
  induction s as [s IH] using utf8_strong. destruct s as [|c s]; [done|].
  cbn [utf8 escaped]. destruct (N_of_ascii c <? 128) eqn:Hc.
  { intros Ha. apply utf8_app; [by apply utf8_ascii, escape_ascii|]. apply IH; [cbn; lia|done]. }
  apply N.ltb_ge in Hc as Hc'. rewrite (escape_other c) by done. cbn [append utf8]. rewrite Hc.
  destruct (between 194 223 c).
  { destruct s as [|d s]; [done|]. intros [Hd H]%andb_true_iff. cbn [escaped].
    rewrite (escape_other d) by by apply cont_range. cbn [append]. rewrite Hd. apply IH; [cbn; lia|done]. }
  destruct (between 224 239 c).
  { destruct s as [|d [|e s]]; [done|done|]. intros [[Hd He]%andb_true_iff H]%andb_true_iff. cbn [escaped].
    assert (128 <= N_of_ascii d).
    { destruct (N_of_ascii c =? 224); [apply between_range in Hd; lia|].
      destruct (N_of_ascii c =? 237); [apply between_range in Hd; lia|by apply cont_range]. }
    rewrite (escape_other d) by done. rewrite (escape_other e) by by apply cont_range.
    cbn [append]. rewrite Hd, He. apply IH; [cbn; lia|done]. }
  destruct (between 240 244 c); [|done].
  destruct s as [|d [|e [|f s]]]; [done|done|done|].
  intros [[[Hd He]%andb_true_iff Hf]%andb_true_iff H]%andb_true_iff. cbn [escaped].
  assert (128 <= N_of_ascii d).
  { destruct (N_of_ascii c =? 240); [apply between_range in Hd; lia|].
    destruct (N_of_ascii c =? 244); [apply between_range in Hd; lia|by apply cont_range]. }
  rewrite (escape_other d) by done. rewrite (escape_other e), (escape_other f) by by apply cont_range.
  cbn [append]. rewrite Hd, He, Hf. apply IH; [cbn; lia|done].
Qed.

Lemma utf8_quoted s : utf8 s = true -> utf8 (quoted s) = true.
Proof. intros H. unfold quoted. cbn. apply utf8_app; [by apply utf8_escaped|done]. Qed.
Lemma all_chars_impl (P Q : ascii -> bool) s :
  (forall c, P c = true -> Q c = true) -> all_chars P s = true -> all_chars Q s = true.
Proof. intros H. induction s as [|c s IH]; [done|]. cbn. intros [Hc Hs]%andb_true_iff. by rewrite (H c Hc), IH. Qed.
Lemma utf8_dec n : utf8 (dec n) = true.
Proof.
  apply utf8_ascii. eapply all_chars_impl; [|apply dec_digits].
  intros c. destruct c as [[] [] [] [] [] [] [] []]; vm_compute; done.
Qed.
Lemma utf8_hex s : utf8 (to_hex s) = true.
Proof.
  apply utf8_ascii. eapply all_chars_impl; [|apply to_hex_chars].
  intros c. destruct c as [[] [] [] [] [] [] [] []]; vm_compute; done.
Qed.
Lemma utf8_join l : Forall (fun s => utf8 s = true) l -> utf8 (join "," l) = true.
Proof.
  induction l as [|a l IH]; [done|]. intros [Ha Hl]%Forall_cons. destruct l as [|b l]; [done|].
  rewrite join_cons. apply utf8_app; [done|]. apply (utf8_app ","); [done|]. by apply IH.
Qed.
Section Induction.
  Context (P : jval -> Prop).
  Context (Hnull : P JNull) (Hbool : forall b, P (JBool b)) (Hnum : forall n, P (JNum n)) (Hother : P JOtherNum)
    (Hstr : forall s, P (JStr s)) (Harr : forall l, Forall P l -> P (JArr l))
    (Hobj : forall l, Forall (fun p => P p.2) l -> P (JObj l)).
  Fixpoint jval_nested_ind (v : jval) : P v :=
    match v with
    | JNull => Hnull
    | JBool b => Hbool b
    | JNum n => Hnum n
    | JOtherNum => Hother
    | JStr s => Hstr s
    | JArr l => Harr l ((fix go l := match l return Forall P l with
                                     | [] => @List.Forall_nil _ P
                                     | x :: l' => @List.Forall_cons _ P x l' (jval_nested_ind x) (go l')
                                     end) l)
    | JObj l => Hobj l ((fix go l := match l return Forall (fun p => P p.2) l with
                                     | [] => @List.Forall_nil _ (fun p => P p.2)
                                     | x :: l' => @List.Forall_cons _ (fun p => P p.2) x l' (jval_nested_ind (snd x)) (go l')
                                     end) l)
    end.
End Induction.
Lemma utf8_to_json v : utf8_value v -> utf8 (to_json v) = true.
Proof.
  induction v as [|b|n| |s|l IH|l IH] using jval_nested_ind; intros Hv; inversion Hv as [| | |? Hs|? Hl|? Hl]; subst; try done.
  - by destruct b.
  - apply utf8_dec.
  - by apply utf8_quoted.
  - cbn [to_json append utf8]. change (N_of_ascii "[" <? 128) with true. cbn iota. apply utf8_app; [|done].
    apply utf8_join. change (List.map to_json l) with (to_json <$> l). rewrite Forall_fmap.
    rewrite Forall_forall in IH, Hl |- *. intros x Hx. by apply IH, Hl.
  - cbn [to_json append utf8]. change (N_of_ascii "{" <? 128) with true. cbn iota. apply utf8_app; [|done].
    apply utf8_join. change (List.map (fun p : string * jval => quoted p.1 +:+ ":" +:+ to_json p.2) l) with (member <$> l). rewrite Forall_fmap.
    rewrite Forall_forall in IH, Hl |- *. intros x Hx. cbn. unfold member.
    destruct (Hl x Hx) as [H1 H2]. apply utf8_app; [by apply utf8_quoted|]. apply (utf8_app ":"); [done|]. by apply IH.
Qed.
Lemma base64_to_utf8_served s : utf8 s = true -> base64_to_utf8 (to_base64 s) = Some s.
Proof. intros H. unfold base64_to_utf8. by rewrite of_to_base64, H. Qed.
Lemma base64_to_utf8_exact s t : base64_to_utf8 s = Some t <-> s = to_base64 t /\ utf8 t = true.
Proof.
  unfold base64_to_utf8. split.
  - destruct (of_base64 s) as [u|] eqn:E; [|done]. apply to_of_base64 in E as ->.
    destruct (utf8 u) eqn:Eu; [|done]. by intros [= <-].
  - intros [-> H]. by rewrite of_to_base64, H.
Qed.
