(** What is read from a text is read in the same way from any longer text that
    begins with it. *)
From Verif Require Import Base BaseLemmas Text TextLemmas StdModel EventsModel JsonModel JsonSpec JsonProofs WireModel WireProofs.

Lemma skip_ws_ext s x c r : skip_ws s = String c r -> skip_ws (s +:+ x) = String c (r +:+ x).
Proof.
  induction s as [|a s IH]; [done|]. cbn [skip_ws append]. destruct (is_ws a); [exact IH|]. by intros [= <- <-].
Qed.
Lemma after_ext w s x r : after w s = Some r -> after w (s +:+ x) = Some (r +:+ x).
Proof.
  revert s. induction w as [|a w IH]; intros s; cbn [after]; [by intros [= <-]|].
  destruct s as [|b s]; [done|]. cbn [append]. destruct (Ascii.eqb a b); [apply IH|done].
Qed.
Lemma prepend_ext t (o o' : option (string * string)) b r x :
  prepend t o = Some (b, r) -> (forall b r, o = Some (b, r) -> o' = Some (b, r +:+ x)) -> prepend t o' = Some (b, r +:+ x).
Proof.
  unfold prepend. destruct o as [[b0 r0]|]; [|done]. cbn. intros [= <- <-] H. by rewrite (H b0 r0).
Qed.
Lemma str_body_ext x : forall n s b r, (String.length s <= n)%nat -> str_body s = Some (b, r) ->
  str_body (s +:+ x) = Some (b, r +:+ x).
Proof.
  induction n as [|n IH]; intros s b r Hn; destruct s as [|c s]; try done; cbn [String.length] in Hn; [lia|].
  cbn [str_body append]. destruct (code c =? 34); [by intros [= <- <-]|].
  destruct (code c =? 92).
  - destruct s as [|e s]; [done|]. cbn [append]. cbn [String.length] in Hn. destruct (code e =? 117).
    + destruct s as [|x1 [|x2 [|x3 [|x4 s]]]]; try done. cbn [append]. cbn [String.length] in Hn.
      destruct (hex4 x1 x2 x3 x4) as [m|]; [|done]. destruct ((56320 <=? m) && (m <=? 57343)); [done|].
      destruct ((55296 <=? m) && (m <=? 56319)).
      * destruct s as [|b1 [|u [|y1 [|y2 [|y3 [|y4 s]]]]]]; try done. cbn [append]. cbn [String.length] in Hn.
        destruct ((code b1 =? 92) && (code u =? 117)); [|done]. destruct (hex4 y1 y2 y3 y4) as [k|]; [|done].
        destruct ((56320 <=? k) && (k <=? 57343)); [|done]. intros H. eapply prepend_ext; [exact H|].
        intros b0 r0. apply IH. lia.
      * intros H. eapply prepend_ext; [exact H|]. intros b0 r0. apply IH. lia.
    + destruct (unescape e); [|done]. intros H. eapply prepend_ext; [exact H|]. intros b0 r0. apply IH. lia.
  - destruct (code c <? 32); [done|]. intros H. eapply prepend_ext; [exact H|]. intros b0 r0. apply IH. lia.
Qed.
Lemma digits_ext x s d c r : digits s = (d, String c r) -> digits (s +:+ x) = (d, String c (r +:+ x)).
Proof.
  revert d. induction s as [|a s IH]; intros d; [done|]. cbn [digits append]. destruct (undigit a).
  - destruct (digits s) as [d0 t0] eqn:E. intros [= <- ->]. by rewrite (IH d0 eq_refl).
  - by intros [= <- <- <-].
Qed.
Lemma fraction_ext x s f c r : fraction s = Some (f, String c r) -> fraction (s +:+ x) = Some (f, String c (r +:+ x)).
Proof.
  destruct s as [|a s]; [done|]. cbn [fraction append]. destruct (code a =? 46); [|by intros [= <- <- <-]].
  destruct (digits s) as [d t] eqn:E. destruct d as [|d0 d]; [done|]. intros [= <- ->].
  by rewrite (digits_ext x s _ _ _ E).
Qed.
Lemma exponent_ext x s f c r : exponent s = Some (f, String c r) -> exponent (s +:+ x) = Some (f, String c (r +:+ x)).
Proof.
  destruct s as [|a s]; [done|]. cbn [exponent append]. destruct ((code a =? 101) || (code a =? 69)); [|by intros [= <- <- <-]].
  destruct s as [|b s]; [done|]. cbn [append]. destruct ((code b =? 43) || (code b =? 45)).
  - destruct (digits s) as [d t] eqn:E. destruct d as [|d0 d]; [done|]. intros [= <- ->]. by rewrite (digits_ext x s _ _ _ E).
  - destruct (digits (String b s)) as [d t] eqn:E. destruct d as [|d0 d]; [done|]. intros [= <- ->].
    pose proof (digits_ext x (String b s) _ _ _ E) as E'. cbn [append] in E'. by rewrite E'.
Qed.
Lemma number_ext fin x neg s v c r : number fin neg s = Some (v, String c r) ->
  number fin neg (s +:+ x) = Some (v, String c (r +:+ x)).
Proof.
  unfold number. destruct (digits s) as [d t] eqn:E. destruct d as [|d0 d]; [done|].
  destruct ((code d0 =? 48) && negb (is_empty d)) eqn:E0; [done|].
  destruct (fraction t) as [[f t1]|] eqn:E1; [|done]. destruct (exponent t1) as [[g t2]|] eqn:E2; [|done]. intros H.
  assert (t2 = String c r) as ->. { cbv zeta in H. repeat case_match; congruence. }
  destruct t1 as [|c1 t1]; [done|]. destruct t as [|c0 t]; [done|].
  rewrite (digits_ext x s _ _ _ E), E0. change (String c0 (t +:+ x)) with (String c0 t +:+ x).
  rewrite (fraction_ext x _ _ _ _ E1). change (String c1 (t1 +:+ x)) with (String c1 t1 +:+ x).
  rewrite (exponent_ext x _ _ _ _ E2). cbv zeta in H |- *. repeat case_match; congruence.
Qed.

(** a value followed by something, or one that shows its end itself *)
Definition closed (v : jval) : Prop := match v with JNum _ | JOtherNum => False | _ => True end.
Definition extends (value : string -> option (jval * string)) : Prop := forall s x v r,
  value s = Some (v, r) -> (r <> "" \/ closed v) -> value (s +:+ x) = Some (v, r +:+ x).

Lemma elements_ext value x : extends value -> forall n m s l r, (n <= m)%nat ->
  elements value n s = Some (l, r) -> elements value m (s +:+ x) = Some (l, r +:+ x).
Proof.
  intros Hv. induction n as [|n IH]; intros m s l r Hm; [done|]. destruct m as [|m]; [lia|]. cbn [elements].
  destruct (value s) as [[v t]|] eqn:E; [|done]. destruct (skip_ws t) as [|c t'] eqn:Et; [done|].
  rewrite (Hv s x v t E) by (left; intros ->; done). rewrite (skip_ws_ext _ x _ _ Et).
  destruct (code c =? 44).
  - destruct (elements value n t') as [[l0 r0]|] eqn:E0; [|done]. cbn. intros [= <- <-]. by rewrite (IH m t' l0 r0) by (done || lia).
  - destruct (code c =? 93); [|done]. by intros [= <- <-].
Qed.
Lemma members_ext value x : extends value -> forall n m s l r, (n <= m)%nat ->
  members value n s = Some (l, r) -> members value m (s +:+ x) = Some (l, r +:+ x).
Proof.
  intros Hv. induction n as [|n IH]; intros m s l r Hm; [done|]. destruct m as [|m]; [lia|]. cbn [members].
  destruct (skip_ws s) as [|q t] eqn:Es; [done|]. rewrite (skip_ws_ext _ x _ _ Es).
  destruct (code q =? 34); [|done]. destruct (str_body t) as [[k t1]|] eqn:Eb; [|done].
  rewrite (str_body_ext x _ t k t1 (le_n _) Eb). destruct (skip_ws t1) as [|c t2] eqn:E1; [done|].
  rewrite (skip_ws_ext _ x _ _ E1). destruct (code c =? 58); [|done].
  destruct (value t2) as [[v t3]|] eqn:E; [|done]. destruct (skip_ws t3) as [|e t4] eqn:Et; [done|].
  rewrite (Hv t2 x v t3 E) by (left; intros ->; done). rewrite (skip_ws_ext _ x _ _ Et).
  destruct (code e =? 44).
  - destruct (members value n t4) as [[l0 r0]|] eqn:E0; [|done]. cbn. intros [= <- <-]. by rewrite (IH m t4 l0 r0) by (done || lia).
  - destruct (code e =? 125); [|done]. by intros [= <- <-].
Qed.
Lemma app_length_le (s x : string) : (String.length s <= String.length (s +:+ x))%nat.
Proof. rewrite app_length_str. lia. Qed.
Lemma wvalue_ext : forall d, extends (wvalue d).
Proof.
  induction d as [|d IH]; intros s x v r; [done|]. cbn [wvalue]. destruct (skip_ws s) as [|c t] eqn:Es; [done|].
  rewrite (skip_ws_ext _ x _ _ Es). cbv zeta. intros H Hr.
  repeat match type of H with
  | (if ?b then _ else _) = _ => destruct b
  end; try done.
  1-3: match type of H with _ <$> after ?w ?u = _ => destruct (after w u) as [t'|] eqn:E; [|done] end;
    cbn in H; injection H as <- <-; by rewrite (after_ext _ _ x _ E).
  - destruct (str_body t) as [[b t']|] eqn:E; [|done]. cbn in H. injection H as <- <-.
    by rewrite (str_body_ext x _ t b t' (le_n _) E).
  - assert (~ closed v). { unfold number in H. cbv zeta in H. repeat case_match; simplify_eq; intros []. }
    destruct r as [|c' r]; [exfalso; tauto|]. by apply number_ext.
  - assert (~ closed v). { unfold number in H. cbv zeta in H. repeat case_match; simplify_eq; intros []. }
    destruct r as [|c' r]; [exfalso; tauto|]. change (String c (t +:+ x)) with (String c t +:+ x). by apply number_ext.
  - destruct (skip_ws t) as [|e t'] eqn:Et; [done|]. rewrite (skip_ws_ext _ x _ _ Et).
    destruct (code e =? 93); [by injection H as <- <-|].
    destruct (elements (wvalue (S d)) (String.length t) t) as [[l r0]|] eqn:E; [|done]. cbn in H. injection H as <- <-.
    by rewrite (elements_ext _ x IH _ _ t l r0 (app_length_le t x) E).
  - destruct (skip_ws t) as [|e t'] eqn:Et; [done|]. rewrite (skip_ws_ext _ x _ _ Et).
    destruct (code e =? 125); [by injection H as <- <-|].
    destruct (members (wvalue (S d)) (String.length t) t) as [[l r0]|] eqn:E; [|done]. cbn in H. injection H as <- <-.
    by rewrite (members_ext _ x IH _ _ t l r0 (app_length_le t x) E).
Qed.

Lemma object_closed d p w r : wvalue (S d) (String "{" p) = Some (w, r) -> closed w.
Proof.
  cbn [wvalue]. rewrite skip_ws_head by done. cbv zeta.
  change (code "{") with 123. cbn [N.eqb Pos.eqb N.leb N.compare Pos.compare Pos.compare_cont andb].
  destruct d as [|d]; [done|]. destruct (skip_ws p) as [|e t]; [done|]. destruct (code e =? 125); [by intros [= <- <-]|].
  destruct (members (wvalue (S d)) (String.length p) p) as [[l0 r0]|]; [|done]. cbn. by intros [= <- <-].
Qed.
Lemma prefix_rest d l p q w r : readable d (JObj l) -> to_json (JObj l) = p +:+ q -> wvalue (S d) p = Some (w, r) -> q = "".
Proof.
  intros Hl Ht E.
  assert (closed w) as Hc.
  { destruct p as [|c p]; [done|]. cbn [to_json append] in Ht. injection Ht as <- Ht. by eapply object_closed. }
  pose proof (wvalue_ext (S d) p q w r E (or_intror Hc)) as E2. rewrite <- Ht in E2.
  pose proof (wvalue_to_json d _ (S d) "" Hl ltac:(lia) I) as E1. rewrite app_nil_str in E1.
  rewrite E1 in E2. injection E2 as _ E2. destruct r; [by destruct q|done].
Qed.
(** An object's text has no proper beginning that is a text. *)
Lemma object_prefix_refused l p q : readable 127 (JObj l) -> to_json (JObj l) = p +:+ q -> q <> "" -> of_wire p = None.
Proof.
  intros Hl Ht Hq. unfold of_wire. destruct (wvalue 128 p) as [[w r]|] eqn:E; [|done].
  exfalso. exact (Hq (prefix_rest 127 l p q w r Hl Ht E)).
Qed.
