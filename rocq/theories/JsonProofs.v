(** Reading back what is written: JSON. *)
From Verif Require Import Base BaseLemmas Text TextLemmas StdModel EncodingModel EventsModel JsonModel JsonSpec.

(** ** Strings *)

Lemma str_body_escape c r : str_body (escape c +:+ r) = prepend (String c "") (str_body r).
Proof. destruct c as [[] [] [] [] [] [] [] []]; reflexivity. Qed.
Lemma str_body_escaped s r : str_body (escaped s +:+ String """" r) = Some (s, r).
Proof.
  induction s as [|c s IH]; [done|]. cbn [escaped]. rewrite app_assoc_str, str_body_escape, IH. done.
Qed.

(** ** Numbers *)

Lemma undigit_is_digit c : is_digit c = true -> exists d, undigit c = Some d.
Proof. unfold is_digit. destruct (undigit c) as [d|]; [|done]. by exists d. Qed.
Definition no_digit (s : string) : Prop := match s with String c _ => undigit c = None | _ => True end.
Lemma digits_app a r : all_chars is_digit a = true -> no_digit r -> digits (a +:+ r) = (a, r).
Proof.
  induction a as [|c a IH].
  - intros _. destruct r as [|c r]; [done|]. cbn. by intros ->.
  - cbn. intros [Hc Ha]%andb_true_iff Hr. destruct (undigit_is_digit c Hc) as [d ->].
    by rewrite (IH Ha Hr).
Qed.
Lemma digits_join s : (digits s).1 +:+ (digits s).2 = s.
Proof.
  induction s as [|c s IH]; [done|]. cbn. destruct (undigit c); [|done].
  destruct (digits s) as [d t]. cbn in *. by rewrite IH.
Qed.

Lemma dec_go_head fuel : forall n acc, n < 2 ^ N.of_nat fuel -> n <> 0 ->
  exists c r, dec_go fuel n acc = String c r /\ N_of_ascii c <> 48.
Proof.
  induction fuel as [|f IH]; intros n acc Hn Hz; [cbn in Hn; lia|].
  cbn [dec_go]. destruct (N.ltb_spec n 10) as [Hl|Hl].
  - eexists _, _. split; [done|]. rewrite N_of_digit; [|by apply N.mod_lt]. rewrite N.mod_small; lia.
  - assert (n / 10 <> 0) as Hz' by (intros E; apply N.div_small_iff in E; lia).
    apply IH; [|done]. rewrite Nat2N.inj_succ, N.pow_succ_r' in Hn.
    apply N.div_lt_upper_bound; lia.
Qed.
Lemma dec_head n : exists c r, dec n = String c r /\ (N_of_ascii c = 48 -> r = "").
Proof.
  destruct (N.eq_dec n 0) as [->|Hz]; [by exists "0"%char, ""|].
  destruct (dec_go_head (S (N.to_nat (N.size n))) n "" (dec_fuel n) Hz) as (c & r & E & Hc).
  exists c, r. split; [exact E|]. lia.
Qed.
Lemma dec_head_digit n c r : dec n = String c r -> 48 <= N_of_ascii c <= 57.
Proof.
  intros E. pose proof (dec_digits n) as H. rewrite E in H. cbn in H. apply andb_true_iff in H as [H _].
  unfold is_digit, undigit in H.
  destruct (N.leb_spec 48 (N_of_ascii c)); [|done]. destruct (N.leb_spec (N_of_ascii c) 57); [|done]. done.
Qed.

(** Texts that can follow a number. *)
Definition ends (s : string) : Prop :=
  match s with
  | EmptyString => True
  | String c _ => undigit c = None /\ N_of_ascii c <> 46 /\ N_of_ascii c <> 101 /\ N_of_ascii c <> 69
  end.
Lemma ends_no_digit s : ends s -> no_digit s.
Proof. destruct s; [done|]. by intros [? _]. Qed.
Lemma fraction_ends s : ends s -> fraction s = Some ("", s).
Proof. destruct s as [|c s]; [done|]. intros (_ & H & _). unfold fraction. by apply N.eqb_neq in H as ->. Qed.
Lemma exponent_ends s : ends s -> exponent s = Some ("", s).
Proof.
  destruct s as [|c s]; [done|]. intros (_ & _ & H1 & H2). unfold exponent.
  by apply N.eqb_neq in H1 as ->; apply N.eqb_neq in H2 as ->.
Qed.
Lemma U64_pow : U64 = 2 ^ 64.
Proof. reflexivity. Qed.

Section Fix.
  Context (finite : string -> bool).
  Lemma number_dec n rest : n < 2 ^ 64 -> ends rest ->
    number finite false (dec n +:+ rest) = Some (JNum n, rest).
  Proof.
    intros Hn Hr. unfold number. rewrite (digits_app _ _ (dec_digits n) (ends_no_digit _ Hr)).
    destruct (dec_head n) as (c & r & E & Hz). rewrite E.
    assert ((N_of_ascii c =? 48) && negb (is_empty r) = false) as ->.
    { destruct (N.eqb_spec (N_of_ascii c) 48) as [H|]; [|done]. by rewrite (Hz H). }
    rewrite fraction_ends, exponent_ends by done. rewrite <- E, undec_dec. cbn [is_empty andb default].
    rewrite U64_pow. apply N.ltb_lt in Hn as ->. done.
  Qed.
End Fix.

(** ** Values *)

Lemma skip_ws_head c r : is_ws c = false -> skip_ws (String c r) = String c r.
Proof. cbn. by intros ->. Qed.
Lemma digit_range_facts n :
  48 <= n <= 57 ->
  (n =? 110) = false /\ (n =? 116) = false /\ (n =? 102) = false /\ (n =? 34) = false /\ (n =? 45) = false /\
  (48 <=? n) && (n <=? 57) = true /\ (n =? 93) = false /\ (n =? 125) = false /\
  (n =? 32) = false /\ (n =? 9) = false /\ (n =? 10) = false /\ (n =? 13) = false.
Proof.
  intros [H1 H2].
  repeat match goal with |- _ /\ _ => split end; try (apply N.eqb_neq; lia).
  apply andb_true_iff. split; apply N.leb_le; lia.
Qed.

Lemma to_json_head d v rest : readable d v -> exists c r, to_json v +:+ rest = String c r /\ is_ws c = false /\
  N_of_ascii c <> 93 /\ N_of_ascii c <> 125.
Proof.
  intros Hv. destruct Hv as [|? []|d n Hn|d s|d l Hl|d l Hl]; cbn [to_json append];
    try (eexists _, _; split; [reflexivity|split; [reflexivity|split; vm_compute; discriminate]]).
  destruct (dec n) as [|c r] eqn:E; [by apply dec_nonempty in E|]. exists c, (r +:+ rest). split; [done|].
  pose proof (digit_range_facts _ (dec_head_digit _ _ _ E)) as (_ & _ & _ & _ & _ & _ & H1 & H2 & H3 & H4 & H5 & H6).
  unfold is_ws. rewrite H3, H4, H5, H6. split; [done|].
  split; by apply N.eqb_neq.
Qed.

Lemma join_cons sep a b l : join sep (a :: b :: l) = a +:+ sep +:+ join sep (b :: l).
Proof. done. Qed.

Section Containers.
  Context (val : string -> option (jval * string)).
  Definition reads_back (v : jval) : Prop := forall rest, ends rest -> val (to_json v +:+ rest) = Some (v, rest).

  Lemma elements_join l : forall n rest, l <> [] -> Forall reads_back l -> (length l <= n)%nat ->
    elements val n (join "," (List.map to_json l) +:+ "]" +:+ rest) = Some (l, rest).
  Proof.
    induction l as [|v l IH]; intros n rest Hne Hl Hn; [done|].
    apply Forall_cons in Hl as [Hv Hl]. destruct n as [|n]; [cbn in Hn; lia|]. cbn [length] in Hn.
    destruct l as [|w l].
    - cbn [List.map join elements]. rewrite Hv by done. done.
    - change (join "," (List.map to_json (v :: w :: l)))
        with (to_json v +:+ "," +:+ join "," (List.map to_json (w :: l))).
      rewrite !app_assoc_str. cbn [elements]. rewrite Hv by done.
      change ("," +:+ ?x) with (String "," x). rewrite skip_ws_head by done.
      change (N_of_ascii "," =? 44) with true. cbn iota.
      rewrite IH; [done|done|done|cbn [length] in *; lia].
  Qed.
  Definition member (p : string * jval) : string := quoted p.1 +:+ ":" +:+ to_json p.2.
  Lemma member_app p rest : member p +:+ rest = String """" (escaped p.1 +:+ String """" (String ":" (to_json p.2 +:+ rest))).
  Proof. unfold member, quoted. cbn [append]. by rewrite !app_assoc_str. Qed.
  Lemma members_join l : forall n rest, l <> [] -> Forall (fun p => reads_back p.2) l -> (length l <= n)%nat ->
    members val n (join "," (List.map member l) +:+ "}" +:+ rest) = Some (l, rest).
  Proof.
    induction l as [|p l IH]; intros n rest Hne Hl Hn; [done|].
    apply Forall_cons in Hl as [Hv Hl]. destruct n as [|n]; [cbn in Hn; lia|]. cbn [length] in Hn.
    assert (forall x, ends x -> members val (S n) (member p +:+ x) =
      match skip_ws x with
      | String e r4 =>
          if N_of_ascii e =? 44 then (fun q => ((p.1, p.2) :: q.1, q.2)) <$> members val n r4
          else if N_of_ascii e =? 125 then Some ([(p.1, p.2)], r4) else None
      | EmptyString => None
      end) as Hm.
    { intros x Hx. rewrite member_app. cbn [members]. rewrite skip_ws_head by done.
      change (N_of_ascii """" =? 34) with true. cbn iota. rewrite str_body_escaped.
      rewrite skip_ws_head by done. change (N_of_ascii ":" =? 58) with true. cbn iota.
      rewrite Hv by done. done. }
    destruct l as [|w l].
    - cbn [List.map join]. rewrite Hm by done. cbn. by destruct p.
    - change (join "," (List.map member (p :: w :: l)))
        with (member p +:+ "," +:+ join "," (List.map member (w :: l))).
      rewrite !app_assoc_str, Hm by done. change ("," +:+ ?x) with (String "," x).
      rewrite skip_ws_head by done.
      change (N_of_ascii "," =? 44) with true. cbn iota.
      rewrite IH; [|done|done|cbn [length] in *; lia]. by destruct p.
  Qed.
End Containers.

Lemma join_length f (l : list jval) : (forall x, x ∈ l -> f x <> "") ->
  (length l <= String.length (join "," (List.map f l)))%nat.
Proof.
  induction l as [|x l IH]; [cbn; lia|]. intros Hx.
  assert (f x <> "") as H1 by (apply Hx; left). assert (0 < String.length (f x))%nat by (destruct (f x); cbn; [done|lia]).
  destruct l as [|y l]; [cbn; lia|].
  change (List.map f (x :: y :: l)) with (f x :: f y :: List.map f l). rewrite join_cons, !app_length_str.
  assert (length (y :: l) <= String.length (join "," (List.map f (y :: l))))%nat as H2
    by (apply IH; intros; apply Hx; by right).
  cbn [List.map length] in *. cbn [String.length]. lia.
Qed.
Lemma join_length_members (l : list (string * jval)) :
  (length l <= String.length (join "," (List.map member l)))%nat.
Proof.
  induction l as [|x l IH]; [cbn; lia|]. destruct l as [|y l]; [cbn; lia|].
  change (List.map member (x :: y :: l)) with (member x :: member y :: List.map member l).
  rewrite join_cons, !app_length_str. cbn [List.map length] in *. cbn [String.length]. lia.
Qed.

Lemma last_wins_nodup l : NoDup l.*1 -> last_wins l = l.
Proof.
  induction l as [|[k v] l IH]; [done|]. cbn. intros [Hk Hl]%NoDup_cons.
  destruct (existsb (fun p => String.eqb k p.1) l) eqn:E; [|by rewrite IH].
  apply existsb_exists in E as ([k' v'] & Hin & ->%String.eqb_eq). exfalso. apply Hk.
  apply elem_of_list_fmap. exists (k', v'). split; [done|]. by apply elem_of_list_In.
Qed.

Lemma readable_nonempty d v : readable d v -> to_json v <> "".
Proof.
  intros Hv E. destruct (to_json_head d v "" Hv) as (c & r & H & _). rewrite E in H. done.
Qed.

Section Fix2.
  Context (finite : string -> bool).
  Lemma value_head n s c r : s = String c r -> is_ws c = false ->
    value finite n s = value finite n (String c r).
  Proof. by intros ->. Qed.

  Lemma value_to_json d : forall v n rest, readable d v -> (d < n)%nat -> ends rest ->
    value finite n (to_json v +:+ rest) = Some (v, rest).
  Proof.
    induction d as [|d IH]; intros v n rest Hv Hn Hr; destruct n as [|n]; try lia;
      inversion Hv as [d0|d0 b|d0 k Hk|d0 s|d0 l Hl|d0 l Hnd Hl]; subst.
    - done.
    - by destruct b.
    - destruct (dec k) as [|c r] eqn:E; [by apply dec_nonempty in E|].
      pose proof (number_dec finite k rest Hk Hr) as Hnum. rewrite E in Hnum.
      cbn [to_json]. rewrite E. cbn [append]. cbn [append] in Hnum.
      pose proof (digit_range_facts _ (dec_head_digit _ _ _ E)) as (H1 & H2 & H3 & H4 & H5 & H6 & _ & _ & W1 & W2 & W3 & W4).
      cbn [value]. rewrite skip_ws_head by (unfold is_ws; by rewrite W1, W2, W3, W4).
      cbv zeta. rewrite H1, H2, H3, H4, H5, H6. exact Hnum.
    - cbn [to_json]. unfold quoted. cbn [append]. rewrite app_assoc_str. cbn [value]. rewrite skip_ws_head by done.
      cbv zeta. cbn -[str_body]. by rewrite str_body_escaped.
    - done.
    - by destruct b.
    - destruct (dec k) as [|c r] eqn:E; [by apply dec_nonempty in E|].
      pose proof (number_dec finite k rest Hk Hr) as Hnum. rewrite E in Hnum.
      cbn [to_json]. rewrite E. cbn [append]. cbn [append] in Hnum.
      pose proof (digit_range_facts _ (dec_head_digit _ _ _ E)) as (H1 & H2 & H3 & H4 & H5 & H6 & _ & _ & W1 & W2 & W3 & W4).
      cbn [value]. rewrite skip_ws_head by (unfold is_ws; by rewrite W1, W2, W3, W4).
      cbv zeta. rewrite H1, H2, H3, H4, H5, H6. exact Hnum.
    - cbn [to_json]. unfold quoted. cbn [append]. rewrite app_assoc_str. cbn [value]. rewrite skip_ws_head by done.
      cbv zeta. cbn -[str_body]. by rewrite str_body_escaped.
    - cbn [to_json]. rewrite !app_assoc_str. cbn [append]. cbn [value]. rewrite skip_ws_head by done. cbv zeta.
      change (N_of_ascii "[") with 91. cbn [N.eqb Pos.eqb N.leb N.compare Pos.compare Pos.compare_cont andb].
      destruct n as [|n]; [lia|].
      assert (Forall (reads_back (value finite (S n))) l) as Hrb.
      { eapply Forall_impl; [exact Hl|]. intros v Hv' rest' Hr'. apply IH; [done|lia|done]. }
      destruct l as [|v l]; [done|].
      assert (exists c r, join "," (List.map to_json (v :: l)) +:+ String "]" rest = String c r /\ is_ws c = false /\ N_of_ascii c <> 93)
        as (c & r & E & Hc & Hc').
      { apply Forall_cons in Hl as [Hv' _].
        destruct l as [|w l].
        - destruct (to_json_head d v (String "]" rest) Hv') as (c & r & E & H1 & H2 & _). by exists c, r.
        - cbn [List.map]. rewrite join_cons, app_assoc_str.
          match goal with |- context [to_json v +:+ ?x] => destruct (to_json_head d v x Hv') as (c & r & E & H1 & H2 & _) end.
          by exists c, r. }
      rewrite E. rewrite skip_ws_head by done. apply N.eqb_neq in Hc' as ->. rewrite <- E.
      change (String "]" rest) with ("]" +:+ rest). rewrite elements_join; [done|done|done|].
      rewrite !app_length_str. pose proof (join_length to_json (v :: l)) as Hlen.
      feed specialize Hlen. { intros x Hx. rewrite Forall_forall in Hl. by apply (readable_nonempty d), Hl. }
      lia.
    - cbn [to_json]. change (fun p : string * jval => quoted p.1 +:+ ":" +:+ to_json p.2) with member.
      rewrite !app_assoc_str. cbn [append]. cbn [value]. rewrite skip_ws_head by done. cbv zeta.
      change (N_of_ascii "{") with 123. cbn [N.eqb Pos.eqb N.leb N.compare Pos.compare Pos.compare_cont andb].
      destruct n as [|n]; [lia|].
      assert (Forall (fun p => reads_back (value finite (S n)) p.2) l) as Hrb.
      { eapply Forall_impl; [exact Hl|]. intros v Hv' rest' Hr'. apply IH; [done|lia|done]. }
      destruct l as [|v l]; [done|].
      assert (exists r, join "," (List.map member (v :: l)) +:+ String "}" rest = String """" r) as (r & E).
      { destruct l as [|w l]; cbn [List.map]; [cbn [join]|rewrite join_cons, app_assoc_str]; rewrite member_app; by eexists. }
      rewrite E. rewrite skip_ws_head by done. change (N_of_ascii """" =? 125) with false. cbn iota. rewrite <- E.
      change (String "}" rest) with ("}" +:+ rest). rewrite members_join; [|done|done|].
      + cbn [fmap option_fmap option_map fst snd]. by rewrite last_wins_nodup.
      + rewrite !app_length_str. pose proof (join_length_members (v :: l)) as Hlen. lia.
  Qed.
End Fix2.

Lemma blank_ws s : blank s -> skip_ws s = "".
Proof.
  induction s as [|c s IH]; [done|]. intros [Hc Hs]. cbn.
  destruct Hc as [->|[->|[->| ->]]]; by apply IH.
Qed.
Lemma skip_ws_blank b s : blank b -> skip_ws (b +:+ s) = skip_ws s.
Proof.
  induction b as [|c b IH]; [done|]. intros [Hc Hs]. cbn.
  destruct Hc as [->|[->|[->| ->]]]; by apply IH.
Qed.
Lemma skip_ws_idem s : skip_ws (skip_ws s) = skip_ws s.
Proof. induction s as [|c s IH]; [done|]. cbn. destruct (is_ws c) eqn:E; [done|]. cbn. by rewrite E. Qed.
Lemma value_skip finite n s t : skip_ws s = skip_ws t -> value finite n s = value finite n t.
Proof. intros E. destruct n as [|n]; [done|]. cbn [value]. by rewrite E. Qed.
Lemma blank_ends s : blank s -> ends s.
Proof. destruct s as [|c s]; [done|]. intros [[->|[->|[->| ->]]] _]; done. Qed.

Lemma of_json_to_json finite v b b' : readable 127 v -> blank b -> blank b' ->
  of_json finite (b +:+ to_json v +:+ b') = Some v.
Proof.
  intros Hv Hb Hb'. unfold of_json.
  rewrite (value_skip finite 128 (b +:+ to_json v +:+ b') (to_json v +:+ b')) by by apply skip_ws_blank.
  rewrite (value_to_json finite 127); [|done|lia|by apply blank_ends]. by rewrite blank_ws.
Qed.
