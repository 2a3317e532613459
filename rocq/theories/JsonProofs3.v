(** Which texts are JSON, and the events read from their texts. *)
From Verif Require Import Base BaseLemmas Text TextLemmas StdModel RouterTypes OperatorsModel VerifierModel EncodingModel
  EventsModel JsonModel JsonSpec JsonProofs JsonProofs2.

Lemma skip_ws_none s : skip_ws s = "" -> blank s.
Proof.
  induction s as [|c s IH]; [done|]. cbn. destruct (is_ws c) eqn:E; [|done]. intros H. split; [|by apply IH].
  revert E. clear. destruct c as [[] [] [] [] [] [] [] []]; vm_compute; try discriminate; intros _; tauto.
Qed.
Lemma after_spec w : forall s t, after w s = Some t <-> s = w +:+ t.
Proof.
  induction w as [|a w IH]; intros s t; [cbn; naive_solver|].
  destruct s as [|b s]; cbn; [naive_solver|]. destruct (Ascii.eqb_spec a b) as [->|Hn].
  - rewrite IH. split; [by intros ->|]. by intros [= ->].
  - split; [done|]. by intros [= -> _].
Qed.
Lemma is_empty_spec s : is_empty s = true <-> s = "".
Proof. by destruct s. Qed.

Section Fix.
  Context (finite : string -> bool).

  Lemma word_not_json s : word s -> of_json finite s = None.
  Proof.
    intros [(c & r & -> & Hc) Hb]. unfold of_json. generalize 127%nat as d. intros d.
    destruct (value finite (S d) (String c r)) as [[v t]|] eqn:E; [|done].
    destruct (is_empty (skip_ws t)) eqn:Ht; [|done]. exfalso.
    apply is_empty_spec, skip_ws_none in Ht. cbn [value] in E.
    assert (is_ws c = false) as Hws.
    { unfold is_ws. cbv zeta. unfold letter in Hc.
      repeat match goal with |- context [N_of_ascii c =? ?n] => rewrite (proj2 (N.eqb_neq (N_of_ascii c) n)) by lia end. done. }
    rewrite (skip_ws_head _ _ Hws) in E. cbv zeta in E.
    assert (forall n, N_of_ascii c = n -> c = ascii_of_N n) as Hcode by (intros n <-; by rewrite ascii_N_embedding).
    destruct (N.eqb_spec (N_of_ascii c) 110) as [Hn|Hn].
    { destruct (after "ull" r) as [t'|] eqn:Ea; [|done]. injection E as <- <-. apply after_spec in Ea as ->.
      destruct (Hb t' Ht) as [H _]. apply H. by rewrite (Hcode _ Hn). }
    destruct (N.eqb_spec (N_of_ascii c) 116) as [Hn'|_].
    { destruct (after "rue" r) as [t'|] eqn:Ea; [|done]. injection E as <- <-. apply after_spec in Ea as ->.
      destruct (Hb t' Ht) as (_ & H & _). apply H. by rewrite (Hcode _ Hn'). }
    destruct (N.eqb_spec (N_of_ascii c) 102) as [Hn'|_].
    { destruct (after "alse" r) as [t'|] eqn:Ea; [|done]. injection E as <- <-. apply after_spec in Ea as ->.
      destruct (Hb t' Ht) as (_ & _ & H). apply H. by rewrite (Hcode _ Hn'). }
    unfold letter in Hc.
    rewrite (proj2 (N.eqb_neq (N_of_ascii c) 34)), (proj2 (N.eqb_neq (N_of_ascii c) 45)) in E by lia.
    rewrite (proj2 (N.leb_gt (N_of_ascii c) 57)), andb_false_r in E by lia.
    rewrite (proj2 (N.eqb_neq (N_of_ascii c) 91)), (proj2 (N.eqb_neq (N_of_ascii c) 123)) in E by lia. done.
  Qed.

  Lemma zero_x_not_json s : of_json finite ("0x" +:+ s) = None.
  Proof.
    unfold of_json. change ("0x" +:+ s) with (String "0" (String "x" s)).
    generalize 127%nat as d0. intros d0. cbn [value]. rewrite skip_ws_head by done. cbv zeta.
    change (N_of_ascii "0") with 48. cbn [N.eqb Pos.eqb N.leb N.compare Pos.compare Pos.compare_cont andb].
    assert (number finite false (String "0" (String "x" s)) = Some (JNum 0, String "x" s)) as ->
      by (change (String "0" (String "x" s)) with (dec 0 +:+ String "x" s); by apply number_dec).
    by rewrite skip_ws_head.
  Qed.

  (** a number uses up digits, a point, an exponent and signs only *)
  Definition numeric (c : ascii) : bool :=
    is_digit c || (N_of_ascii c =? 46) || (N_of_ascii c =? 101) || (N_of_ascii c =? 69) ||
    (N_of_ascii c =? 43) || (N_of_ascii c =? 45).
  Lemma digits_numeric s : all_chars numeric (digits s).1 = true.
  Proof.
    induction s as [|c s IH]; [done|]. cbn. destruct (undigit c) as [d|] eqn:E; [|done].
    destruct (digits s) as [a b]. cbn in *. rewrite IH. unfold numeric, is_digit. by rewrite E.
  Qed.
  Lemma fraction_numeric s f r : fraction s = Some (f, r) -> s = f +:+ r /\ all_chars numeric f = true.
  Proof.
    destruct s as [|c s]; cbn; [by intros [= <- <-]|]. destruct (N.eqb_spec (N_of_ascii c) 46) as [E|]; [|by intros [= <- <-]].
    pose proof (digits_join s) as Hj. pose proof (digits_numeric s) as Hn.
    destruct (digits s) as [[|d ds] t]; [done|]. intros [= <- <-]. cbn [fst snd] in *. rewrite <- Hj. split; [done|].
    change (all_chars numeric (String c (String d ds))) with (numeric c && all_chars numeric (String d ds)). rewrite Hn, andb_true_r. unfold numeric. rewrite E. by rewrite orb_true_r.
  Qed.
  Lemma exponent_numeric s f r : exponent s = Some (f, r) -> s = f +:+ r /\ all_chars numeric f = true.
  Proof.
    destruct s as [|c s]; cbn [exponent]; [by intros [= <- <-]|].
    destruct ((N_of_ascii c =? 101) || (N_of_ascii c =? 69)) eqn:E; [|by intros [= <- <-]].
    assert (numeric c = true) as Hc.
    { unfold numeric. apply orb_true_iff in E as [->| ->]; by rewrite ?orb_true_r. }
    assert (exists sg t, s = sg +:+ t /\ all_chars numeric sg = true /\
      (match s with String d t => if (N_of_ascii d =? 43) || (N_of_ascii d =? 45) then (String d "", t) else ("", s)
       | EmptyString => ("", "") end) = (sg, t)) as (sg & t & -> & Hs & ->).
    { destruct s as [|d t]; [by exists "", ""|].
      destruct ((N_of_ascii d =? 43) || (N_of_ascii d =? 45)) eqn:Ed; [|by exists "", (String d t)].
      exists (String d ""), t. split; [done|]. split; [|done]. cbn. unfold numeric.
      apply orb_true_iff in Ed as [->| ->]; by rewrite ?orb_true_r. }
    pose proof (digits_join t) as Hj. pose proof (digits_numeric t) as Hn.
    destruct (digits t) as [[|d ds] t']; [done|]. intros [= <- <-]. cbn [fst snd] in *. rewrite <- Hj.
    split; [cbn [append]; by rewrite app_assoc_str|]. change (numeric c && all_chars numeric (sg +:+ String d ds) = true). by rewrite all_chars_app, Hc, Hs, Hn.
  Qed.
  Lemma number_numeric neg s v r : number finite neg s = Some (v, r) ->
    (exists t, s = t +:+ r /\ all_chars numeric t = true).
  Proof.
    unfold number. pose proof (digits_join s) as Hj. pose proof (digits_numeric s) as Hn.
    destruct (digits s) as [[|d ds] t]; [done|]. cbn [fst snd] in *.
    destruct ((N_of_ascii d =? 48) && negb (is_empty ds)); [done|].
    destruct (fraction t) as [[f r1]|] eqn:Ef; [|done]. apply fraction_numeric in Ef as [-> Hf].
    destruct (exponent r1) as [[x r2]|] eqn:Ex; [|done]. apply exponent_numeric in Ex as [-> Hx].
    intros E. assert (r2 = r) as ->.
    { destruct (is_empty f && is_empty x && _); [by injection E|]. destruct (finite _); [by injection E|done]. }
    exists (String d ds +:+ f +:+ x). rewrite !app_assoc_str. split; [done|].
    by rewrite !all_chars_app, Hn, Hf, Hx.
  Qed.

  Definition decimal_char (c : ascii) : bool := (48 <=? N_of_ascii c) && (N_of_ascii c <=? 57).
  Lemma digit_first_json s c r v : s = String c r -> 48 <= N_of_ascii c <= 57 -> of_json finite s = Some v ->
    all_chars (fun c => numeric c || is_ws c) s = true.
  Proof.
    intros -> Hc. unfold of_json. generalize 127%nat as d0. intros d0. cbn [value].
    pose proof (digit_range_facts _ Hc) as (H1 & H2 & H3 & H4 & H5 & H6 & _ & _ & W1 & W2 & W3 & W4).
    rewrite skip_ws_head by (unfold is_ws; by rewrite W1, W2, W3, W4).
    cbv zeta. rewrite H1, H2, H3, H4, H5, H6.
    destruct (number finite false (String c r)) as [[v' t]|] eqn:E; [|done].
    destruct (is_empty (skip_ws t)) eqn:Ht; [|done]. intros _. apply is_empty_spec, skip_ws_none in Ht.
    apply number_numeric in E as (p & -> & Hp). rewrite all_chars_app. apply andb_true_iff. split.
    - eapply all_chars_impl; [|exact Hp]. by intros x ->.
    - clear -Ht. induction t as [|x t IH]; [done|]. destruct Ht as [Hx Ht]. cbn. rewrite (IH Ht), andb_true_r.
      destruct Hx as [->|[->|[->| ->]]]; done.
  Qed.

  Lemma hex_not_json s c :
    all_chars is_hex s = true -> c ∈ ["a"; "b"; "c"; "d"; "f"]%char -> contains c s = true -> of_json finite s = None.
  Proof.
    intros Hs Hin Hcon. destruct (of_json finite s) as [v|] eqn:E; [|done]. exfalso.
    destruct s as [|x s]; [done|].
    assert (is_hex x = true) as Hx by by apply andb_true_iff in Hs as [? _].
    destruct (N.leb_spec (N_of_ascii x) 57) as [Hl|Hl].
    - assert (48 <= N_of_ascii x <= 57) as Hr.
      { split; [|done]. revert Hx Hl. clear. destruct x as [[] [] [] [] [] [] [] []]; vm_compute; try discriminate; done. }
      pose proof (digit_first_json _ _ _ _ eq_refl Hr E) as Hn.
      assert (numeric c || is_ws c = false) as Hf.
      { clear -Hin. repeat (apply elem_of_cons in Hin as [->|Hin]; [done|]). by apply elem_of_nil in Hin. }
      pose proof (all_chars_contains _ _ _ Hf Hn) as H. by rewrite H in Hcon.
    - assert (letter x) as Hlet.
      { unfold letter. revert Hx Hl. clear. destruct x as [[] [] [] [] [] [] [] []]; vm_compute; try discriminate; intros;
          first [left; split; discriminate|right; split; discriminate]. }
      rewrite word_not_json in E; [done|]. split; [by exists x, s|].
      intros b _. clear -Hs.
      assert (forall w, all_chars is_hex (w +:+ b) = true -> all_chars is_hex w = true) as Ha.
      { intros w H. rewrite all_chars_app in H. by apply andb_true_iff in H as [? _]. }
      split; [|split]; intros Hw; rewrite Hw in Hs; apply Ha in Hs; vm_compute in Hs; discriminate.
  Qed.

  Lemma decimal_digits s : decimal s -> all_chars is_digit s = true.
  Proof.
    induction s as [|c s IH]; [done|]. intros [Hc Hs]. cbn. rewrite (IH Hs), andb_true_r.
    unfold is_digit, undigit. destruct Hc as [H1 H2].
    by rewrite (proj2 (N.leb_le _ _) H1), (proj2 (N.leb_le _ _) H2).
  Qed.
  Lemma decimal_json s c r : finite_ok finite -> s = String c r -> decimal s -> c <> "0"%char ->
    (String.length s <= 308)%nat ->
    of_json finite s = Some JOtherNum \/ exists n, of_json finite s = Some (JNum n).
  Proof.
    intros Hf -> Hd Hc Hl. pose proof (decimal_digits _ Hd) as Hds. pose proof Hd as [Hc' _].
    unfold of_json. generalize 127%nat as d0. intros d0. cbn [value].
    pose proof (digit_range_facts _ Hc') as (H1 & H2 & H3 & H4 & H5 & H6 & _ & _ & W1 & W2 & W3 & W4).
    rewrite skip_ws_head by (unfold is_ws; by rewrite W1, W2, W3, W4).
    cbv zeta. rewrite H1, H2, H3, H4, H5, H6. unfold number.
    rewrite <- (app_nil_str (String c r)), (digits_app _ "" Hds I).
    assert (N_of_ascii c =? 48 = false) as ->.
    { apply N.eqb_neq. intros E. apply Hc. rewrite <- (ascii_N_embedding c), E. done. }
    cbn [andb fraction exponent is_empty]. cbv zeta.
    destruct (match undec (String c r) 0 with Some n => n <? U64 | None => false end).
    - right. eexists. reflexivity.
    - left. rewrite !app_nil_str. change ("" +:+ String c r) with (String c r). by rewrite Hf.
  Qed.

  (** ** Attributes *)
  Notation read := (of_json finite).
  Lemma attr_readable v : readable 127 v -> attr_value read (to_json v) = v.
  Proof.
    intros Hv. unfold attr_value. pose proof (of_json_to_json finite v "" "" Hv I I) as H.
    rewrite app_nil_str in H. change ("" +:+ to_json v) with (to_json v) in H. by rewrite H.
  Qed.
  Lemma attr_dec n : n < 2 ^ 64 -> attr_value read (dec n) = JNum n.
  Proof. intros Hn. apply (attr_readable (JNum n)). by constructor. Qed.

  Lemma kv_pairs_served l : Forall (fun p => utf8 p.1 = true /\ utf8 p.2 = true) l ->
    kv_pairs base64_to_utf8 read (served l) = Some ((fun p => (p.1, attr_value read p.2)) <$> l).
  Proof.
    induction 1 as [|[k v] l [Hk Hv] Hl IH]; [done|]. cbn in Hk, Hv. unfold served in *. rewrite fmap_cons. cbn [kv_pairs].
    unfold kv_pair. cbn [fst snd]. rewrite !base64_to_utf8_served by done. rewrite IH. done.
  Qed.
  Lemma event_served ty l : NoDup l.*1 -> Forall (fun p => utf8 p.1 = true /\ utf8 p.2 = true) l ->
    event_of_abci base64_to_utf8 read ty (served l) =
    Some (Abci ty (list_to_map ((fun p => (p.1, attr_value read p.2)) <$> l))).
  Proof.
    intros Hnd Hl. unfold event_of_abci. rewrite kv_pairs_served by done. cbn. do 2 f_equal.
    symmetry. apply list_to_map_proper; [|by rewrite reverse_Permutation].
    rewrite <- list_fmap_compose. erewrite list_fmap_ext; [exact Hnd|]. done.
  Qed.

  Lemma message_readable e : te_index e < 2 ^ 64 -> readable 126 (message_json e).
  Proof.
    intros H. apply (readable_obj 125).
    - cbn. repeat (apply NoDup_cons_2; [by apply (bool_decide_unpack _)|]). apply NoDup_nil_2.
    - repeat constructor. done.
  Qed.
  Lemma worker_set_readable tx idx o : idx < 2 ^ 64 -> readable 127 (worker_set_json tx idx o).
  Proof.
    intros H. apply (readable_obj 126).
    - cbn. repeat (apply NoDup_cons_2; [by apply (bool_decide_unpack _)|]). apply NoDup_nil_2.
    - apply Forall_cons; split; [constructor|]. apply Forall_cons; split; [by constructor|].
      apply Forall_cons; split; [|by apply Forall_nil]. apply (readable_obj 125).
      + cbn. repeat (apply NoDup_cons_2; [by apply (bool_decide_unpack _)|]). apply NoDup_nil_2.
      + apply Forall_cons; split; [|apply Forall_cons; split; [constructor|by apply Forall_nil]].
        apply (readable_arr 124). rewrite Forall_fmap. apply Forall_true. intros p. cbn.
        apply (readable_arr 123). repeat constructor.
  Qed.
End Fix.
