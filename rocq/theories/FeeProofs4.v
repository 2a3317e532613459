(** Prices as texts, and the fees of transactions. *)
From Verif Require Import Base BaseLemmas Text TextLemmas QueueModel BroadcasterModel BroadcasterSpec BroadcasterProofs
  FeeModel FeeSpec FeeProofs FeeProofs2 FeeProofs3.

(** *** Texts *)
Lemma alphabetic_not_numeric c : is_numeric c = true -> is_alphabetic c = false.
Proof. destruct c as [[] [] [] [] [] [] [] []]; vm_compute; congruence. Qed.
Lemma lower_not_alphabetic c : is_alphabetic c = false -> lower_ascii c = c.
Proof. destruct c as [[] [] [] [] [] [] [] []]; vm_compute; congruence. Qed.
Notation no_letters := (all_chars (fun c => negb (is_alphabetic c))).
Lemma lower_no_letters s : no_letters s = true -> lower s = s.
Proof.
  induction s as [|c s IH]; [done|]. cbn [all_chars]. intros [Hc Hs]%andb_true_iff. cbn [lower].
  rewrite (IH Hs), lower_not_alphabetic; [done|]. by apply negb_true_iff.
Qed.
Lemma undec_numeric s : forall a n, undec s a = Some n -> all_chars is_numeric s = true.
Proof.
  induction s as [|c s IH]; intros a n; [done|]. cbn [undec all_chars]. unfold is_numeric at 1.
  destruct (undigit c); [|done]. intros H. cbn. by eapply IH.
Qed.
Lemma numeric_no_letters s : all_chars is_numeric s = true -> no_letters s = true.
Proof.
  induction s as [|c s IH]; [done|]. cbn [all_chars]. intros [Hc Hs]%andb_true_iff.
  rewrite (alphabetic_not_numeric _ Hc), (IH Hs). done.
Qed.
Lemma split_at_letter a d : no_letters a = true -> starts_with_letter d ->
  find_char is_alphabetic (a +:+ d) = Some (String.length a) /\ split_at (String.length a) (a +:+ d) = (a, d).
Proof.
  intros Ha (c & r & -> & Hc). induction a as [|x a IH]; [by cbn; rewrite Hc|].
  cbn [all_chars] in Ha. apply andb_true_iff in Ha as [Hx Ha]. apply negb_true_iff in Hx. destruct (IH Ha) as [H1 H2].
  cbn [String.append find_char String.length split_at]. rewrite Hx, H1, H2. done.
Qed.
Lemma find_split s i : find_char is_alphabetic s = Some i ->
  exists a d, s = a +:+ d /\ i = String.length a /\ no_letters a = true /\ starts_with_letter d.
Proof.
  revert i. induction s as [|c s IH]; intros i; cbn [find_char]; [done|].
  destruct (is_alphabetic c) eqn:Hc.
  - intros [= <-]. exists "", (String c s). split; [done|]. split; [done|]. split; [done|]. by exists c, s.
  - destruct (find_char _ s) as [j|]; [|done]. intros [= <-]. destruct (IH j eq_refl) as (a & d & -> & -> & Ha & Hd).
    exists (String c a), d. split; [done|]. split; [done|]. split; [|done]. cbn [all_chars]. by rewrite Hc, Ha.
Qed.

(** a text that starts with a digit and has no letters *)
Lemma parse_plain c s : is_numeric c = true -> no_letters s = true ->
  parse_f64 (String c s) =
  match parse_mantissa (String c s) with Some (n, k) => Some (decimal false n (- Z.of_N k)) | None => None end.
Proof.
  intros Hc Hs. unfold parse_f64.
  assert (strip_sign (String c s) = (false, String c s)) as ->.
  { cbn [strip_sign]. destruct (Ascii.eqb_spec c "-") as [->|]; [discriminate Hc|].
    destruct (Ascii.eqb_spec c "+") as [->|]; [discriminate Hc|done]. }
  assert (Hn : no_letters (String c s) = true) by (cbn [all_chars]; by rewrite (alphabetic_not_numeric _ Hc), Hs).
  rewrite (lower_no_letters _ Hn). rewrite !bool_decide_false by (intros [= -> _]; discriminate Hc). cbn [orb].
  assert (split_once "e" (String c s) = None) as ->.
  { apply split_once_none. eapply all_chars_contains; [|exact Hn]. done. }
  destruct (parse_mantissa _) as [[n k]|]; [|done]. do 2 f_equal.
Qed.
Lemma mantissa_decimal c s n k : is_numeric c = true ->
  parse_mantissa (String c s) = Some (n, k) <-> decimal_text (String c s) n k.
Proof.
  intros Hc. unfold parse_mantissa, decimal_text. destruct (split_once "." (String c s)) as [[i f]|] eqn:Hs.
  - pose proof Hs as Hs'. apply split_once_some in Hs as [Hs Hi].
    assert (is_empty i = false) as Hne. { destruct i; [|done]. cbn in Hs. injection Hs as -> _. discriminate Hc. }
    rewrite Hne. cbn [andb]. split.
    + destruct (undec (i +:+ f) 0) as [n'|] eqn:Hu; [|done]. cbn. intros [= -> <-]. exists i, f. eauto.
    + intros (i' & f' & Hne' & Hu & -> & [Hs2|[Hs2 ->]]).
      * assert (contains "." i' = false) as Hi'.
        { apply undec_numeric in Hu. rewrite all_chars_app in Hu. apply andb_true_iff in Hu as [Hu _].
          by eapply all_chars_contains; [|exact Hu]. }
        assert (Hs3 : split_once "." (String c s) = Some (i', f')) by (rewrite Hs2; by apply split_once_app).
        rewrite Hs' in Hs3. injection Hs3 as -> ->. by rewrite Hu.
      * exfalso. apply undec_numeric in Hu. rewrite app_nil_str in Hu. rewrite <- Hs2 in Hu.
        assert (contains "." (String c s) = false) as Hno by (by eapply all_chars_contains; [|exact Hu]).
        apply split_once_none in Hno. congruence.
  - cbn [is_empty andb]. rewrite app_nil_str. split.
    + destruct (undec (String c s) 0) as [n'|] eqn:Hu; [|done]. cbn [option_map String.length]. intros [= -> <-].
      exists (String c s), "". rewrite app_nil_str. split; [done|]. split; [done|]. split; [done|]. by right.
    + intros (i' & f' & Hne' & Hu & -> & [Hs2|[Hs2 ->]]).
      * exfalso. apply split_once_none in Hs. rewrite Hs2, contains_app in Hs. cbn in Hs. by rewrite orb_true_r in Hs.
      * rewrite app_nil_str in Hu. rewrite Hs2, Hu. done.
Qed.
Lemma decimal_text_shape t n k : decimal_text t n k ->
  exists c r, t = String c r /\ is_numeric c = true /\ no_letters t = true.
Proof.
  intros (i & f & Hne & Hu & _ & Ht). apply undec_numeric in Hu. rewrite all_chars_app in Hu. apply andb_true_iff in Hu as [Hi Hf].
  pose proof (numeric_no_letters _ Hi) as Li. pose proof (numeric_no_letters _ Hf) as Lf.
  destruct i as [|c i]; [done|]. cbn [all_chars] in Hi. apply andb_true_iff in Hi as [Hc _].
  destruct Ht as [->|[-> ->]]; cbn [String.append].
  - exists c, (i +:+ String "." f). split; [done|]. split; [done|].
    change (String c (i +:+ String "." f)) with (String c i +:+ String "." f). rewrite all_chars_app, Li. cbn [all_chars]. by rewrite Lf.
  - exists c, i. done.
Qed.

Section Coin.
  Context (denom_ok : string -> bool).
  Lemma amount_text t n k x : decimal_text t n k -> decimal false n (- Z.of_N k) = x ->
    amount_of_text t = finite_amount x.
  Proof.
    intros Ht <-. destruct (decimal_text_shape _ _ _ Ht) as (c & r & -> & Hc & Hn). unfold amount_of_text.
    cbn [all_chars] in Hn. apply andb_true_iff in Hn as [_ Hn]. rewrite (parse_plain _ _ Hc Hn).
    apply (mantissa_decimal _ _ _ _ Hc) in Ht. rewrite Ht. done.
  Qed.
  Lemma coin_reads t n k d m e : decimal_text t n k -> decimal false n (- Z.of_N k) = FFin false m e ->
    denom_ok d = true -> starts_with_letter d ->
    dec_coin_of_text denom_ok (t +:+ d) = Ok {| dc_denom := d; dc_amount := FFin false m e |}.
  Proof.
    intros Ht Hx Hok Hd. pose proof (decimal_text_shape _ _ _ Ht) as (c & r & Et & Hc & Hn). unfold dec_coin_of_text.
    destruct (split_at_letter t d Hn Hd) as [H1 H2]. rewrite H1, H2.
    assert (find_char is_numeric (t +:+ d) = Some O) as ->. { rewrite Et. cbn. by rewrite Hc. }
    unfold denom_of_text. rewrite Hok. destruct Hd as (dc & dr & -> & _). cbn [ensure is_empty negb rbind].
    by rewrite (amount_text _ _ _ _ Ht Hx).
  Qed.
  Lemma coin_read s coin : dec_coin_of_text denom_ok s = Ok coin ->
    exists t n k m e, s = t +:+ dc_denom coin /\ decimal_text t n k /\ decimal false n (- Z.of_N k) = FFin false m e /\
      dc_amount coin = FFin false m e /\ denom_ok (dc_denom coin) = true /\ starts_with_letter (dc_denom coin).
  Proof.
    unfold dec_coin_of_text. destruct (find_char is_numeric s) as [[|]|] eqn:Hf; [|done..].
    destruct (find_char is_alphabetic s) as [i|] eqn:Ha; [|done].
    apply find_split in Ha as (t & d & -> & -> & Hn & Hd). destruct (split_at_letter t d Hn Hd) as [_ ->].
    unfold denom_of_text. destruct (denom_ok d) eqn:Hok; [|done]. cbn [ensure rbind].
    destruct (is_empty d) eqn:He; [done|]. cbn [negb ensure rbind].
    intros H. apply rbind_ok in H as (x & Hx & Hco). injection Hco as <-. cbn [dc_denom dc_amount].
    assert (exists c r, t = String c r /\ is_numeric c = true) as (c & r & -> & Hc).
    { destruct t as [|c r].
      - exfalso. destruct Hd as (c & r & -> & Hc). cbn in Hf. destruct (is_numeric c) eqn:Hnc; [|by destruct (find_char _ r)].
        rewrite (alphabetic_not_numeric _ Hnc) in Hc. done.
      - exists c, r. split; [done|]. cbn in Hf. destruct (is_numeric c); [done|]. by destruct (find_char _ (r +:+ d)). }
    unfold amount_of_text in Hx. cbn [all_chars] in Hn. apply andb_true_iff in Hn as [_ Hn].
    rewrite (parse_plain _ _ Hc Hn) in Hx. destruct (parse_mantissa (String c r)) as [[n k]|] eqn:Hm; [|done].
    cbn [of_option rbind] in Hx. apply (mantissa_decimal _ _ _ _ Hc) in Hm.
    exists (String c r), n, k. unfold decimal in *.
    destruct (round_cases false (n * 10 ^ Z.to_N (- Z.of_N k)) (10 ^ Z.to_N (- - Z.of_N k))) as [(m & e & Hr)|Hr]; rewrite Hr in *; [|done].
    injection Hx as <-. exists m, e. done.
  Qed.
  Lemma coin_read_back show coin n k : denom_ok (dc_denom coin) = true -> starts_with_letter (dc_denom coin) ->
    decimal_text (show (dc_amount coin)) n k -> decimal false n (- Z.of_N k) = dc_amount coin ->
    finite_amount (dc_amount coin) = Ok (dc_amount coin) ->
    dec_coin_of_text denom_ok (dec_coin_text show coin) = Ok coin.
  Proof.
    intros Hok Hd Ht Hx Hfin. unfold dec_coin_text. destruct coin as [d x]. cbn [dc_denom dc_amount] in *.
    destruct (round_cases false (n * 10 ^ Z.to_N (- Z.of_N k)) (10 ^ Z.to_N (- - Z.of_N k))) as [(m & e & Hr)|Hr];
      fold (decimal false n (- Z.of_N k)) in Hr; rewrite Hr in Hx; subst x; [|done].
    by eapply coin_reads.
  Qed.
End Coin.

(** *** Transactions *)
Section Txs.
  Context {W M : Type} (simulate : W -> tx M -> W * option (option N)) (sign : W -> tx M -> W * bool)
    (broadcast_tx : W -> tx M -> W * option string) (get_tx : W -> string -> W * tx_answer) (cfg : bconfig).

  Definition paid (l : list (rpc M)) : Prop := forall l1 t a l2, l = l1 ++ RBroadcast t a :: l2 ->
    exists l0 g, l1 = l0 ++ [RSimulate (dummy_tx (tx_msgs t) (tx_seq t)) (Some (Some g)); RSign t true] /\ tx_fee t = bc_fee cfg g.
  Lemma paid_snoc l x : paid l -> (forall t a, x = RBroadcast t a -> 
      exists l0 g, l = l0 ++ [RSimulate (dummy_tx (tx_msgs t) (tx_seq t)) (Some (Some g)); RSign t true] /\ tx_fee t = bc_fee cfg g) ->
    paid (l ++ [x]).
  Proof.
    intros Hl Hx l1 t a l2 H. destruct l2 as [|y l2 _] using rev_ind.
    - apply app_inj_tail in H as [-> ->]. by eapply Hx.
    - rewrite app_comm_cons, app_assoc in H. apply app_inj_tail in H as [-> _]. by eapply Hl.
  Qed.
  Lemma paid_confirm hash n (c : client) c' r : paid (cl_log c) -> confirm get_tx n c hash = (c', r) -> paid (cl_log c').
  Proof.
    revert c. induction n as [|n IH]; intros c Hp; cbn [confirm]; [by intros [= <- _]|].
    destruct (get_tx (cl_world c) hash) as [w a].
    assert (Hp' : paid (cl_log c ++ [RGetTx hash a])) by by apply paid_snoc.
    destruct a as [| |[]]; try (by intros [= <- _]); by apply IH.
  Qed.
  Lemma paid_estimate (c : client) ms c' f : paid (cl_log c) -> estimate_fee simulate cfg c ms = (c', f) ->
    paid (cl_log c') /\ cl_seq c' = cl_seq c /\
    forall x, f = Ok x -> exists g, cl_log c' = cl_log c ++ [RSimulate (dummy_tx ms (cl_seq c)) (Some (Some g))] /\ x = bc_fee cfg g.
  Proof.
    intros Hp. unfold estimate_fee. destruct (simulate _ _) as [w a]. intros [= <- <-]. split; [by apply paid_snoc|]. split; [done|].
    intros x Hx. destruct a as [[g|]|]; try done. injection Hx as <-. by exists g.
  Qed.
  Lemma paid_broadcast (c : client) ms c' r : paid (cl_log c) -> client_broadcast simulate sign broadcast_tx get_tx cfg c ms = (c', r) ->
    paid (cl_log c').
  Proof.
    intros Hp. unfold client_broadcast. destruct (estimate_fee simulate cfg c ms) as [c1 f] eqn:He.
    destruct (paid_estimate _ _ _ _ Hp He) as (Hp1 & Hs1 & Hf). destruct f as [f| |]; [|by intros [= <- _]..].
    destruct (Hf f eq_refl) as (g & Hl & ->). set (t := Build_tx _ _ _ _ _).
    destruct (sign (cl_world c1) t) as [w2 signed]. cbn [cl_log cl_seq cl_world].
    destruct signed; cbn [negb].
    2: { intros [= <- _]. cbn [cl_log]. by apply paid_snoc. }
    destruct (broadcast_tx w2 t) as [w3 answer].
    assert (Hp3 : paid ((cl_log c1 ++ [RSign t true]) ++ [RBroadcast t answer])).
    { apply paid_snoc; [by apply paid_snoc|]. intros t' a' [= <- <-]. exists (cl_log c), g. split; [|done].
      rewrite Hl, <- app_assoc. cbn [app]. rewrite <- Hs1. done. }
    destruct answer as [hash|]; [|by intros [= <- _]].
    match goal with |- context [confirm_tx get_tx cfg ?c3 hash] => set (c3' := c3) end.
    destruct (confirm_tx get_tx cfg c3' hash) as [c4 r4] eqn:Hc.
    assert (Hp4 : paid (cl_log c4)).
    { unfold confirm_tx in Hc. destruct (checked _ _); [by eapply paid_confirm; [|exact Hc]|by injection Hc as <- _..]. }
    destruct r4; [|by intros [= <- _]..]. destruct (add_u64 _ _); by intros [= <- _].
  Qed.
  Lemma paid_requests (c : client) rs c' alive : paid (cl_log c) -> requests simulate sign broadcast_tx get_tx cfg c rs = (c', alive) ->
    paid (cl_log c').
  Proof.
    revert c. induction rs as [|r rs IH]; intros c Hp; cbn [requests]; [by intros [= <- _]|].
    destruct (request_step _ _ _ _ cfg c r) as [c1 al] eqn:Hr.
    assert (Hp1 : paid (cl_log c1)).
    { destruct r as [ms|ms]; cbn [request_step] in Hr.
      - destruct (estimate_fee _ _ c ms) as [c2 f] eqn:He. injection Hr as <- _. by apply (paid_estimate _ _ _ _ Hp He).
      - destruct (client_broadcast _ _ _ _ _ c ms) as [c2 f] eqn:He. injection Hr as <- _. by eapply paid_broadcast. }
    destruct al; [by apply IH|by intros [= <- _]].
  Qed.
  Lemma transactions_paid (c : client) rs c' alive l1 t a l2 : cl_log c = [] ->
    requests simulate sign broadcast_tx get_tx cfg c rs = (c', alive) -> cl_log c' = l1 ++ RBroadcast t a :: l2 ->
    exists l0 g, l1 = l0 ++ [RSimulate (dummy_tx (tx_msgs t) (tx_seq t)) (Some (Some g)); RSign t true] /\ tx_fee t = bc_fee cfg g.
  Proof.
    intros H0 Hr Hl. eapply (paid_requests c); [|exact Hr|exact Hl]. rewrite H0. intros [|] *; done.
  Qed.
End Txs.
