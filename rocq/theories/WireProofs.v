(** Reading back what was written, and what can be read. *)
From Verif Require Import Base BaseLemmas Text TextLemmas StdModel RouterTypes RegistryTypes OperatorsModel MultisigTypes
  EncodingModel VerifierModel RewardsModel RegistryModel RouterModel GatewayModel NexusModel MultisigModel ProverModel
  EventsModel JsonModel JsonSpec JsonProofs WireModel WireSpec.

(** ** The grammar *)

Lemma wvalue_to_json d : forall v n rest, readable d v -> (d < n)%nat -> ends rest ->
  wvalue n (to_json v +:+ rest) = Some (v, rest).
Proof.
  induction d as [|d IH]; intros v n rest Hv Hn Hr; destruct n as [|n]; try lia;
    inversion Hv as [d0|d0 b|d0 k Hk|d0 s|d0 l Hl|d0 l Hnd Hl]; subst.
  - done.
  - by destruct b.
  - destruct (dec k) as [|c r] eqn:E; [by apply dec_nonempty in E|].
    pose proof (number_dec (fun _ => true) k rest Hk Hr) as Hnum. rewrite E in Hnum.
    cbn [to_json]. rewrite E. cbn [append]. cbn [append] in Hnum.
    pose proof (digit_range_facts _ (dec_head_digit _ _ _ E)) as (H1 & H2 & H3 & H4 & H5 & H6 & _ & _ & W1 & W2 & W3 & W4).
    cbn [wvalue]. rewrite skip_ws_head by (unfold is_ws; by rewrite W1, W2, W3, W4).
    cbv zeta. rewrite H1, H2, H3, H4, H5, H6. exact Hnum.
  - cbn [to_json]. unfold quoted. cbn [append]. rewrite app_assoc_str. cbn [wvalue]. rewrite skip_ws_head by done.
    cbv zeta. cbn -[str_body]. by rewrite str_body_escaped.
  - done.
  - by destruct b.
  - destruct (dec k) as [|c r] eqn:E; [by apply dec_nonempty in E|].
    pose proof (number_dec (fun _ => true) k rest Hk Hr) as Hnum. rewrite E in Hnum.
    cbn [to_json]. rewrite E. cbn [append]. cbn [append] in Hnum.
    pose proof (digit_range_facts _ (dec_head_digit _ _ _ E)) as (H1 & H2 & H3 & H4 & H5 & H6 & _ & _ & W1 & W2 & W3 & W4).
    cbn [wvalue]. rewrite skip_ws_head by (unfold is_ws; by rewrite W1, W2, W3, W4).
    cbv zeta. rewrite H1, H2, H3, H4, H5, H6. exact Hnum.
  - cbn [to_json]. unfold quoted. cbn [append]. rewrite app_assoc_str. cbn [wvalue]. rewrite skip_ws_head by done.
    cbv zeta. cbn -[str_body]. by rewrite str_body_escaped.
  - cbn [to_json]. rewrite !app_assoc_str. cbn [append]. cbn [wvalue]. rewrite skip_ws_head by done. cbv zeta.
    change (N_of_ascii "[") with 91. cbn [N.eqb Pos.eqb N.leb N.compare Pos.compare Pos.compare_cont andb].
    destruct n as [|n]; [lia|].
    assert (Forall (reads_back (wvalue (S n))) l) as Hrb.
    { eapply Forall_impl; [exact Hl|]. intros v Hv' rest' Hr'. apply IH; [done|lia|done]. }
    destruct l as [|v l]; [done|].
    assert (exists c r, join "," (List.map to_json (v :: l)) +:+ String "]" rest = String c r /\ is_ws c = false /\ N_of_ascii c <> 93)
      as (c & r & E & Hc & Hc').
    { apply Forall_cons in Hl as [Hv' _].
      destruct l as [|w l].
      - destruct (to_json_head d v (String "]" rest) Hv') as (c & r & E & H1 & H2 & _). by exists c, r.
      - cbn [List.map]. rewrite join_cons, app_assoc_str.
        match goal with |- context [to_json v +:+ ?x] => destruct (to_json_head d v x Hv') as (c & r & E & H1 & H2 & _) end.
        by exists c, r. }
    rewrite E. rewrite skip_ws_head by done. apply N.eqb_neq in Hc' as ->. rewrite <- E.
    change (String "]" rest) with ("]" +:+ rest). rewrite elements_join; [done|done|done|].
    rewrite !app_length_str. pose proof (join_length to_json (v :: l)) as Hlen.
    feed specialize Hlen. { intros x Hx. rewrite Forall_forall in Hl. by apply (readable_nonempty d), Hl. }
    lia.
  - cbn [to_json]. change (fun p : string * jval => quoted p.1 +:+ ":" +:+ to_json p.2) with member.
    rewrite !app_assoc_str. cbn [append]. cbn [wvalue]. rewrite skip_ws_head by done. cbv zeta.
    change (N_of_ascii "{") with 123. cbn [N.eqb Pos.eqb N.leb N.compare Pos.compare Pos.compare_cont andb].
    destruct n as [|n]; [lia|].
    assert (Forall (fun p => reads_back (wvalue (S n)) p.2) l) as Hrb.
    { eapply Forall_impl; [exact Hl|]. intros v Hv' rest' Hr'. apply IH; [done|lia|done]. }
    destruct l as [|v l]; [done|].
    assert (exists r, join "," (List.map member (v :: l)) +:+ String "}" rest = String """" r) as (r & E).
    { destruct l as [|w l]; cbn [List.map]; [cbn [join]|rewrite join_cons, app_assoc_str]; rewrite member_app; by eexists. }
    rewrite E. rewrite skip_ws_head by done. change (N_of_ascii """" =? 125) with false. cbn iota. rewrite <- E.
    change (String "}" rest) with ("}" +:+ rest). rewrite members_join; [|done|done|].
    + done.
    + rewrite !app_length_str. pose proof (join_length_members (v :: l)) as Hlen. lia.
Qed.

Lemma of_wire_to_json v : readable 127 v -> of_wire (to_json v) = Some v.
Proof.
  intros Hv. unfold of_wire. rewrite <- (app_nil_str (to_json v)).
  rewrite (wvalue_to_json 127 v 128 "" Hv); [done|lia|done].
Qed.

(** ** Types *)

Definition codec {A} (e : A -> jval) (d : jval -> option A) (P : A -> Prop) (n : nat) : Prop :=
  (forall a, P a -> readable n (e a) /\ d (e a) = Some a) /\ (forall v a, d v = Some a -> P a).

Lemma readable_mono n m v : (n <= m)%nat -> readable n v -> readable m v.
Proof.
  revert m v. induction n as [|n IH]; intros m v Hm Hv; inversion Hv; subst; try by constructor.
  - destruct m as [|m]; [lia|]. constructor. eapply Forall_impl; [done|]. intros x Hx. apply IH; [lia|done].
  - destruct m as [|m]; [lia|]. constructor; [done|]. eapply Forall_impl; [done|]. intros x Hx. apply IH; [lia|done].
Qed.
Lemma codec_mono {A} (e : A -> jval) d P n m : (n <= m)%nat -> codec e d P n -> codec e d P m.
Proof. intros Hm [H1 H2]. split; [|done]. intros a Ha. destruct (H1 a Ha). split; [by eapply readable_mono|done]. Qed.
Lemma codec_impl {A} (e : A -> jval) d (P Q : A -> Prop) n : (forall a, P a <-> Q a) -> codec e d P n -> codec e d Q n.
Proof. intros HPQ [H1 H2]. split; [intros a Ha%HPQ; by apply H1|intros v a Hv; by apply HPQ, (H2 v)]. Qed.

Lemma codec_str : codec JStr d_str (fun _ => True) 0.
Proof. split; [|done]. intros a _. split; [constructor|done]. Qed.
Lemma codec_num b : b <= 2 ^ 64 -> codec JNum (d_num b) (fun n => n < b) 0.
Proof.
  intros Hb. split.
  - intros a Ha. split; [constructor; lia|]. unfold d_num. by apply N.ltb_lt in Ha as ->.
  - intros v a. unfold d_num. destruct v; try done. destruct (N.ltb_spec n b); [|done]. by intros [= <-].
Qed.
Lemma parse_uint_dec b n : n < b -> parse_uint b (dec n) = Some n.
Proof.
  intros Hn. unfold parse_uint. destruct (dec n) as [|c r] eqn:E; [by apply dec_nonempty in E|].
  assert (Ascii.eqb c "+" = false) as ->.
  { destruct (Ascii.eqb_spec c "+") as [->|]; [|done]. pose proof (dec_head_digit _ _ _ E) as Hd.
    change (N_of_ascii "+") with 43 in Hd. lia. }
  cbn [is_empty]. rewrite <- E, undec_dec. by apply N.ltb_lt in Hn as ->.
Qed.
Lemma parse_uint_bound b s n : parse_uint b s = Some n -> n < b.
Proof.
  unfold parse_uint. set (t := match s with EmptyString => s | String c s' => if Ascii.eqb c "+" then s' else s end).
  destruct (is_empty t); [done|]. destruct (undec t 0) as [m|]; [|done].
  destruct (N.ltb_spec m b); [|done]. by intros [= <-].
Qed.
Lemma codec_uint b : codec e_uint (d_uint b) (fun n => n < b) 0.
Proof.
  split.
  - intros a Ha. split; [constructor|]. unfold d_uint, e_uint. cbn. by apply parse_uint_dec.
  - intros v a. unfold d_uint. destruct (d_str v) as [s|]; [|done]. cbn. apply parse_uint_bound.
Qed.
Lemma codec_hex : codec e_hex d_hex (fun _ => True) 0.
Proof. split; [|done]. intros a _. split; [constructor|]. unfold d_hex, e_hex. cbn. apply of_to_hex. Qed.
Lemma codec_hash : codec e_hex d_hash32 (fun b => String.length b = 32%nat) 0.
Proof.
  split.
  - intros a Ha. split; [constructor|]. unfold d_hash32. destruct codec_hex as [H _]. destruct (H a I) as [_ ->]. cbn.
    by rewrite Ha.
  - intros v a. unfold d_hash32. destruct (d_hex v) as [b|]; [|done]. cbn.
    destruct (Nat.eqb_spec (String.length b) 32); [|done]. by intros [= <-].
Qed.
Lemma codec_nonempty : codec JStr d_nonempty (fun s => s <> "") 0.
Proof.
  split.
  - intros a Ha. split; [constructor|]. unfold d_nonempty, nonempty_string_of. cbn. by destruct a.
  - intros v a. unfold d_nonempty, nonempty_string_of. destruct (d_str v) as [s|]; [|done]. cbn.
    destruct s; [done|]. by intros [= <-].
Qed.
Lemma proper_wf c : proper_chain c <-> wf_chain c.
Proof.
  unfold proper_chain, wf_chain, chain_name_of. destruct c as [|x c].
  - cbn. split; [by intros []|done].
  - cbn [is_empty]. rewrite orb_false_r. change ID_SEPARATOR with ":"%char. split.
    + intros (_ & -> & ->). done.
    + destruct (contains ":" (String x c)); [done|]. intros [= E1 E2]. split; [done|]. split; [done|]. cbn [lower]. by rewrite E1, E2.
Qed.
Lemma lower_colon s : contains ":" (lower s) = contains ":" s.
Proof.
  induction s as [|c s IH]; [done|]. cbn [lower contains]. rewrite IH. f_equal.
  destruct c as [[] [] [] [] [] [] [] []]; reflexivity.
Qed.
Lemma lower_idem s : lower (lower s) = lower s.
Proof.
  induction s as [|c s IH]; [done|]. cbn [lower]. rewrite IH. f_equal.
  destruct c as [[] [] [] [] [] [] [] []]; reflexivity.
Qed.
Lemma chain_name_proper s c : chain_name_of s = Some c -> proper_chain c.
Proof.
  unfold chain_name_of. destruct s as [|x s]; [by rewrite orb_true_r|].
  rewrite orb_false_r. destruct (contains ID_SEPARATOR (String x s)) eqn:E; [done|]. intros [= <-].
  split; [done|]. split; [|exact (lower_idem (String x s))].
  change (String (lower_ascii x) (lower s)) with (lower (String x s)). by rewrite lower_colon.
Qed.
Lemma codec_chain : codec JStr d_chain proper_chain 0.
Proof.
  split.
  - intros a Ha. split; [constructor|]. unfold d_chain. cbn. by apply proper_wf.
  - intros v a. unfold d_chain. destruct (d_str v) as [s|]; [|done]. cbn. apply chain_name_proper.
Qed.

Lemma codec_opt {A} (e : A -> jval) d P n : codec e d P n -> (forall a, e a <> JNull) ->
  codec (e_opt e) (d_opt d) (fun o => forall a, o = Some a -> P a) n.
Proof.
  intros [H1 H2] Hn. split.
  - intros [a|] Ha; cbn; [|split; [constructor|done]]. destruct (H1 a) as [Hr Hd]; [by apply Ha|]. split; [done|].
    unfold d_opt. specialize (Hn a). destruct (e a); [done|..]; by rewrite Hd.
  - intros v o Ho a ->. unfold d_opt in Ho. destruct v; try done;
      match type of Ho with _ <$> d ?x = _ => destruct (d x) eqn:E; [|done] end; injection Ho as <-; by eapply H2.
Qed.
Lemma codec_list {A} (e : A -> jval) d P n : codec e d P n -> codec (e_list e) (d_vec d) (Forall P) (S n).
Proof.
  intros [H1 H2]. split.
  - intros l Hl. split.
    + constructor. apply Forall_fmap. eapply Forall_impl; [exact Hl|]. intros a Ha. by apply H1.
    + unfold e_list, d_vec. induction Hl as [|a l Ha Hl IH]; [done|]. cbn [fmap list_fmap d_all].
      destruct (H1 a Ha) as [_ ->]. cbn. rewrite IH. done.
  - intros v l Hl. unfold d_vec in Hl. destruct v as [| | | | |vs|]; try done. revert l Hl.
    induction vs as [|v vs IH]; intros l; cbn; [by intros [= <-]|].
    destruct (d v) eqn:E; [|done]. cbn. destruct (d_all d vs) eqn:E'; [|done]. cbn. intros [= <-].
    constructor; [by eapply H2|by apply IH].
Qed.
Lemma codec_pair {A B} (e1 : A -> jval) d1 P1 n1 (e2 : B -> jval) d2 P2 n2 :
  codec e1 d1 P1 n1 -> codec e2 d2 P2 n2 ->
  codec (fun p => JArr [e1 p.1; e2 p.2]) (d_pair d1 d2) (fun p => P1 p.1 /\ P2 p.2) (S (Nat.max n1 n2)).
Proof.
  intros [H1 H2] [H3 H4]. split.
  - intros [a b] [Ha Hb]. cbn [fst snd] in *. destruct (H1 a Ha) as [R1 D1], (H3 b Hb) as [R2 D2]. split.
    + constructor. repeat constructor; [eapply readable_mono; [|exact R1]|eapply readable_mono; [|exact R2]]; lia.
    + cbn. rewrite D1. cbn. rewrite D2. done.
  - intros v [a b]. unfold d_pair. destruct v as [| | | | |vs|]; try done. destruct vs as [|x [|y [|]]]; try done.
    destruct (d1 x) eqn:E1; [|done]. cbn. destruct (d2 y) eqn:E2; [|done]. cbn. intros [= <- <-].
    split; [by eapply H2|by eapply H4].
Qed.

Lemma fld_some {A B} l n (d : jval -> option A) (k : A -> option B) b :
  fld l n d k = Some b -> exists v a, assoc n l = Some v /\ d v = Some a /\ k a = Some b.
Proof. unfold fld. destruct (assoc n l) as [v|]; [|done]. cbn. destruct (d v) as [a|] eqn:E; [|done]. cbn. by exists v, a. Qed.
Lemma fld_opt_some {A B} l n (d : jval -> option A) (k : option A -> option B) b :
  fld_opt l n d k = Some b -> exists a, k a = Some b /\ (a = None \/ exists v, assoc n l = Some v /\ d_opt d v = Some a).
Proof.
  unfold fld_opt. destruct (assoc n l) as [v|].
  - destruct (d_opt d v) as [a|] eqn:E; [|done]. cbn. intros H. exists a. split; [done|]. right. by exists v.
  - intros H. exists None. by split; [|left].
Qed.
Lemma struct_some {A} names (f : list (string * jval) -> option A) v a :
  struct names f v = Some a -> exists l, v = JObj l /\ f l = Some a.
Proof. unfold struct. destruct v; try done. case_match; [|done]. by exists l. Qed.
Lemma struct_ok {A} names (f : list (string * jval) -> option A) l :
  forallb (fun p => existsb (String.eqb p.1) names) l && distinct l.*1 = true -> struct names f (JObj l) = f l.
Proof. cbn [struct]. by intros ->. Qed.
Lemma fld_ok {A B} l n (d : jval -> option A) (k : A -> option B) v a :
  assoc n l = Some v -> d v = Some a -> fld l n d k = k a.
Proof. unfold fld. intros -> H. cbn. by rewrite H. Qed.
Lemma fld_opt_ok {A B} l n (d : jval -> option A) (k : option A -> option B) v a :
  assoc n l = Some v -> d_opt d v = Some a -> fld_opt l n d k = k a.
Proof. unfold fld_opt. intros -> H. by rewrite H. Qed.
Lemma keys_apart (l : list (string * jval)) : distinct l.*1 = true -> NoDup l.*1.
Proof.
  generalize (l.*1). intros k. induction k as [|x k IH]; [constructor|]. cbn. intros [H1 H2]%andb_true_iff. constructor.
  - intros Hin. apply negb_true_iff in H1. assert (existsb (String.eqb x) k = true) as H; [|congruence].
    apply existsb_exists. exists x. split; [by apply elem_of_list_In|apply String.eqb_refl].
  - by apply IH.
Qed.
Lemma readable_obj' n l : distinct l.*1 = true -> Forall (fun p => readable n p.2) l -> readable (S n) (JObj l).
Proof. intros H1 H2. constructor; [by apply keys_apart|done]. Qed.
