(** The texts of the calls. *)
From Verif Require Import Base BaseLemmas Text TextLemmas StdModel RouterTypes RegistryTypes OperatorsModel MultisigTypes
  RewardsModel RegistryModel RouterModel NexusModel ProverModel EventsModel JsonModel JsonProofs WireModel WireSpec2.

Lemma sapp_assoc a b c : (a +:+ b) +:+ c = a +:+ (b +:+ c).
Proof. induction a as [|x a IH]; [reflexivity|]. cbn. f_equal. exact IH. Qed.
Definition plain (c : ascii) : bool := is_digit c || is_hex c.
Lemma escape_plain c : plain c = true -> escape c = String c "".
Proof. destruct c as [[] [] [] [] [] [] [] []]; vm_compute; intros H; first [reflexivity|discriminate H]. Qed.
Lemma escaped_plain s : all_chars plain s = true -> escaped s = s.
Proof.
  induction s as [|c s IH]; [reflexivity|]. cbn [all_chars escaped]. intros H. apply andb_true_iff in H as [H1 H2].
  rewrite (escape_plain c H1), (IH H2). reflexivity.
Qed.
Lemma all_chars_weaken P Q s : (forall c, P c = true -> Q c = true) -> all_chars P s = true -> all_chars Q s = true.
Proof.
  intros H. induction s as [|c s IH]; [done|]. cbn. intros Hs. apply andb_true_iff in Hs as [H1 H2]. by rewrite (H _ H1), (IH H2).
Qed.
Lemma quoted_dec n : quoted (dec n) = String """" (dec n +:+ """").
Proof.
  unfold quoted. rewrite escaped_plain; [reflexivity|]. eapply all_chars_weaken; [|apply dec_digits]. intros c H. unfold plain. by rewrite H.
Qed.
Lemma quoted_hex s : quoted (to_hex s) = String """" (to_hex s +:+ """").
Proof.
  unfold quoted. rewrite escaped_plain; [reflexivity|]. eapply all_chars_weaken; [|apply to_hex_chars]. intros c H. unfold plain. rewrite H. apply orb_true_r.
Qed.

Ltac hide :=
  repeat match goal with
  | |- context [quoted ?x] => lazymatch x with String _ _ => fail | EmptyString => fail | _ => let q := fresh "q" in generalize (quoted x) as q; intros q end
  | |- context [dec ?x] => let q := fresh "q" in generalize (dec x) as q; intros q
  | |- context [to_hex ?x] => let q := fresh "q" in generalize (to_hex x) as q; intros q
  | |- context [commas ?x] => let q := fresh "q" in generalize (commas x) as q; intros q
  | |- context [t_option ?x] => let q := fresh "q" in generalize (t_option x) as q; intros q
  end.
Ltac norm := repeat (progress (cbn; rewrite ?sapp_assoc)).
Ltac text := rewrite ?quoted_dec, ?quoted_hex; hide; norm; reflexivity.

Lemma list_text {A} (e : A -> jval) (t : A -> string) l : (forall a, to_json (e a) = t a) ->
  to_json (e_list e l) = fill "[%]" [commas (t <$> l)].
Proof.
  intros H. unfold e_list. cbn [to_json]. assert (List.map to_json (e <$> l) = t <$> l) as ->.
  { induction l as [|a l IH]; [reflexivity|]. cbn. rewrite H. f_equal. exact IH. }
  fold (commas (t <$> l)). hide. norm. reflexivity.
Qed.
Lemma id_text c : to_json (e_ccid c) = t_id c.
Proof. unfold e_ccid, t_id. cbn [to_json List.map fst snd]. text. Qed.
Lemma message_text m : to_json (e_message m) = t_message m.
Proof.
  unfold e_message, t_message. cbn [to_json List.map fst snd]. rewrite id_text. generalize (t_id (m_cc m)) as z. intros z. text.
Qed.
Lemma messages_text ms : to_json (e_list e_message ms) = t_messages ms.
Proof. apply list_text, message_text. Qed.
Lemma vote_text v : to_json (e_vote v) = t_vote v.
Proof. by destruct v. Qed.
Lemma weight_text p : to_json (JArr [e_hex p.1; e_uint p.2]) = t_weight p.
Proof. unfold e_hex, e_uint, t_weight. cbn [to_json List.map]. text. Qed.
Lemma operators_text o : to_json (e_operators o) = t_operators o.
Proof.
  unfold e_operators, t_operators, e_uint. cbn [to_json List.map fst snd].
  rewrite (list_text _ _ _ weight_text). text.
Qed.
Lemma key_text k : to_json (e_public_key k) = t_key k.
Proof. unfold e_public_key, t_key, e_hex. destruct (pk_type k); cbn [to_json List.map fst snd]; text. Qed.
Lemma signer_text p : quoted p.1 +:+ ":" +:+ to_json (e_signer p.2) = t_signer p.
Proof.
  unfold e_signer, t_signer, e_uint. cbn [to_json List.map fst snd]. rewrite key_text. generalize (t_key (sg_key p.2)) as z. intros z. text.
Qed.
Lemma set_text w : to_json (e_worker_set w) = t_set w.
Proof.
  unfold e_worker_set, t_set, e_uint. set (es := _ <$> btree_iter (ws_signers w)). cbn [to_json List.map fst snd].
  assert (List.map (fun p => quoted p.1 +:+ ":" +:+ to_json p.2) es = t_signer <$> btree_iter (ws_signers w)) as ->.
  { unfold es. generalize (btree_iter (ws_signers w)) as l. intros l. induction l as [|p l IH]; [reflexivity|].
    cbn [fmap list_fmap List.map fst snd]. f_equal; [apply signer_text|exact IH]. }
  fold (commas (t_signer <$> btree_iter (ws_signers w))). text.
Qed.
Lemma direction_text d : to_json (e_direction d) = t_direction d.
Proof. by destruct d. Qed.
Lemma bytes_text s : to_json (bytes_json s) = t_bytes s.
Proof. by apply list_text. Qed.
Lemma nmessage_text n : to_json (e_nmessage n) = t_nmessage n.
Proof.
  unfold e_nmessage, t_nmessage. cbn [to_json List.map fst snd]. rewrite !bytes_text.
  generalize (t_bytes (n_hash n)) as z. generalize (t_bytes (n_txid n)) as z'. intros z' z. text.
Qed.
Lemma params_text p : to_json (e_params p) = t_params p.
Proof. unfold e_params, t_params, e_threshold, e_uint. cbn [to_json List.map fst snd]. text. Qed.
Lemma opt_text {A} (e : A -> jval) (t : A -> string) o : (forall a, to_json (e a) = t a) -> to_json (e_opt e o) = t_option (t <$> o).
Proof. intros H. destruct o; [apply H|reflexivity]. Qed.
Lemma strs_text l : to_json (e_list JStr l) = fill "[%]" [commas (quoted <$> l)].
Proof. by apply list_text. Qed.

Lemma vv_text m : to_json (e_vv m) = t_vv m.
Proof.
  destruct m; unfold e_vv, t_vv, tagged, e_uint; cbn [to_json List.map fst snd].
  - text.
  - rewrite (list_text _ _ _ vote_text). text.
  - rewrite messages_text. generalize (t_messages ms) as z. intros z. text.
  - rewrite operators_text. generalize (t_operators o) as z. intros z. text.
Qed.
Lemma ms_text m : to_json (e_ms m) = t_ms m.
Proof.
  destruct m; unfold e_ms, t_ms, tagged, e_uint, e_hex; cbn [to_json List.map fst snd].
  - rewrite (opt_text JStr quoted) by reflexivity. text.
  - text.
  - rewrite set_text. generalize (t_set ws) as z. intros z. text.
  - rewrite key_text. generalize (t_key k) as z. intros z. text.
  - text.
  - text.
Qed.
Lemma rw_text m : to_json (e_rw m) = t_rw m.
Proof.
  destruct m; unfold e_rw, t_rw, tagged, e_uint, e_hex; cbn [to_json List.map fst snd].
  - text.
  - rewrite (opt_text JNum dec) by reflexivity. text.
  - text.
  - rewrite params_text. generalize (t_params p) as z. intros z. text.
Qed.
Lemma gw_text m : to_json (e_gw m) = t_gw m.
Proof. destruct m; unfold e_gw, t_gw; cbn [to_json List.map fst snd]; rewrite messages_text; generalize (t_messages ms) as z; intros z; text. Qed.
Lemma nx_text m : to_json (e_nx m) = t_nx m.
Proof.
  destruct m; unfold e_nx, t_nx; cbn [to_json List.map fst snd].
  - rewrite messages_text. generalize (t_messages ms) as z. intros z. text.
  - rewrite (list_text _ _ _ nmessage_text). text.
Qed.
Lemma rt_text m : to_json (e_rt m) = t_rt m.
Proof.
  destruct m; unfold e_rt, t_rt, tagged; cbn [to_json List.map fst snd].
  - text.
  - text.
  - rewrite direction_text. generalize (t_direction d) as z. intros z. text.
  - rewrite direction_text. generalize (t_direction d) as z. intros z. text.
  - rewrite messages_text. generalize (t_messages ms) as z. intros z. text.
Qed.
Lemma pr_text m : to_json (e_pr m) = t_pr m.
Proof.
  destruct m; unfold e_pr, t_pr, tagged; cbn [to_json List.map fst snd]; [|reflexivity..].
  rewrite (list_text _ _ _ id_text). text.
Qed.
Lemma sr_text m : to_json (e_sr m) = t_sr m.
Proof.
  destruct m; unfold e_sr, t_sr, tagged, e_uint; cbn [to_json List.map fst snd].
  - rewrite (opt_text JNum dec) by reflexivity. text.
  - rewrite strs_text. text.
  - rewrite strs_text. text.
  - rewrite strs_text. text.
  - text.
  - text.
  - text.
Qed.
