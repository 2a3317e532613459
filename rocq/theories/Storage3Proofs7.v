(** The texts in the stores. *)
From Verif Require Import Base BaseLemmas Text TextLemmas StdModel RouterTypes RegistryTypes OperatorsModel MultisigTypes.
From Verif Require Import EncodingModel VerifierModel RewardsModel RegistryModel RouterModel GatewayModel NexusModel MultisigModel ProverModel.
From Verif Require Import StorageModel Storage2Model EventsModel JsonModel JsonProofs WireModel WireSpec2 WireProofs9 Storage3Model Storage3Spec2.

Lemma sapp_nil s : s +:+ "" = s.
Proof. induction s as [|c s IH]; [reflexivity|]. cbn. f_equal. exact IH. Qed.
Ltac norm ::= repeat (progress (cbn; rewrite ?sapp_assoc, ?sapp_nil)).
Ltac gen t := let z := fresh "z" in generalize t as z; intros z.
Lemma pairs_text {A} (f : A -> string * jval) (t : A -> string) l :
  (forall a, quoted (f a).1 +:+ ":" +:+ to_json (f a).2 = t a) ->
  to_json (JObj (f <$> l)) = fill "{%}" [commas (t <$> l)].
Proof.
  intros H. cbn [to_json]. assert (List.map (fun p => quoted p.1 +:+ ":" +:+ to_json p.2) (f <$> l) = t <$> l) as ->.
  { induction l as [|a l IH]; [reflexivity|]. cbn [fmap list_fmap List.map]. rewrite H. f_equal. exact IH. }
  fold (commas (t <$> l)). hide. norm. reflexivity.
Qed.
Lemma sx_router v : to_json (e_rtval v) = s_router v.
Proof. destruct v; unfold e_rtval, e_rt_config, e_endpoint, s_router; cbn [to_json List.map fst snd]; [text..|reflexivity]. Qed.
Lemma sx_bond b : to_json (e_bond b) = s_bond b.
Proof. destruct b; unfold e_bond, s_bond, tagged, e_uint; cbn [to_json List.map fst snd]; [text..|reflexivity]. Qed.
Lemma sx_registry v : to_json (e_srval v) = s_registry v.
Proof.
  destruct v; unfold e_srval, e_service, e_worker, s_registry, e_uint; cbn [to_json List.map fst snd].
  - text.
  - rewrite (opt_text JNum dec) by reflexivity. text.
  - reflexivity.
  - rewrite sx_bond. gen (s_bond (w_bond w)). unfold e_auth. destruct (w_auth w); cbn [to_json]; text.
Qed.
Lemma sx_state s : to_json (e_ms_state s) = s_state s.
Proof. destruct s; unfold e_ms_state, s_state, tagged; cbn [to_json List.map fst snd]; [reflexivity|text]. Qed.
Lemma sx_multisig v : to_json (e_msval v) = k_multisig v.
Proof.
  destruct v as [| |s|s|w| |]; unfold e_msval, k_multisig, e_session, e_uint, e_hex; cbn [to_json List.map fst snd].
  - text.
  - text.
  - rewrite sx_state. gen (s_state (ss_state s)). text.
  - destruct s; unfold e_signature, e_hex; cbn [to_json List.map fst snd]; text.
  - apply set_text.
  - text.
  - reflexivity.
Qed.
Lemma sx_gateway v : to_json (e_gwval v) = s_gateway v.
Proof. destruct v; unfold e_gwval, s_gateway; cbn [to_json List.map fst snd]; [text|apply message_text]. Qed.
Lemma sx_nexus v : to_json (e_nxval v) = s_nexus v.
Proof. destruct v; unfold e_nxval, s_nexus; cbn [to_json List.map fst snd]; [text|reflexivity]. Qed.
Lemma sx_epoch e : to_json (e_epoch e) = s_epoch e.
Proof. unfold e_epoch, s_epoch. cbn [to_json List.map fst snd]. text. Qed.
Lemma sx_counts m : to_json (e_counts m) = fill "{%}" [commas (s_count <$> btree_iter m)].
Proof. unfold e_counts. apply pairs_text. intros p. cbn [fst snd to_json]. unfold s_count. text. Qed.
Lemma sx_tally t : to_json (e_tally t) = s_rewards (WvTally t).
Proof.
  unfold e_tally, s_rewards. change (to_json (JObj ?l)) with ("{" +:+ join "," (List.map (fun p => quoted p.1 +:+ ":" +:+ to_json p.2) l) +:+ "}").
  cbn [List.map fst snd]. rewrite sx_counts, sx_epoch, params_text. cbn [to_json]. gen (s_epoch (ty_epoch t)). gen (t_params (ty_params t)). text.
Qed.
Lemma sx_rewards v : to_json (e_rwval v) = s_rewards v.
Proof.
  destruct v as [|p u|t| | |]; [| |apply sx_tally| | |]; unfold e_rwval, s_rewards, e_uint; cbn [to_json List.map fst snd]; [text| |text|text|reflexivity].
  rewrite params_text, sx_epoch. gen (t_params p). gen (s_epoch u). text.
Qed.
Lemma sx_tallies t : to_json (e_tallies t) = s_votes t.
Proof. unfold e_tallies, s_votes. apply pairs_text. intros [v n]. unfold s_count_of, e_uint. cbn [fst snd to_json]. destruct v; cbn [vote_name]; text. Qed.
Lemma sx_voter p : quoted p.1 +:+ ":" +:+ to_json (e_participation p.2) = s_voter p.
Proof.
  unfold e_participation, s_voter, e_uint. cbn [to_json List.map fst snd].
  rewrite (opt_text (e_list e_vote) _ _ (fun l => list_text _ _ l vote_text)). text.
Qed.
Lemma sx_poll p : to_json (e_poll p) = s_poll p.
Proof.
  unfold e_poll, s_poll. change (to_json (JObj ?l)) with ("{" +:+ join "," (List.map (fun p => quoted p.1 +:+ ":" +:+ to_json p.2) l) +:+ "}").
  cbn [List.map fst snd]. rewrite (list_text _ _ _ sx_tallies), (pairs_text (fun x => (x.1, e_participation x.2)) s_voter _ sx_voter). unfold e_uint, e_status. cbn [to_json].
  destruct (poll_status_ p); text.
Qed.
Lemma sx_verifier v : to_json (e_vvval v) = s_verifier v.
Proof.
  destruct v as [c|n|[p|p]|c|c]; unfold e_vvval, s_verifier, e_vconfig, e_vpoll, e_content, e_threshold, e_uint; cbn [to_json List.map fst snd].
  - text.
  - text.
  - rewrite sx_poll. gen (s_poll p). text.
  - rewrite sx_poll. gen (s_poll p). text.
  - rewrite message_text. gen (t_message (c_content c)). text.
  - rewrite operators_text. gen (t_operators (c_content c)). text.
Qed.
Lemma sx_command c : to_json (e_command c) = s_command c.
Proof. unfold e_command, s_command, e_hex, e_command_type. destruct (c_ty c); cbn [to_json List.map fst snd]; text. Qed.
Lemma sx_prover admin v : to_json (e_prval admin v) = s_prover admin v.
Proof.
  destruct v as [c|b|w|b|b]; unfold e_prval, s_prover, e_pconfig, e_batch, e_data, e_hex, e_threshold, e_uint, e_encoder, e_key_type, s_encoder;
    cbn [to_json List.map fst snd].
  - destruct (pc_encoder c), (pc_key_type c); text.
  - text.
  - apply set_text.
  - rewrite (list_text _ _ _ id_text), (list_text _ _ _ sx_command). destruct (b_encoder b); text.
  - text.
Qed.
