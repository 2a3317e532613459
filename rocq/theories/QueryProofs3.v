(** The answers of the chain, through texts and without. *)
From Verif Require Import Base BaseLemmas MapLemmas StdProofs Text TextLemmas StdModel RouterTypes RegistryTypes OperatorsModel MultisigTypes
  EncodingModel VerifierModel RewardsModel RegistryModel RouterModel GatewayModel NexusModel MultisigModel ProverModel
  SystemModel EventsModel JsonModel JsonSpec WireModel WireSpec WireProofs WireProofs3 WireSystemModel WireSystemSpec WireProofs6
  StorageModel Storage2Model Storage3Model Storage3Spec Storage3Proofs2 Storage3Proofs3 Storage3Proofs6 QueryModel QuerySpec QueryProofs QueryProofs2.

Definition all_fine (st : gmap addr contract) : Prop := forall a c, st !! a = Some c -> fine c.
Lemma ask_some {A E} (r : res E A) a : ask r = Some a -> r = Ok a.
Proof. destruct r; [by intros [= ->]|discriminate|discriminate]. Qed.
Lemma ask_option {A E} (e : E) (o : option A) : ask (of_option e o) = o.
Proof. by destruct o. Qed.

Lemma through (ow : string -> option jval) qt (rd : jval -> option question) (rp : question -> option answer) (wr : answer -> string)
    (da : jval -> option answer) qv q (h : bool) :
  ow qt = Some qv -> rd qv = (if h then Some q else None) -> (h = false -> rp q = None) ->
  (forall r, rp q = Some r -> (v ← ow (wr r); da v) = Some r) ->
  (t ← (v ← ow qt; q ← rd v; r ← rp q; Some (wr r)); v ← ow t; da v) = rp q.
Proof.
  intros H1 H2 H3 H4. rewrite H1. cbn. rewrite H2. destruct h; cbn; [|by rewrite H3].
  destruct (rp q) as [r|] eqn:Hr; cbn; [|done]. by apply H4.
Qed.

Section Answers.
  Context (keccak : string -> string) (sec1 : string -> option string)
          (recover : string -> string -> string -> option N).

  Lemma reply_proper qr c q r : fine c -> proper_question q -> reply_of keccak sec1 recover qr c q = Some r ->
    proper_answer r /\ answers_to q r = true /\ hears c q = true.
  Proof.
    intros Hc Hq H. destruct c, q; cbn [reply_of] in H; try discriminate H; apply fmap_Some in H as (x & Hx & ->);
      apply ask_some in Hx; cbn [fine proper_question proper_answer answers_to hears] in *; (split; [|done]).
    - unfold get_chain_info in Hx. apply of_option_ok in Hx. exact (Hc _ _ Hx).
    - unfold GatewayModel.get_messages in Hx. apply try_map_ok in Hx. clear Hq.
      induction Hx as [|i m ids ms Hm _ IH]; constructor; [|exact IH]. apply of_option_ok in Hm. exact (Hc _ _ Hm).
    - unfold is_verified in Hx. apply try_map_ok in Hx. induction Hx as [|m p ms l Hm _ IH]; [constructor|]. inversion Hq; subst.
      constructor; [|by apply IH]. apply rbind_ok in Hm as (st & _ & Hm). injection Hm as <-. cbn. by match goal with H : proper_message _ |- _ => apply H end.
    - done.
    - unfold get_active_workers in Hx. apply rbind_ok in Hx as (sv & _ & Hx). apply rbind_ok in Hx as (ws & Hws & Hx). injection Hx as <-.
      apply try_map_ok in Hws. assert (Forall (fun w => proper_bond (w_bond w)) ws) as Hall; [|by apply Forall_forall; intros w (_ & (_ & Hw)%elem_of_list_filter)%elem_of_list_filter; rewrite Forall_forall in Hall; apply Hall].
      induction Hws as [|k w ks ws Hw _ IH]; constructor; [|exact IH].
      apply of_option_ok in Hw. exact (proj2 Hc _ _ Hw).
    - unfold get_service in Hx. apply of_option_ok in Hx. exact (proj1 Hc _ _ Hx).
    - unfold get_worker, query_get_worker in Hx. apply of_option_ok in Hx. exact (proj2 Hc _ _ Hx).
    - unfold get_multisig in Hx. apply rbind_ok in Hx as (ss & Hss & Hx). apply rbind_ok in Hx as (ws & Hws & Hx).
      apply of_option_ok in Hss, Hws. injection Hx as <-. destruct Hc as [H1 H2]. destruct (H2 _ _ Hws) as (Hth & _ & Hsg).
      split; [exact (H1 _ _ Hss)|]. cbn [mu_quorum mu_signers]. split; [exact Hth|]. apply Forall_fmap, Forall_forall.
      intros [a sg] Hin. apply elem_of_btree_iter in Hin. exact (Hsg _ _ Hin).
    - unfold get_worker_set in Hx. apply of_option_ok in Hx. exact (proj2 Hc _ _ Hx).
    - unfold get_public_key in Hx. apply rbind_ok in Hx as (raw & _ & Hx). apply expect_ok in Hx. by eapply try_from_proper.
    - unfold get_proof in Hx. apply rbind_ok in Hx as (bid & _ & Hx). apply rbind_ok in Hx as (b & Hb & Hx). apply of_option_ok in Hb.
      destruct (negb _); [discriminate Hx|]. apply rbind_ok in Hx as (m & _ & Hx). apply rbind_ok in Hx as (pf & _ & Hx). injection Hx as <-.
      destruct Hc as (_ & _ & Hbs). specialize (Hbs _ _ Hb). unfold proper_proof. cbn [pr_session pr_ids pr_data]. destruct Hbs. by repeat split.
    - unfold query_worker_set in Hx. apply of_option_ok in Hx. exact (proj1 (proj1 (proj2 Hc)) _ Hx).
  Qed.

  Lemma deaf deep c q : hears c q = false -> reply_of keccak sec1 recover deep c q = None.
  Proof. by destruct c, q. Qed.

  Lemma level_at deep oth (st : gmap addr contract) a c t : st !! a = Some c ->
    level keccak sec1 recover deep oth st a t
    = (v ← of_wire t; q ← read_question c v; r ← reply_of keccak sec1 recover deep c q; Some (to_json (e_answer r))).
  Proof. intros Ha. unfold level. unfold chain. rewrite Ha. reflexivity. Qed.
  Lemma level_other deep oth (st : gmap addr contract) a t : st !! a = None ->
    level keccak sec1 recover deep oth st a t = oth a t.
  Proof. intros Ha. unfold level. unfold chain. rewrite Ha. reflexivity. Qed.
  Lemma asked_level deep oth (st : gmap addr contract) a c q : st !! a = Some c -> fine c -> proper_question q ->
    asked (level keccak sec1 recover deep oth st) a q = reply_of keccak sec1 recover deep c q.
  Proof.
    intros Ha Hc Hq. unfold asked. rewrite (level_at _ _ _ _ _ _ Ha).
    apply (through of_wire _ _ _ (fun r => to_json (e_answer r)) _ (e_question q) q (hears c q)).
    - apply of_wire_to_json. eapply readable_mono; [|apply question_readable]; lia.
    - exact (question_read c q Hq).
    - apply deaf.
    - intros r Hr. destruct (reply_proper _ _ _ _ Hc Hq Hr) as (H1 & H2 & _). exact (answer_read q r H2 H1).
  Qed.
  Lemma asked_other deep oth (st : gmap addr contract) a q : st !! a = None ->
    asked (level keccak sec1 recover deep oth st) a q = asked oth a q.
  Proof. intros Ha. unfold asked. rewrite (level_other _ _ _ _ _ Ha). reflexivity. Qed.

  Lemma proof_ext c s mu1 mu2 id : mu1 id = mu2 id ->
    get_proof keccak sec1 recover c s mu1 id = get_proof keccak sec1 recover c s mu2 id.
  Proof. intros H. unfold get_proof. by rewrite H. Qed.

  Lemma asked_plain oth (st : gmap addr contract) a q : all_fine st -> proper_question q -> is_Some (st !! a) ->
    asked (chain_querier keccak sec1 recover oth st) a q = plain_answer keccak sec1 recover oth st a q.
  Proof.
    intros Hst Hq [c Ha]. pose proof (Hst _ _ Ha) as Hc. unfold chain_querier. rewrite (asked_level _ _ _ _ _ _ Ha Hc Hq).
    unfold plain_answer. unfold chain in *. rewrite Ha. destruct c as [s|s|s|s|s|s|s|c s], q; try reflexivity; cbn [reply_of].
    all: try (unfold get_chain_info, get_worker_set, query_worker_set, get_service, get_worker, query_get_worker; by rewrite ask_option).
    f_equal. f_equal. apply proof_ext. unfold session_at. unfold chain in *. destruct (st !! pc_multisig c) as [k|] eqn:Hm.
    - rewrite (asked_level _ _ _ _ _ _ Hm (Hst _ _ Hm)) by exact Hq. destruct k; try reflexivity. cbn [reply_of].
      by destruct (ask (get_multisig _ _)).
    - by rewrite (asked_other _ _ _ _ _ Hm).
  Qed.
  Lemma asked_foreign oth (st : gmap addr contract) a q : st !! a = None ->
    asked (chain_querier keccak sec1 recover oth st) a q = asked oth a q.
  Proof. apply asked_other. Qed.

  (** the questions of SystemModel *)
  Lemma sees_verified e n (st : gmap addr contract) a ms : all_fine st -> Forall proper_message ms ->
    tq_is_verified (chain_querier keccak sec1 recover (qn_answer e n) st) a ms
    = q_is_verified keccak (we_env (read_answers e)) n st a ms.
  Proof.
    intros Hst Hq. unfold tq_is_verified, q_is_verified. unfold chain in *. destruct (st !! a) as [c|] eqn:Ha.
    - rewrite (asked_plain _ _ _ _ Hst) by (try done; by rewrite Ha). unfold plain_answer. unfold chain in *. rewrite Ha.
      destruct c; try reflexivity. by destruct (ask _).
    - by rewrite (asked_foreign _ _ _ _ Ha).
  Qed.
  Lemma sees_set_verified e n (st : gmap addr contract) a o : all_fine st -> proper_operators o ->
    tq_set_verified (chain_querier keccak sec1 recover (qn_answer e n) st) a o
    = q_set_verified keccak (we_env (read_answers e)) n st a o.
  Proof.
    intros Hst Hq. unfold tq_set_verified, q_set_verified. unfold chain in *. destruct (st !! a) as [c|] eqn:Ha.
    - rewrite (asked_plain _ _ _ _ Hst) by (try done; by rewrite Ha). unfold plain_answer. unfold chain in *. rewrite Ha.
      destruct c; try reflexivity. by destruct (ask _).
    - by rewrite (asked_foreign _ _ _ _ Ha).
  Qed.
  Lemma sees_messages e n (st : gmap addr contract) a ids : all_fine st -> Forall proper_id ids ->
    tq_messages (chain_querier keccak sec1 recover (qn_answer e n) st) a ids
    = q_messages (we_env (read_answers e)) n st a ids.
  Proof.
    intros Hst Hq. unfold tq_messages, q_messages. unfold chain in *. destruct (st !! a) as [c|] eqn:Ha.
    - rewrite (asked_plain _ _ _ _ Hst) by (try done; by rewrite Ha). unfold plain_answer. unfold chain in *. rewrite Ha.
      destruct c; try reflexivity. by destruct (ask _).
    - by rewrite (asked_foreign _ _ _ _ Ha).
  Qed.
  Lemma sees_active e n (st : gmap addr contract) a svc ch : all_fine st -> proper_chain ch ->
    tq_active (chain_querier keccak sec1 recover (qn_answer e n) st) a svc ch
    = SystemModel.q_active (we_env (read_answers e)) n st a svc ch.
  Proof.
    intros Hst Hq. unfold tq_active, SystemModel.q_active. unfold chain in *. destruct (st !! a) as [c|] eqn:Ha.
    - rewrite (asked_plain _ _ _ _ Hst) by (try done; by rewrite Ha). unfold plain_answer. unfold chain in *. rewrite Ha.
      destruct c; try reflexivity. by destruct (ask _).
    - by rewrite (asked_foreign _ _ _ _ Ha).
  Qed.
  Lemma sees_key e n (st : gmap addr contract) a w t : all_fine st ->
    tq_key (chain_querier keccak sec1 recover (qn_answer e n) st) a w t
    = q_key (we_env (read_answers e)) n st a w t.
  Proof.
    intros Hst. unfold tq_key, q_key. unfold chain in *. destruct (st !! a) as [c|] eqn:Ha.
    - rewrite (asked_plain _ _ _ _ Hst) by (try done; by rewrite Ha). unfold plain_answer. unfold chain in *. rewrite Ha.
      destruct c; try reflexivity. by destruct (ask _).
    - by rewrite (asked_foreign _ _ _ _ Ha).
  Qed.
End Answers.
