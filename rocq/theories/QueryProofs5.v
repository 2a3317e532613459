(** Questions in every reachable state. *)
From Verif Require Import Base BaseLemmas Text StdModel RouterTypes RegistryTypes OperatorsModel MultisigTypes
  EncodingModel VerifierModel RewardsModel RegistryModel RouterModel GatewayModel NexusModel MultisigModel ProverModel
  SystemModel SystemSpec EventsModel JsonModel JsonSpec WireModel WireSpec WireProofs WireSystemModel WireSystemSpec WireProofs8
  QueryModel QuerySpec QueryProofs QueryProofs2 QueryProofs3 QueryProofs4.

Lemma read_level (ow : string -> option jval) t qv (rd : jval -> option question) (rp : question -> option answer) (wr : answer -> string) q (h : bool) :
  ow t = Some qv -> rd qv = (if h then Some q else None) -> (h = false -> rp q = None) ->
  (v ← ow t; q ← rd v; r ← rp q; Some (wr r)) = wr <$> rp q.
Proof. intros H1 H2 H3. rewrite H1. cbn. rewrite H2. destruct h; cbn; [by destruct (rp q)|by rewrite H3]. Qed.

Section Reachable.
  Context (keccak : string -> string) (wshash : worker_set -> string)
          (sec1 : string -> option string) (recover : string -> string -> string -> option N)
          (crypto : key_type -> string -> string -> string -> option bool).
  Notation qsysrun := (qsysrun keccak wshash sec1 recover crypto).
  Notation qsyslog := (qsyslog keccak wshash sec1 recover crypto).
  Notation wsysrun := (wsysrun keccak wshash sec1 crypto).
  Notation wsyslog := (wsyslog keccak wshash sec1 crypto).
  Notation chain_querier := (chain_querier keccak sec1 recover).
  Notation plain_answer := (plain_answer keccak sec1 recover).

  Lemma init_fine d : typed_deployment d -> all_fine (system_init d).
  Proof.
    intros Hd a c H. unfold system_init in H. rewrite lookup_fmap in H. destruct (d !! a) as [x|] eqn:E; [|discriminate H].
    injection H as <-. by eapply deploy_fine.
  Qed.
  Lemma run_fine d txs : typed_deployment d -> Forall typed_tx txs -> all_fine (qsysrun d txs).
  Proof. intros Hd Ht. apply (proj2 (proj2 (qrun_sim keccak wshash sec1 recover crypto txs Ht _ (init_fine d Hd)))). Qed.
  Lemma c106_system d txs : typed_deployment d -> Forall typed_tx txs ->
    qsysrun d txs = wsysrun d (read_qtx <$> txs) /\ read_qentry <$> qsyslog d txs = wsyslog d (read_qtx <$> txs).
  Proof.
    intros Hd Ht. destruct (qrun_sim keccak wshash sec1 recover crypto txs Ht _ (init_fine d Hd)) as (H1 & H2 & _). split; symmetry; [exact H1|exact H2].
  Qed.
  Lemma typed_proper d : typed_deployment d -> proper_deployment d.
  Proof. intros Hd a c H. exact (proj1 (Hd _ _ H)). Qed.
  Lemma typed_txs txs : Forall typed_tx txs -> Forall proper_tx (read_qtx <$> txs).
  Proof. intros H. apply Forall_fmap. eapply Forall_impl; [exact H|]. intros t [He _]. by apply typed_answers. Qed.
  Lemma c106_messages d txs : typed_deployment d -> Forall typed_tx txs ->
    qsysrun d txs = sysrun keccak wshash sec1 crypto d (read_tx d <$> (read_qtx <$> txs)) /\
    read_entry d <$> (read_qentry <$> qsyslog d txs) = syslog keccak wshash sec1 crypto d (read_tx d <$> (read_qtx <$> txs)).
  Proof.
    intros Hd Ht. destruct (c106_system d txs Hd Ht) as [-> ->]. apply c103_system; [by apply typed_proper|by apply typed_txs].
  Qed.
  Lemma c106_transfer d (P : chain -> list (tx * list call) -> Prop) : typed_deployment d ->
    (forall ts, P (sysrun keccak wshash sec1 crypto d ts) (syslog keccak wshash sec1 crypto d ts)) ->
    forall txs, Forall typed_tx txs -> P (qsysrun d txs) (read_entry d <$> (read_qentry <$> qsyslog d txs)).
  Proof. intros Hd HP txs Ht. destruct (c106_messages d txs Hd Ht) as [-> ->]. apply HP. Qed.

  Lemma reply_plain oth (st : gmap addr contract) a c q : all_fine st -> proper_question q -> st !! a = Some c ->
    reply_of keccak sec1 recover (level keccak sec1 recover (fun _ _ => None) oth st) c q = plain_answer oth st a q.
  Proof.
    intros Hst Hq Ha. rewrite <- (asked_plain keccak sec1 recover oth st a q Hst Hq) by (rewrite Ha; by eexists).
    symmetry. apply asked_level; [exact Ha|exact (Hst _ _ Ha)|exact Hq].
  Qed.
  Lemma text_answer oth (st : gmap addr contract) a q : all_fine st -> proper_question q -> is_Some (st !! a) ->
    chain_querier oth st a (t_question q) = t_answer <$> plain_answer oth st a q.
  Proof.
    intros Hst Hq [c Ha]. unfold QueryModel.chain_querier. rewrite (level_at _ _ _ _ _ _ _ _ _ Ha). rewrite <- question_text.
    rewrite (read_level of_wire _ (e_question q) _ _ _ q (hears c q)).
    - rewrite (reply_plain oth st a c q Hst Hq Ha). destruct (plain_answer oth st a q) as [r|]; [|reflexivity].
      apply (f_equal Some). apply answer_text.
    - apply of_wire_to_json. eapply readable_mono; [|apply question_readable]; lia.
    - by apply question_read.
    - apply deaf.
  Qed.
  Lemma any_text oth (st : gmap addr contract) a t r : all_fine st -> is_Some (st !! a) -> chain_querier oth st a t = Some r ->
    exists q x, proper_question q /\ plain_answer oth st a q = Some x /\ r = t_answer x /\ chain_querier oth st a (t_question q) = Some r.
  Proof.
    intros Hst [c Ha] H. unfold QueryModel.chain_querier in H. rewrite (level_at _ _ _ _ _ _ _ _ _ Ha) in H.
    apply bind_Some in H as (v & _ & H). apply bind_Some in H as (q & Hq & H). apply bind_Some in H as (x & Hx & H).
    apply read_proper in Hq as [Hq _]. rewrite (reply_plain oth st a c q Hst Hq Ha) in Hx. injection H as <-.
    exists q, x. split; [exact Hq|]. split; [exact Hx|]. split; [apply answer_text|].
    rewrite (text_answer oth st a q Hst Hq) by (rewrite Ha; by eexists). rewrite Hx. cbn [fmap option_fmap option_map].
    apply (f_equal Some). symmetry. apply answer_text.
  Qed.

  Lemma c106_answered d txs oth a q : typed_deployment d -> Forall typed_tx txs -> proper_question q ->
    let st := qsysrun d txs in is_Some (st !! a) ->
    chain_querier oth st a (t_question q) = t_answer <$> plain_answer oth st a q /\
    asked (chain_querier oth st) a q = plain_answer oth st a q.
  Proof.
    intros Hd Ht Hq st Ha. pose proof (run_fine d txs Hd Ht) as Hst. split; [by apply text_answer|by apply asked_plain].
  Qed.
  Lemma c106_any_text d txs oth a t r : typed_deployment d -> Forall typed_tx txs ->
    let st := qsysrun d txs in is_Some (st !! a) -> chain_querier oth st a t = Some r ->
    exists q x, proper_question q /\ plain_answer oth st a q = Some x /\ r = t_answer x /\ chain_querier oth st a (t_question q) = Some r.
  Proof. intros Hd Ht st Ha. apply any_text; [exact (run_fine d txs Hd Ht)|exact Ha]. Qed.
  Lemma c106_polls d txs oth a id : typed_deployment d -> Forall typed_tx txs -> id < 2 ^ 64 ->
    let st := qsysrun d txs in is_Some (st !! a) -> chain_querier oth st a (t_question (QPoll id)) = None.
  Proof.
    intros Hd Ht Hi st Ha. destruct (c106_answered d txs oth a (QPoll id) Hd Ht Hi Ha) as [H _]. fold st in H.
    transitivity (t_answer <$> plain_answer oth st a (QPoll id)); [exact H|]. unfold QuerySpec.plain_answer.
    destruct (st !! a) as [[]|]; reflexivity.
  Qed.
End Reachable.
