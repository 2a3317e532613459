(** Questions and answers are read back from their texts. *)
From Verif Require Import Base BaseLemmas MapLemmas StdProofs Text TextLemmas StdModel RouterTypes RegistryTypes OperatorsModel MultisigTypes
  EncodingModel VerifierModel RewardsModel RegistryModel RouterModel GatewayModel NexusModel MultisigModel ProverModel
  SystemModel EventsModel JsonModel JsonSpec JsonProofs WireModel WireSpec WireSpec2 WireProofs WireProofs2 WireProofs3 WireProofs9
  StorageModel Storage2Model Storage3Model Storage3Spec2 Storage3Proofs2 Storage3Proofs7 WireSystemModel WireSystemSpec QueryModel QuerySpec.

(** ** Questions *)
Definition hears (c : contract) (q : question) : bool :=
  match c, q with
  | CRouter _, QChainInfo _ | CGateway _, QMessages _ | CVerifier _, (QPoll _ | QVerified _ | QSetVerified _)
  | CMultisig _, (QMultisig _ | QSet _ | QKey _ _) | CProver _ _, (QProof _ | QCurrentSet)
  | CRegistry _, (QActive _ _ | QService _ | QWorker _ _) => true
  | _, _ => false
  end.
Lemma key_type_ok t : d_key_type (e_key_type t) = Some t.
Proof. by destruct t. Qed.
Lemma question_readable q : readable 8 (e_question q).
Proof.
  assert (forall m, readable 2 (e_message m)) as Hm.
  { intros m. unfold e_message, e_ccid. obj; try apply readable_str. obj; apply readable_str. }
  destruct q as [c|ids|i|ms|o|i|i|w t|i| |s c|s|s w]; cbn [e_question]; unfold tagged.
  - obj. apply readable_str.
  - obj. obj. constructor. apply Forall_fmap, Forall_forall. intros c _. cbn. unfold e_ccid. obj; apply readable_str.
  - obj. obj. apply readable_str.
  - obj. obj. constructor. apply Forall_fmap, Forall_forall. intros m _. cbn. lift (Hm m).
  - obj. obj. unfold e_operators. obj; [|apply readable_str]. constructor. apply Forall_fmap, Forall_forall. intros p _. cbn.
    constructor. repeat constructor.
  - obj. obj. apply readable_str.
  - obj. obj. apply readable_str.
  - obj. obj; [|destruct t]; apply readable_str.
  - obj. obj. apply readable_str.
  - apply readable_str.
  - obj. obj; apply readable_str.
  - obj. obj; apply readable_str.
  - obj. obj; apply readable_str.
Qed.
Ltac qtag := unfold is; match goal with |- context [variant ?v] =>
  match v with JObj [(?n, ?b)] => change (variant v) with (Some (n, b)) end end;
  cbn [mbind option_bind fst snd]; eqbs; cbn [fst snd].
Lemma question_read c q : proper_question q -> read_question c (e_question q) = if hears c q then Some q else None.
Proof.
  intros Hq. destruct q as [n|ids|i|ms|o|i|i|w t|i| |s n|s|s w]; cbn [proper_question] in Hq; cbn [e_question]; unfold tagged.
  - destruct (proj1 codec_chain n Hq) as [_ D]. destruct c; cbn [read_question hears]; try reflexivity;
      unfold d_rt_q, d_gw_q, d_vv_q, d_ms_q, d_pr_q, d_sr_q; qtag; try reflexivity. by rewrite D.
  - destruct (proj1 codec_ids ids Hq) as [_ D]. destruct c; cbn [read_question hears]; try reflexivity;
      unfold d_rt_q, d_gw_q, d_vv_q, d_ms_q, d_pr_q, d_sr_q; qtag; try reflexivity; to_fields; done.
  - destruct (proj1 codec_u64 i Hq) as [_ D]. destruct c; cbn [read_question hears]; try reflexivity;
      unfold d_rt_q, d_gw_q, d_vv_q, d_ms_q, d_pr_q, d_sr_q; qtag; try reflexivity; to_fields; done.
  - destruct (proj1 codec_messages ms Hq) as [_ D]. destruct c; cbn [read_question hears]; try reflexivity;
      unfold d_rt_q, d_gw_q, d_vv_q, d_ms_q, d_pr_q, d_sr_q; qtag; try reflexivity; to_fields; done.
  - destruct (proj1 codec_operators o Hq) as [_ D]. destruct c; cbn [read_question hears]; try reflexivity;
      unfold d_rt_q, d_gw_q, d_vv_q, d_ms_q, d_pr_q, d_sr_q; qtag; try reflexivity; to_fields; done.
  - destruct (proj1 codec_u64 i Hq) as [_ D]. destruct c; cbn [read_question hears]; try reflexivity;
      unfold d_rt_q, d_gw_q, d_vv_q, d_ms_q, d_pr_q, d_sr_q; qtag; try reflexivity; to_fields; done.
  - pose proof (str_ok i). destruct c; cbn [read_question hears]; try reflexivity;
      unfold d_rt_q, d_gw_q, d_vv_q, d_ms_q, d_pr_q, d_sr_q; qtag; try reflexivity; to_fields; done.
  - pose proof (str_ok w). pose proof (key_type_ok t). destruct c; cbn [read_question hears]; try reflexivity;
      unfold d_rt_q, d_gw_q, d_vv_q, d_ms_q, d_pr_q, d_sr_q; qtag; try reflexivity; to_fields; done.
  - destruct (proj1 codec_u64 i Hq) as [_ D]. destruct c; cbn [read_question hears]; try reflexivity;
      unfold d_rt_q, d_gw_q, d_vv_q, d_ms_q, d_pr_q, d_sr_q; qtag; try reflexivity; to_fields; done.
  - destruct c; reflexivity.
  - pose proof (str_ok s). destruct (proj1 codec_chain n Hq) as [_ D]. destruct c; cbn [read_question hears]; try reflexivity;
      unfold d_rt_q, d_gw_q, d_vv_q, d_ms_q, d_pr_q, d_sr_q; qtag; try reflexivity; to_fields; done.
  - pose proof (str_ok s). destruct c; cbn [read_question hears]; try reflexivity;
      unfold d_rt_q, d_gw_q, d_vv_q, d_ms_q, d_pr_q, d_sr_q; qtag; try reflexivity; to_fields; done.
  - pose proof (str_ok s). pose proof (str_ok w). destruct c; cbn [read_question hears]; try reflexivity;
      unfold d_rt_q, d_gw_q, d_vv_q, d_ms_q, d_pr_q, d_sr_q; qtag; try reflexivity; to_fields; done.
Qed.
Ltac qtags H := unfold is in H; tags H.
Lemma read_proper c v q : read_question c v = Some q -> proper_question q /\ hears c q = true.
Proof.
  destruct c; cbn [read_question]; intros H; try discriminate H.
  - unfold d_rt_q in H. qtags H. destruct (d_chain _) eqn:E; [|discriminate H]. injection H as <-. split; [by eapply codec_chain|done].
  - unfold d_gw_q in H. qtags H. inv_fields H. injection H as <-. split; [by eapply codec_ids|done].
  - unfold d_vv_q in H. qtags H; inv_fields H; injection H as <-; (split; [|done]);
      [by eapply codec_u64|by eapply codec_messages|by eapply codec_operators].
  - unfold d_sr_q in H. qtags H; inv_fields H; injection H as <-; (split; [|done]); cbn [proper_question]; try done. by eapply codec_chain.
  - unfold d_ms_q in H. qtags H; inv_fields H; injection H as <-; (split; [|done]); cbn [proper_question]; try done. by eapply codec_u64.
  - unfold d_pr_q in H. destruct v; try (qtags H; inv_fields H; injection H as <-; (split; [by eapply codec_u64|done])).
    unfold is in H. destruct (String.eqb _ _); [|discriminate H]. by injection H as <-.
Qed.

(** ** Answers *)
Definition proper_multisig (m : multisig) : Prop :=
  proper_state (mu_state m) /\ mu_quorum m < 2 ^ 256 /\
  Forall (fun p => sg_weight p.1 < 2 ^ 256 /\ proper_key (sg_key p.1)) (mu_signers m).
Definition proper_proof (p : proof_response) : Prop :=
  pr_session p < 2 ^ 64 /\ Forall proper_id (pr_ids p) /\ EncodingModel.d_chain (pr_data p) < 2 ^ 256.
Definition proper_answer (a : answer) : Prop :=
  match a with
  | AChainInfo e => proper_chain (ce_name e) /\ ce_frozen e < 4
  | AMessages ms => Forall proper_message ms
  | AVerified l => Forall (fun p => proper_id p.1) l
  | ASetVerified _ => True
  | AMultisig m => proper_multisig m
  | ASet w => proper_set w
  | AKey k => proper_key k
  | AProof p => proper_proof p
  | AWorkers l => Forall (fun w => proper_bond (w_bond w)) l
  | AService s => proper_service s
  | AWorker w => proper_bond (w_bond w)
  end.
Definition answers_to (q : question) (a : answer) : bool :=
  match q, a with
  | QChainInfo _, AChainInfo _ | QMessages _, AMessages _ | QVerified _, AVerified _ | QSetVerified _, ASetVerified _
  | QMultisig _, AMultisig _ | (QSet _ | QCurrentSet), ASet _ | QKey _ _, AKey _ | QProof _, AProof _
  | QActive _ _, AWorkers _ | QService _, AService _ | QWorker _ _, AWorker _ => true
  | _, _ => false
  end.
Lemma fwd_of {A} (e : A -> jval) d P n : codec e d P n -> fwd e d P n.
Proof. by intros [H _]. Qed.
Lemma fwd_pair {A B} (e1 : A -> jval) d1 P1 n1 (e2 : B -> jval) d2 P2 n2 :
  fwd e1 d1 P1 n1 -> fwd e2 d2 P2 n2 ->
  fwd (e_pair e1 e2) (d_pair d1 d2) (fun p => P1 p.1 /\ P2 p.2) (S (Nat.max n1 n2)).
Proof.
  intros H1 H3 [a b] [Ha Hb]. cbn [fst snd] in *. destruct (H1 a Ha) as [R1 D1], (H3 b Hb) as [R2 D2]. split.
  - constructor. repeat constructor; [eapply readable_mono; [|exact R1]|eapply readable_mono; [|exact R2]]; lia.
  - cbn. rewrite D1. cbn. rewrite D2. done.
Qed.
Lemma fwd_opt_sig : fwd (e_opt e_signature) (d_opt d_signature) (fun _ => True) 1.
Proof.
  intros [s|] _; [|split; [apply readable_null|done]]. have fwd_signature s I. split; [exact R|].
  cbn [e_opt]. unfold d_opt. destruct s; cbn [e_signature] in *; by rewrite D.
Qed.
Lemma fwd_bool : fwd JBool d_bool (fun _ => True) 0.
Proof. intros b _. split; [constructor|done]. Qed.
Lemma fwd_statuses : fwd (e_list (e_pair e_ccid JBool)) (d_vec (d_pair d_ccid d_bool)) (Forall (fun p => proper_id p.1)) 3.
Proof.
  intros l Hl. apply (fwd_list _ _ _ _ (fwd_pair _ _ _ _ _ _ _ _ (fwd_of _ _ _ _ codec_ccid) fwd_bool)).
  eapply Forall_impl; [exact Hl|]. done.
Qed.
Lemma fwd_signers : fwd (e_list (e_pair e_signer (e_opt e_signature))) (d_vec (d_pair d_signer (d_opt d_signature)))
  (Forall (fun p => sg_weight p.1 < 2 ^ 256 /\ proper_key (sg_key p.1))) 4.
Proof.
  intros l Hl. apply (fwd_list _ _ _ _ (fwd_pair _ _ _ _ _ _ _ _ (fwd_of _ _ _ _ codec_signer) fwd_opt_sig)).
  eapply Forall_impl; [exact Hl|]. done.
Qed.
Lemma fwd_multisig : fwd e_multisig d_multisig proper_multisig 5.
Proof.
  intros [s q g] (Hs & Hq & Hg). cbn in Hs, Hq, Hg. have fwd_ms_state s Hs. pose proof (uint_ok U256 q Hq). have fwd_signers g Hg.
  split; [unfold e_multisig; cbn [mu_state mu_quorum mu_signers]; obj; rd|].
  unfold e_multisig, d_multisig. cbn [mu_state mu_quorum mu_signers]. to_fields. done.
Qed.
Lemma fwd_proof_status : fwd e_proof_status d_proof_status (fun _ => True) 2.
Proof.
  intros [|d] _; [split; [rd|done]|]. cbn [e_proof_status]. unfold tagged. pose proof (hex_ok d). split; [obj; obj; rd|].
  unfold d_proof_status. qtag. to_fields. done.
Qed.
Lemma fwd_proof : fwd e_proof d_proof proper_proof 5.
Proof.
  intros [i m d s] (Hi & Hm & Hd). cbn in Hi, Hm, Hd. pose proof (uint_ok U64 i Hi). have (fwd_of _ _ _ _ codec_ids) m Hm.
  have fwd_data d Hd. have fwd_proof_status s I.
  split; [unfold e_proof; cbn [pr_session pr_ids pr_data pr_status]; obj; rd|].
  unfold e_proof, d_proof. cbn [pr_session pr_ids pr_data pr_status]. to_fields. done.
Qed.
Lemma fwd_workers : fwd (e_list e_worker) (d_vec d_worker) (Forall (fun w => proper_bond (w_bond w))) 4.
Proof. apply fwd_list, fwd_worker. Qed.
Lemma answer_read q a : answers_to q a = true -> proper_answer a -> (v ← of_wire (to_json (e_answer a)); d_answer q v) = Some a.
Proof.
  intros Hk Ha.
  assert (forall {A} (e : A -> jval) d (P : A -> Prop) n (f : A -> answer) x, fwd e d P n -> (n <= 127)%nat -> P x ->
    (v ← of_wire (to_json (e x)); f <$> d v) = Some (f x)) as Hf.
  { intros A e d P n f x Hfw Hn Hx. destruct (Hfw x Hx) as [R D]. rewrite of_wire_to_json by (by eapply readable_mono).
    cbn [mbind option_bind]. by rewrite D. }
  destruct a as [x|x|x|x|x|x|x|x|x|x|x], q; try discriminate Hk; cbn [proper_answer] in Ha; cbn [e_answer d_answer].
  - apply (Hf _ _ _ _ 2%nat _ _ fwd_endpoint); [lia|done].
  - apply (Hf _ _ _ _ 3%nat _ _ (fwd_of _ _ _ _ codec_messages)); [lia|done].
  - apply (Hf _ _ _ _ 3%nat _ _ fwd_statuses); [lia|done].
  - apply (Hf _ _ _ _ 0%nat _ _ fwd_bool); [lia|done].
  - apply (Hf _ _ _ _ 5%nat _ _ fwd_multisig); [lia|done].
  - apply (Hf _ _ _ _ 4%nat _ _ (fwd_of _ _ _ _ codec_worker_set)); [lia|done].
  - apply (Hf _ _ _ _ 4%nat _ _ (fwd_of _ _ _ _ codec_worker_set)); [lia|done].
  - apply (Hf _ _ _ _ 1%nat _ _ (fwd_of _ _ _ _ codec_key)); [lia|done].
  - apply (Hf _ _ _ _ 5%nat _ _ fwd_proof); [lia|done].
  - apply (Hf _ _ _ _ 4%nat _ _ fwd_workers); [lia|done].
  - apply (Hf _ _ _ _ 1%nat _ _ fwd_service); [lia|done].
  - apply (Hf _ _ _ _ 3%nat _ _ fwd_worker); [lia|done].
Qed.

(** ** The texts *)
Lemma question_text q : to_json (e_question q) = t_question q.
Proof.
  destruct q as [c|ids|i|ms|o|i|i|w t|i| |s c|s|s w]; unfold e_question, t_question, tagged, e_uint; cbn [to_json List.map fst snd].
  - text.
  - rewrite (list_text _ _ _ id_text). text.
  - text.
  - rewrite messages_text. gen (t_messages ms). text.
  - rewrite operators_text. gen (t_operators o). text.
  - text.
  - text.
  - destruct t; cbn [e_key_type to_json]; text.
  - text.
  - text.
  - text.
  - text.
  - text.
Qed.
Lemma status_text p : to_json (e_pair e_ccid JBool p) = t_status p.
Proof. unfold e_pair, t_status. cbn [to_json List.map fst snd]. rewrite id_text. gen (t_id p.1). destruct p.2; text. Qed.
Lemma sig_text s : to_json (e_signature s) = k_multisig (MvSig s).
Proof. exact (sx_multisig (MvSig s)). Qed.
Lemma signed_text p : to_json (e_pair e_signer (e_opt e_signature) p) = t_signed p.
Proof.
  unfold e_pair, t_signed, e_signer, e_uint. cbn [to_json List.map fst snd]. rewrite key_text, (opt_text _ _ _ sig_text).
  gen (t_key (sg_key p.1)). text.
Qed.
Lemma answer_text a : to_json (e_answer a) = t_answer a.
Proof.
  destruct a as [x|x|x|x|x|x|x|x|x|x|x]; cbn [e_answer t_answer].
  - exact (sx_router (RvChain x)).
  - apply messages_text.
  - exact (list_text _ _ _ status_text).
  - by destruct x.
  - unfold e_multisig, e_uint. cbn [to_json List.map fst snd]. rewrite sx_state, (list_text _ _ _ signed_text).
    gen (s_state (mu_state x)). text.
  - apply set_text.
  - apply key_text.
  - unfold e_proof, e_data, e_uint. cbn [to_json List.map fst snd]. rewrite (list_text _ _ _ id_text), (list_text _ _ _ sx_command).
    destruct (pr_status x) as [|d]; unfold e_proof_status, tagged, e_hex; cbn [to_json List.map fst snd]; text.
  - exact (list_text _ _ _ (fun w => sx_registry (SvWorker w))).
  - exact (sx_registry (SvService x)).
  - exact (sx_registry (SvWorker x)).
Qed.
