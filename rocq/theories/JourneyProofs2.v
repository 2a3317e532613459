(** Proofs about the whole way of a message: in the composed system. *)
From stdpp Require Import sorting.
From Verif Require Import Base Text TextLemmas BaseLemmas MapLemmas StdModel StdSpec RouterTypes RegistryTypes MultisigTypes
  OperatorsModel EncodingModel RouterModel GatewayModel NexusModel VerifierModel VerifierSpec VerifierProofs VerifierProofs2 VerifierProofs3
  EventsModel HandlersModel HandlersSpec HandlersProofs HandlersProofs2 WorkersSpec WorkersProofs WorkersProofs2
  ProverModel ProverSpec SigningModel SystemModel SystemSpec SystemProofs SystemProofs2 SystemProofs3 SystemProofs4 SystemProofs6 SystemProofs9
  JourneySpec JourneyProofs.

Section Journey.
  Context (keccak : string -> string) (wshash : worker_set -> string)
          (sec1 : string -> option string)
          (crypto : key_type -> string -> string -> string -> option bool)
          (acc : string -> bool) (json : string -> option jval) (b58 : string -> option string).
  Context (dep : gmap addr deployed) (txs : list tx).
  Notation history := (history keccak wshash sec1 crypto dep txs).
  Notation announces := (announces keccak json).
  Notation watched := (watched keccak acc json b58).
  Notation runs_ampd := (runs_ampd keccak acc json b58).

  (** The poll that a call opened is in the verifier's log. *)
  Lemma called_logged v vc k vs vs' op out : dep !! v = Some (DVerifier vc) -> k ∈ history -> k_to k = v ->
    k_chain k !! v = Some (CVerifier vs) ->
    verifier_op (en_height (k_env k)) (q_active (k_env k) (k_index k) (k_chain k)) (k_sender k) (sb_body (k_sub k)) = Some op ->
    verifier_step keccak vs op = Ok (vs', out) ->
    (op, out) ∈ vlog keccak vc (verifier_ops v history) /\ v_config vs = vc.
  Proof.
    intros Hd Hk Hto Hvs Hop Hst. apply elem_of_list_split in Hk as (pre & post & Hk).
    pose proof (shape_at keccak wshash sec1 crypto dep txs _ _ _ v Hk) as Hsh. rewrite Hd, Hvs in Hsh. cbn [shape] in Hsh.
    injection Hsh as ->. split.
    - rewrite Hk. unfold verifier_ops, calls_to. rewrite omap_app. cbn [omap list_omap].
      rewrite bool_decide_eq_true_2 by done. rewrite Hop.
      unfold vlog. rewrite log_app. apply elem_of_app. right. cbn [log]. apply elem_of_app. left.
      unfold log1. unfold vrun, verifier_ops, calls_to in Hst. rewrite Hst. by left.
    - by destruct (VerifierProofs.inv_run keccak vc (verifier_ops v pre)).
  Qed.

  Lemma same_event v vc k1 ev1 k2 vs vs' op out w a ballot id : dep !! v = Some (DVerifier vc) ->
    k1 ∈ history -> announces v k1 ev1 -> answers acc b58 w v a id ballot ev1 ->
    k2 ∈ history -> k_to k2 = v -> k_chain k2 !! v = Some (CVerifier vs) ->
    verifier_op (en_height (k_env k2)) (q_active (k_env k2) (k_index k2) (k_chain k2)) (k_sender k2) (sb_body (k_sub k2)) = Some op ->
    verifier_step keccak vs op = Ok (vs', out) -> opened_id out = Some id ->
    emitted json v (op, out) = Some ev1.
  Proof.
    intros Hd Hk1 (Hto1 & vs1 & vs1' & op1 & out1 & Hvs1 & Hop1 & Hst1 & Hem) Han Hk2 Hto2 Hvs2 Hop2 Hst2 Hid.
    destruct (called_logged _ _ _ _ _ _ _ Hd Hk1 Hto1 Hvs1 Hop1 Hst1) as [Hl1 _].
    destruct (called_logged _ _ _ _ _ _ _ Hd Hk2 Hto2 Hvs2 Hop2 Hst2) as [Hl2 _].
    assert ((op, out) = (op1, out1)) as ->; [|done].
    eapply one_event; [exact Hl2|exact Hl1|exact Hid|].
    unfold emitted in Hem. cbn [snd] in *. destruct out1 as [st [[es meta]|] | tx i o meta| |]; try done; injection Hem as <-; cbn; f_equal.
    - symmetry. by eapply answers_id_msg.
    - symmetry. by eapply answers_id_ws.
  Qed.

  Lemma voted_mono v t l l' id expires workers idx : (forall k, k ∈ l -> k ∈ l') ->
    voted v t l id expires workers idx -> voted v t l' id expires workers idx.
  Proof.
    intros H (voters & Hnd & Hv & Hq). exists voters. split; [done|]. split; [|done]. intros a Ha.
    destruct (Hv a Ha) as (Hw & k & ballot & Hk & ?). split; [done|]. exists k, ballot. split; [by apply H|done].
  Qed.

  (** Of the workers that voted for an item, a trusted one, and what it
      answered to. *)
  Lemma trusted_answer w trusted v vc k ev workers t l id expires idx :
    watched w trusted v vc history -> k ∈ history -> announces v k ev -> named vc k workers ->
    (forall x, x ∈ l -> x ∈ history) -> t = vc_threshold vc -> voted v t l id expires workers idx ->
    exists a ballot k1 ev1, ballot !! idx = Some SucceededOnChain /\ k1 ∈ history /\ announces v k1 ev1 /\
      answers acc b58 w v a id ballot ev1.
  Proof.
    intros (_ & _ & Hf & Hm) Hk Ha Hn Hsub -> (voters & Hnd & Hv & Hq).
    destruct (trusted_voter trusted workers voters (t_num (vc_threshold vc)) (t_den (vc_threshold vc))) as (a & Hav & Hat).
    { done. } { intros a Hav. by apply Hv. } { done. } { by eapply Hm. }
    destruct (Hv a Hav) as (_ & k2 & ballot & Hk2 & Hto & Hs & Hb & _ & Hi).
    rewrite Forall_forall in Hf. apply Hsub, elem_of_list_split in Hk2 as (pre & post & Hsp).
    destruct (Hf a Hat pre k2 post id ballot Hsp Hto Hs Hb) as (k1 & ev1 & Hk1 & Han & Hr).
    exists a, ballot, k1, ev1. split; [done|]. split; [|done]. rewrite Hsp. apply elem_of_app. by left.
  Qed.

  Lemma quorum_sent w trusted v vc l m : dep !! v = Some (DVerifier vc) -> watched w trusted v vc history ->
    (exists post, history = l ++ post) -> message_quorum keccak v vc l m ->
    cc_chain (m_cc m) = vc_chain vc /\ was_sent b58 w vc m.
  Proof.
    intros Hd Hw [post Hp] (l1 & k & l2 & vs & vs' & ms & st & es & meta & workers & idx & ev & -> & Hto & Hvs & Hb & Hm & Hver & Hev & Hte & _ & Hgw & Hn & Hvo).
    assert (Hsub : forall x, x ∈ l1 ++ k :: l2 -> x ∈ history) by (intros x Hx; rewrite Hp; apply elem_of_app; by left).
    assert (Hk : k ∈ history) by (apply Hsub; set_solver).
    assert (Hop : verifier_op (en_height (k_env k)) (q_active (k_env k) (k_index k) (k_chain k)) (k_sender k) (sb_body (k_sub k)) =
      Some (VerifyMessages (en_height (k_env k)) (q_active (k_env k) (k_index k) (k_chain k)) ms)) by (by rewrite Hb).
    pose proof Hver as Hst. change (verify_messages keccak vs (en_height (k_env k)) (q_active (k_env k) (k_index k) (k_chain k)) ms)
      with (verifier_step keccak vs (VerifyMessages (en_height (k_env k)) (q_active (k_env k) (k_index k) (k_chain k)) ms)) in Hst.
    destruct (called_logged _ _ _ _ _ _ _ Hd Hk Hto Hvs Hop Hst) as [_ Hcfg].
    apply verify_messages_ok in Hver as (_ & Hch & statuses & _ & Ho). rewrite Hcfg in Hch.
    destruct Ho as [(_ & _ & ?)|(_ & ws' & snap & tbl & es' & _ & _ & _ & _ & _ & _ & _ & Ho)]; [done|].
    injection Ho as _ _ Hmeta. rewrite Hcfg in Hmeta.
    split; [by rewrite Forall_forall in Hch; apply Hch|].
    assert (Han : announces v k (messages_poll_event json v es meta)).
    { split; [done|]. exists vs, vs', (VerifyMessages (en_height (k_env k)) (q_active (k_env k) (k_index k) (k_chain k)) ms), (OutVerify st (Some (es, meta))). done. }
    assert (Hsub2 : forall x, x ∈ l2 -> x ∈ history) by (intros x Hx; apply Hsub; set_solver).
    destruct (trusted_answer _ _ _ _ _ _ _ _ _ _ _ _ Hw Hk Han Hn Hsub2 eq_refl Hvo)
      as (a & ballot & k1 & ev1 & Hbal & Hk1 & Han1 & Hans).
    pose proof (same_event _ _ _ _ _ _ _ _ _ _ _ _ _ Hd Hk1 Han1 Hans Hk Hto Hvs Hop Hst eq_refl) as Heq.
    unfold emitted in Heq. cbn [snd] in Heq. injection Heq as <-.
    destruct Hw as (_ & Hj & _). eapply answers_msg in Hans; [|exact Hj|done|by rewrite Hmeta].
    destruct (Forall2_lookup_l _ _ _ _ _ Hans Hev) as (x & Hx & Hs). rewrite Hbal in Hx. injection Hx as <-.
    eapply sent_message; [exact Hte|]. by apply Hs.
  Qed.

  Lemma quorum_taken w trusted v vc l o : dep !! v = Some (DVerifier vc) -> watched w trusted v vc history ->
    (exists post, history = l ++ post) -> Forall (fun p => p.2 < U256) (o_weights o) -> o_threshold o < U256 ->
    operators_quorum keccak v vc l o ->
    exists k mid, k ∈ l /\ k_to k = v /\ sb_body (k_sub k) = BVerifyWorkerSet mid o /\ took_over b58 w vc mid o.
  Proof.
    intros Hd Hw [post Hp] Hws Hth (l1 & k & l2 & vs & vs' & mid & tx & idx & meta & workers & -> & Hto & Hvs & Hb & Hver & _ & Hgw & Hn & Hvo).
    assert (Hsub : forall x, x ∈ l1 ++ k :: l2 -> x ∈ history) by (intros x Hx; rewrite Hp; apply elem_of_app; by left).
    assert (Hk : k ∈ history) by (apply Hsub; set_solver).
    assert (Hop : verifier_op (en_height (k_env k)) (q_active (k_env k) (k_index k) (k_chain k)) (k_sender k) (sb_body (k_sub k)) =
      Some (VerifyWorkerSet (en_height (k_env k)) (q_active (k_env k) (k_index k) (k_chain k)) mid o)) by (by rewrite Hb).
    pose proof Hver as Hst. change (verify_worker_set keccak vs (en_height (k_env k)) (q_active (k_env k) (k_index k) (k_chain k)) mid o)
      with (verifier_step keccak vs (VerifyWorkerSet (en_height (k_env k)) (q_active (k_env k) (k_index k) (k_chain k)) mid o)) in Hst.
    destruct (called_logged _ _ _ _ _ _ _ Hd Hk Hto Hvs Hop Hst) as [_ Hcfg].
    apply verify_worker_set_ok in Hver as (st & ws' & snap & tx' & idx' & _ & _ & _ & _ & Hpid & _ & Ho).
    injection Ho as -> -> Hmeta. rewrite Hcfg in Hmeta.
    assert (Han : announces v k (worker_set_poll_event json v tx' idx' o meta)).
    { split; [done|]. exists vs, vs', (VerifyWorkerSet (en_height (k_env k)) (q_active (k_env k) (k_index k) (k_chain k)) mid o), (OutWorkerSet tx' idx' o meta). done. }
    assert (Hsub2 : forall x, x ∈ l2 -> x ∈ history) by (intros x Hx; apply Hsub; set_solver).
    destruct (trusted_answer _ _ _ _ _ _ _ _ _ _ _ _ Hw Hk Han Hn Hsub2 eq_refl Hvo)
      as (a & ballot & k1 & ev1 & Hbal & Hk1 & Han1 & Hans).
    pose proof (same_event _ _ _ _ _ _ _ _ _ _ _ _ _ Hd Hk1 Han1 Hans Hk Hto Hvs Hop Hst eq_refl) as Heq.
    unfold emitted in Heq. cbn [snd] in Heq. injection Heq as <-.
    destruct Hw as (_ & Hj & _). eapply answers_ws in Hans; [|exact Hj|done|by rewrite Hmeta|done].
    exists k, mid. split; [set_solver|]. split; [done|]. split; [done|]. by eapply taken_operators.
  Qed.

  Context (watches : addr -> option (watch * list addr)) (Hall : well_watched keccak acc json b58 watches dep history).
  Lemma arrived_came r rc d l m : (exists post, history = l ++ post) ->
    arrived keccak dep r rc d l m -> came b58 watches dep r rc d l m.
  Proof.
    intros [post Hp] (pre & k & post' & rs & -> & Hr & Hfrom & Hver & Hnx). exists pre, k, post', rs.
    split; [done|]. split; [done|]. split; [done|]. split; [|done].
    intros gc vc w trusted Hg Hv Hw. pose proof (Hall _ _ _ _ Hv Hw) as Hwd. destruct (Hver gc vc Hg Hv) as [_ Hq].
    eapply quorum_sent; [exact Hv|exact Hwd| |apply Hq, Hwd]. exists (k :: post' ++ post). rewrite Hp. by rewrite <- app_assoc.
  Qed.
End Journey.
