From Verif Require Import Base BaseLemmas Text TextLemmas StdModel RouterTypes RegistryTypes MultisigTypes EventsModel HandlersModel
  HandlersSpec SubscriptionModel SubscriptionSpec SubscriptionProofs3 QueueModel QueueSpec QueueProofs QueueProofs2 SystemModel
  DaemonModel DaemonSpec.

(** ** Labels *)
Lemma tail_inj (a b : string) : String.length a = String.length b -> forall s t, s +:+ a = t +:+ b -> s = t /\ a = b.
Proof.
  intros Hl s. induction s as [|c s IH]; intros [|d t] H; cbn in H.
  - done.
  - subst a. cbn in Hl. rewrite app_length_str in Hl. lia.
  - subst b. cbn in Hl. rewrite app_length_str in Hl. lia.
  - injection H as -> H. destruct (IH _ H) as [-> ->]. done.
Qed.
Lemma app_assoc_str (a b c : string) : a +:+ (b +:+ c) = (a +:+ b) +:+ c.
Proof. induction a as [|x a IH]; [done|]. cbn. by f_equal. Qed.
Lemma chain_str n : evm_chain_str (evm_chain_of n) = n.
Proof. unfold evm_chain_of. destruct (String.eqb_spec n "Ethereum") as [->|]; done. Qed.
Lemma chain_of_inj n n' : evm_chain_of n = evm_chain_of n' -> n = n'.
Proof. intros H. by rewrite <- (chain_str n), <- (chain_str n'), H. Qed.

(** a label is two parts, the second of 13 characters *)
Definition parts (c : handler_config) : string * string :=
  match c with
  | EvmMsgVerifier _ n => (n, "-msg-verifier")
  | EvmWorkerSetVerifier _ n => (n +:+ "-worker", "-set-verifier")
  | MultisigSigner _ => ("mu", "ltisig-signer")
  | SuiMsgVerifier _ => ("sui", "-msg-verifier")
  | SuiWorkerSetVerifier _ => ("sui-worker", "-set-verifier")
  end.
Lemma label_parts c : label c = (parts c).1 +:+ (parts c).2.
Proof.
  destruct c; cbn [parts fst snd label]; rewrite ?chain_str; try done.
  by rewrite <- app_assoc_str.
Qed.
Lemma label_same c d : label c = label d -> parts c = parts d.
Proof.
  rewrite !label_parts. intros H. apply tail_inj in H as [H1 H2]; [by apply injective_projections|].
  by destruct c, d.
Qed.
Lemma label_of_parts c d : parts c = parts d -> label c = label d.
Proof. intros H. by rewrite !label_parts, H. Qed.

(** what a configuration may not have in common with another one *)
Definition clash (c d : handler_config) : Prop :=
  match c, d with
  | EvmMsgVerifier _ n, EvmMsgVerifier _ n' | EvmWorkerSetVerifier _ n, EvmWorkerSetVerifier _ n' => n = n'
  | MultisigSigner _, MultisigSigner _ | SuiMsgVerifier _, SuiMsgVerifier _
  | SuiWorkerSetVerifier _, SuiWorkerSetVerifier _ => True
  | _, _ => False
  end.
Lemma at_most_one_cons p c l :
  at_most_one p (c :: l) = true -> at_most_one p l = true /\ (p c = true -> forall d, d ∈ l -> p d = false).
Proof.
  unfold at_most_one. cbn [List.filter]. intros H. apply Nat.leb_le in H. destruct (p c).
  - cbn in H. split; [apply Nat.leb_le; lia|]. intros _ d Hd. destruct (p d) eqn:E; [|done].
    assert (d ∈ List.filter p l) as Hin.
    { apply elem_of_list_In, filter_In. split; [by apply elem_of_list_In|done]. }
    destruct (List.filter p l); [inversion Hin|]. cbn in H. lia.
  - split; [by apply Nat.leb_le|done].
Qed.
Lemma accepted_cons c l : accepted (c :: l) = true -> accepted l = true /\ forall d, d ∈ l -> ~ clash c d.
Proof.
  unfold accepted. rewrite !andb_true_iff. intros [[[[H1 H2] H3] H4] H5].
  apply at_most_one_cons in H3 as [H3 K3], H4 as [H4 K4], H5 as [H5 K5].
  assert (all_unique (omap evm_msg_chain l) = true /\
    (forall a n, c = EvmMsgVerifier a n -> evm_chain_of n ∉ omap evm_msg_chain l)) as [J1 L1].
  { destruct c; cbn [omap list_omap evm_msg_chain] in H1; try (split; [done|congruence]).
    cbn in H1. apply andb_true_iff in H1 as [Hn H1]. split; [done|]. intros ? ? [= -> ->].
    apply negb_true_iff, bool_decide_eq_false in Hn. done. }
  assert (all_unique (omap evm_set_chain l) = true /\
    (forall a n, c = EvmWorkerSetVerifier a n -> evm_chain_of n ∉ omap evm_set_chain l)) as [J2 L2].
  { destruct c; cbn [omap list_omap evm_set_chain] in H2; try (split; [done|congruence]).
    cbn in H2. apply andb_true_iff in H2 as [Hn H2]. split; [done|]. intros ? ? [= -> ->].
    apply negb_true_iff, bool_decide_eq_false in Hn. done. }
  split; [done|]. intros d Hd Hc. destruct c, d; cbn [clash] in Hc; try done.
  - subst. eapply L1; [done|]. apply elem_of_list_omap. eexists. by split.
  - subst. eapply L2; [done|]. apply elem_of_list_omap. eexists. by split.
  - by specialize (K3 eq_refl _ Hd).
  - by specialize (K4 eq_refl _ Hd).
  - by specialize (K5 eq_refl _ Hd).
Qed.

Definition sui_pair (c d : handler_config) : Prop :=
  (exists a b, c = EvmMsgVerifier a "sui" /\ d = SuiMsgVerifier b) \/
  (exists a b, c = EvmWorkerSetVerifier a "sui" /\ d = SuiWorkerSetVerifier b).
Lemma same_parts c d : parts c = parts d -> clash c d \/ sui_pair c d \/ sui_pair d c.
Proof.
  unfold sui_pair.
  destruct c, d; cbn [parts]; intros [= H] || intros [=]; cbn [clash]; try (left; exact I); try subst; eauto 10;
    try (left; reflexivity).
  - left. by apply (tail_inj "-worker" "-worker") in H as [-> _].
  - right; left; right. change "sui-worker" with ("sui" +:+ "-worker") in H.
    apply (tail_inj "-worker" "-worker") in H as [-> _]; eauto.
  - right; right; right. change "sui-worker" with ("sui" +:+ "-worker") in H.
    apply (tail_inj "-worker" "-worker") in H as [<- _]; eauto.
Qed.
Lemma no_evm_sui_pairs l : no_evm_sui l <-> forall c d, c ∈ l -> d ∈ l -> ~ sui_pair c d.
Proof.
  split.
  - intros [H1 H2] c d Hc Hd [(a & b & -> & ->)|(a & b & -> & ->)]; eauto.
  - intros H. split; intros (a & b & Ha & Hb); (eapply (H _ _ Ha Hb)); [left|right]; eauto.
Qed.

Lemma labels_distinct l : accepted l = true -> (no_evm_sui l <-> NoDup (label <$> l)).
Proof.
  intros Ha. rewrite no_evm_sui_pairs. split.
  - induction l as [|c l IH]; intros H; [constructor|]. apply accepted_cons in Ha as [Ha Hc].
    rewrite fmap_cons. constructor; [|apply IH; [done|]; intros ? ? ? ?; apply H; by right].
    intros Hin. apply elem_of_list_fmap in Hin as (d & Hl & Hd).
    destruct (same_parts c d (label_same _ _ Hl)) as [K|[K|K]].
    + by eapply Hc.
    + eapply H; [left|right; exact Hd|done].
    + eapply H; [right; exact Hd|left|done].
  - intros Hnd c d Hc Hd Hs.
    apply elem_of_list_lookup in Hc as [i Hi], Hd as [j Hj].
    assert (label c = label d) as El.
    { apply label_of_parts. by destruct Hs as [(a & b & -> & ->)|(a & b & -> & ->)]. }
    assert (i = j) as <-.
    { eapply (NoDup_lookup _ i j (label c) Hnd); rewrite list_lookup_fmap; [by rewrite Hi|rewrite Hj; cbn; by rewrite El]. }
    rewrite Hi in Hj. injection Hj as <-. destruct Hs as [(a & b & -> & ?)|(a & b & -> & ?)]; congruence.
Qed.

(** ** One run *)
Section Run.
  Context (is_account : string -> bool) (base58 : string -> option string) (de_key : jval -> option string).
  Context (worker : addr).
  Context (decode : string -> option string) (json : string -> option jval).
  Context {B : Type} (estimate : B -> list wasm_tx -> B * option N) (broadcast : B -> list wasm_tx -> B * bool).
  Context (limit : N).
  Notation handle := (handle is_account base58 de_key worker).
  Notation task_of := (task_of is_account base58 de_key worker).
  Notation submitted := (submitted is_account base58 de_key worker).
  Notation session_of := (session_of (B:=B) is_account base58 de_key worker).
  Notation drun1 := (run_daemon is_account base58 de_key worker decode json estimate broadcast limit).
  Notation druns := (run_daemons is_account base58 de_key worker decode json estimate broadcast limit).
  Notation handed_over := (handed_over (B:=B) is_account base58 de_key worker).
  Notation channel_keeps := (channel_keeps (B:=B) is_account base58 de_key worker).
  Notation block_served := (block_served is_account base58 de_key worker).
  Notation fair_daemon := (fair_daemon (B:=B) decode json is_account base58 de_key worker).

  Lemma run_daemon_inv s x r : drun1 s x = Ok r ->
    run_session s (session_of x) = Ok (lb_heights r, lb_outcomes r) /\
    exists b', qrun estimate broadcast limit (rn_broadcaster x) (rn_queue x) = (b', lb_calls r, lb_queue r).
  Proof.
    unfold run_daemon. intros H. destruct (start_from s) as [start|e|]; [|done..]. cbn [rbind] in H.
    destruct (run_session s (session_of x)) as [[s' os]|e|]; [|done..]. cbn [rbind] in H.
    destruct (qrun _ _ _ _ _) as [[b' calls] q] eqn:E. injection H as <-. cbn. eauto.
  Qed.

  Lemma submitted_elem c t tx : forall post pre e before,
    handle c (te_calls t (before ++ pre)) e = Ok (Some tx) -> tx ∈ submitted c t before (pre ++ e :: post).
  Proof.
    intros post pre. induction pre as [|e' pre IH]; intros e before H; cbn [app submitted].
    - rewrite app_nil_r in H. rewrite H. left.
    - apply elem_of_app. right. apply IH. by rewrite <- app_assoc.
  Qed.

  Lemma interleaved_elem {A} (ls : list (list A)) r l x : interleaved ls r -> l ∈ ls -> x ∈ l -> x ∈ r.
  Proof.
    intros Hi. revert l. induction Hi as [ls H|l1 y l' l2 r H IH]; intros l Hl Hx.
    - rewrite Forall_forall in H. rewrite (H _ Hl) in Hx. inversion Hx.
    - apply elem_of_app in Hl as [Hl|Hl]; [right; apply (IH l); [apply elem_of_app; by left|done]|].
      apply elem_of_cons in Hl as [->|Hl].
      + apply elem_of_cons in Hx as [->|Hx]; [left|right]. apply (IH l'); [|done]. apply elem_of_app. right. left.
      + right. apply (IH l); [|done]. apply elem_of_app. right. by right.
  Qed.

  Lemma all_ok_delivered {M} (calls : list (QueueModel.call M)) : all_ok calls -> delivered calls = sent calls.
  Proof.
    unfold all_ok, delivered, sent. intros H. f_equal. f_equal.
    induction (batches calls) as [|b l IH]; [done|]. inversion H as [|? ? Hb Hl]; subst.
    rewrite filter_cons_True; [by rewrite IH|]. cbn. rewrite Hb. exact I.
  Qed.
  (** Everything the handlers handed over was broadcast if the queue ended by
      itself. *)
  Lemma finished_delivers s x r : drun1 s x = Ok r -> channel_keeps x r -> lb_queue r = Finished ->
    interleaved (handed_over x r) (delivered (lb_calls r)).
  Proof.
    intros H Hc Hq. apply run_daemon_inv in H as [_ [b' H]]. rewrite Hq in H.
    apply c55_finished in H as [Hok Hs]. rewrite app_nil_r in Hs.
    unfold DaemonSpec.channel_keeps in Hc. rewrite all_ok_delivered by done. by rewrite Hs.
  Qed.

  Lemma labels_of x : (se_handlers (session_of x)).*1 = label <$> (rn_handlers x).*1.
  Proof. cbn. rewrite <- !list_fmap_compose. done. Qed.

  Lemma configured_of x c t : accepted (rn_handlers x).*1 = true -> no_evm_sui (rn_handlers x).*1 ->
    (c, t) ∈ rn_handlers x -> configured (session_of x) (label c) (task_of c t).
  Proof.
    intros Ha Hn Hin. apply (labels_distinct _ Ha) in Hn.
    apply elem_of_list_split in Hin as (l1 & l2 & E).
    rewrite E, !fmap_app, !fmap_cons in Hn. cbn in Hn.
    apply NoDup_app in Hn as (_ & Hd & Hn). apply NoDup_cons in Hn as [Hn _].
    exists ((fun h => (label h.1, task_of h.1 h.2)) <$> l1), ((fun h => (label h.1, task_of h.1 h.2)) <$> l2).
    split; [cbn; rewrite E, fmap_app; done|]. rewrite <- !list_fmap_compose.
    split.
    - intros H. eapply Hd; [|left]. rewrite <- list_fmap_compose. exact H.
    - intros H. apply Hn. rewrite <- list_fmap_compose. exact H.
  Qed.

  Lemma handed_over_elem x r c t o : (lb_outcomes r).*1 = (se_handlers (session_of x)).*1 ->
    configured (session_of x) (label c) (task_of c t) -> (c, t) ∈ rn_handlers x -> (label c, o) ∈ lb_outcomes r ->
    submitted c t [] (ho_given o) ∈ handed_over x r.
  Proof.
    intros El (l1 & l2 & E & Hn1 & Hn2) Hc Ho.
    apply elem_of_list_lookup in Hc as [i Hi], Ho as [j Hj].
    assert ((se_handlers (session_of x)).*1 !! i = Some (label c)) as Ki.
    { rewrite labels_of, !list_lookup_fmap, Hi. done. }
    assert ((se_handlers (session_of x)).*1 !! j = Some (label c)) as Kj.
    { rewrite <- El, list_lookup_fmap, Hj. done. }
    assert (i = j) as <-.
    { assert (forall n, (se_handlers (session_of x)).*1 !! n = Some (label c) -> n = length l1) as Hu.
      { intros n Hk. rewrite E, fmap_app, fmap_cons in Hk. cbn in Hk.
        destruct (decide (n < length l1)%nat) as [Hlt|Hge].
        - rewrite lookup_app_l in Hk by (by rewrite fmap_length). destruct Hn1. by eapply elem_of_list_lookup_2.
        - rewrite lookup_app_r in Hk by (rewrite fmap_length; lia). rewrite fmap_length in Hk.
          destruct (n - length l1)%nat as [|m] eqn:Em; [lia|]. cbn in Hk. destruct Hn2. by eapply elem_of_list_lookup_2. }
      by rewrite (Hu _ Ki), (Hu _ Kj). }
    unfold DaemonSpec.handed_over. apply elem_of_list_lookup. exists i. rewrite lookup_zip_with, Hi, Hj. done.
  Qed.

  Lemma run_served s x r c t r0 :
    drun1 s x = Ok r -> fair_daemon s x c t -> s !! label c = Some r0 -> channel_keeps x r ->
    (rn_killed x = false -> lb_queue r = Finished) ->
    exists r1, lb_heights r !! label c = Some r1 /\
      forall k, r0 < k -> k <= r1 ->
        exists o evs, (label c, o) ∈ lb_outcomes r /\ answered decode json (rn_inputs x) k evs /\
          block_served c t (ho_given o) k evs (delivered (lb_calls r)).
  Proof.
    intros H (Ha & Hn & Hin & pub & Hp & Hd & Hl) Hr Hch Hq.
    pose proof (configured_of _ _ _ Ha Hn Hin) as Hcf.
    pose proof (run_daemon_inv _ _ _ H) as [Hs _].
    destruct (run_resumes decode json s (session_of x) (lb_heights r) (lb_outcomes r) (label c) (task_of c t) r0 pub)
      as (o & r1 & Ho & Hr1 & _ & Hk & Hcr & Hnc); [done..|by apply Hl|].
    exists r1. split; [done|].
    destruct (se_crashed (session_of x)) eqn:Ecr.
    { rewrite (Hcr eq_refl) in Hr1. rewrite Hr in Hr1. injection Hr1 as <-. intros k ? ?. lia. }
    specialize (Hnc eq_refl). cbn [DaemonModel.session_of se_crashed] in Ecr. apply orb_false_iff in Ecr as [Ek _].
    intros k Hk1 Hk2. destruct (Hk r1 (or_intror eq_refl) k Hk1 Hk2) as (evs & Hans & Hhb).
    exists o, evs. split; [done|]. split; [done|].
    destruct Hhb as (pre & post & Hg & Hok). exists pre, post. split; [done|].
    intros p e q Hf. specialize (Hok p e q Hf). cbn in Hok.
    destruct (handle c (te_calls t (pre ++ p)) e) as [o'|e'|] eqn:Eh; [|done..].
    exists o'. split; [done|]. intros tx ->.
    eapply interleaved_elem; [eapply finished_delivers; eauto| |].
    - eapply handed_over_elem; [|exact Hcf|exact Hin|exact Ho].
      unfold run_session in Hs. destruct (start_from s); [|done..]. cbn [rbind] in Hs.
      destruct (run_handlers s _) as [os| |] eqn:Er; [|done..]. cbn [rbind] in Hs. injection Hs as _ <-.
      by apply run_handlers_labels in Er.
    - assert (ho_given o = (pre ++ p) ++ e :: (q ++ post)) as ->.
      { rewrite Hg, Hf, <- !app_assoc. done. }
      apply submitted_elem. done.
  Qed.
End Run.
