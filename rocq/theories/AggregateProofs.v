(** C54: proofs. *)
From Verif Require Import Base BaseLemmas Text StdModel RegistryTypes RouterTypes OperatorsModel VerifierModel AggregateModel AggregateSpec.

Lemma ccid_json_back c : wf_ccid c -> json_ccid (ccid_json c) = Some c.
Proof.
  intros [H1 H2]. unfold json_ccid, ccid_json. cbn. unfold ccid_parts. unfold wf_chain in H1. rewrite H1.
  unfold nonempty_string_of. destruct c as [ch [|a s]]; [done|]. done.
Qed.
Lemma statuses_json_back l : Forall (fun x : ccid * bool => wf_ccid x.1) l -> json_statuses (Json (statuses_json l)) = Some l.
Proof.
  intros H. unfold json_statuses, statuses_json. apply mapM_Some. apply Forall2_fmap_l. induction H as [|[c b] l H Hl IH]; [done|].
  constructor; [|done]. cbn [compose fst snd json_status]. by rewrite ccid_json_back.
Qed.

Lemma is_empty_false s : is_empty s = false <-> s <> "".
Proof. by destruct s. Qed.
Lemma ccid_parts_spec chain id c : ccid_parts chain id = Some c <->
  contains ID_SEPARATOR chain = false /\ chain <> "" /\ cc_chain c = lower chain /\ cc_id c <> "" /\ id = cc_id c.
Proof.
  unfold ccid_parts, chain_name_of, nonempty_string_of. rewrite <- !is_empty_false. destruct c as [ch i]. cbn [cc_chain cc_id].
  destruct (contains ID_SEPARATOR chain) eqn:E1; [cbn; intuition congruence|].
  destruct (is_empty chain) eqn:E2; [cbn; intuition congruence|].
  destruct (is_empty id) eqn:E3; cbn; split; intros H; try (intuition congruence).
  all: destruct H as (_ & _ & -> & _ & ->) || injection H as <- <-; done.
Qed.
Lemma json_ccid_spec j c : json_ccid j = Some c <-> spells_ccid j c.
Proof.
  unfold spells_ccid. split.
  - unfold json_ccid. destruct j as [| | | | |l]; try done. destruct l as [|[k1 []] l]; try done. destruct l as [|[k2 []] l]; try done.
    destruct l; [|done].
    destruct (String.eqb_spec k1 "chain") as [->|_].
    + destruct (String.eqb_spec k2 "id") as [->|_]; [|done]. cbn [andb]. intros (H1 & H2 & H3 & H4 & ->)%ccid_parts_spec. exists s. auto.
    + cbn [andb]. destruct (String.eqb_spec k1 "id") as [->|_]; [|done]. destruct (String.eqb_spec k2 "chain") as [->|_]; [|done].
      cbn [andb]. intros (H1 & H2 & H3 & H4 & ->)%ccid_parts_spec. exists s0. auto.
  - intros (chain & [->| ->] & H1 & H2 & H3 & H4); cbn; apply ccid_parts_spec; auto.
Qed.
Lemma json_status_spec j x : json_status j = Some x <-> exists i, j = JArr [i; JBool x.2] /\ spells_ccid i x.1.
Proof.
  unfold json_status. split.
  - destruct j as [| | | |l|]; try done. destruct l as [|i l]; [done|]. destruct l as [|b l]; [done|]. destruct b; try done. destruct l; [|done].
    destruct (json_ccid i) as [c|] eqn:E; [|done]. intros [= <-]. exists i. split; [done|]. by apply json_ccid_spec.
  - intros (i & -> & H%json_ccid_spec). rewrite H. by destruct x.
Qed.
Lemma json_statuses_spec p l : json_statuses p = Some l <-> spells p l.
Proof.
  unfold json_statuses, spells. split.
  - destruct p as [[| | | |js|]|]; try done. intros H%mapM_Some. exists js. split; [done|].
    eapply Forall2_impl; [exact H|]. intros j x. apply json_status_spec.
  - intros (js & -> & H). apply mapM_Some. eapply Forall2_impl; [exact H|]. intros j x. apply json_status_spec.
Qed.

Lemma c54_verify {S} (call : addr -> S -> list message -> option (S * option payload)) v s ms s' d :
  agg_verify call v s ms = Ok (s', d) <->
  call v s ms = Some (s', Some d) /\ exists l, spells d l.
Proof.
  assert (Hi : (exists l, spells d l) <-> is_Some (json_statuses d)).
  { split; intros [l Hl]; exists l; by apply json_statuses_spec. }
  rewrite Hi. clear Hi. unfold agg_verify, agg_execute. split.
  - intros H. apply rbind_ok in H as ([s1 data] & H1 & H). apply of_option_ok in H1. rewrite H1.
    apply rbind_ok in H as (d' & H2 & H). injection H as <- <-. unfold agg_reply in H2.
    destruct data as [d0|]; [|done]. destruct (json_statuses d0) eqn:E; [|done]. injection H2 as <-. by rewrite E.
  - intros [-> [x Hx]]. cbn. by rewrite Hx.
Qed.

Lemma c54_query {S} (ask : addr -> S -> list message -> option payload) b64 v s ms d :
  agg_query ask b64 v s ms = Ok d <-> exists t, ask v s ms = Some (Json (JStr t)) /\ b64 t = Some d.
Proof.
  unfold agg_query. split.
  - intros H. apply rbind_ok in H as (a & H1 & H). apply of_option_ok in H1. apply of_option_ok in H.
    rewrite H1. destruct a as [[]|]; try done. cbn in H. eauto.
  - intros (t & -> & Ht). cbn. by rewrite Ht.
Qed.

Lemma c54_voting_verify keccak h reg me v s ms : is_ok (agg_verify (voting_call keccak h reg me) v s ms) = false.
Proof.
  destruct (agg_verify _ _ _ _) as [[s' d]| |] eqn:E; [|done..]. apply c54_verify in E as [E [x Hx%json_statuses_spec]].
  unfold voting_call in E. destruct (String.eqb v me); [|done].
  destruct (verify_messages _ _ _ _ _) as [[s1 [l o| | |]]| |]; try done. injection E as _ <-. done.
Qed.
Lemma c54_voting_query keccak b64 me v s ms : is_ok (agg_query (voting_ask keccak me) b64 v s ms) = false.
Proof.
  destruct (agg_query _ _ _ _ _) as [d| |] eqn:E; [|done..]. apply c54_query in E as (t & E & _).
  unfold voting_ask in E. destruct (String.eqb v me); [|done]. destruct (is_verified _ _ _); [|done..].
  injection E as E. done.
Qed.

(** asked directly, the voting verifier is understood *)
Lemma c54_direct keccak me s ms l : Forall (fun m => wf_ccid (m_cc m)) ms -> is_verified keccak s ms = Ok l ->
  exists p, voting_ask keccak me me s ms = Some p /\ spells p l.
Proof.
  intros Hw H. unfold voting_ask. rewrite String.eqb_refl, H. eexists. split; [done|]. apply json_statuses_spec.
  apply statuses_json_back. unfold is_verified in H. apply try_map_ok in H. clear -Hw H.
  induction H as [|m x ms l Hm H IH]; [done|]. inversion Hw as [|? ? Hw1 Hw2]; subst.
  constructor; [|by auto]. apply rbind_ok in Hm as (st & _ & Hm). by injection Hm as <-.
Qed.
