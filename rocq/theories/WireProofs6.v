(** What the contracts send is proper. *)
From Verif Require Import Base BaseLemmas MapLemmas Text TextLemmas StdModel StdSpec StdProofs RouterTypes RegistryTypes OperatorsModel MultisigTypes
  EncodingModel VerifierModel RewardsModel RegistryModel RouterModel GatewayModel NexusModel MultisigModel ProverModel
  SystemModel EventsModel JsonModel JsonSpec JsonProofs WireModel WireSpec WireProofs WireProofs2 WireProofs3
  WireSystemModel WireSystemSpec WireProofs4 WireProofs5.

Lemma group_by_parts {A} (key : A -> string) l : forall k g x, (k, g) ∈ group_by key l -> x ∈ g -> x ∈ l.
Proof.
  induction l as [|a l IH]; intros k g x Hin Hx; cbn in Hin; [by apply elem_of_nil in Hin|].
  destruct (group_by key l) as [|[k' g'] rest] eqn:E.
  - apply elem_of_list_singleton in Hin as [= -> ->]. apply elem_of_list_singleton in Hx as ->. left.
  - case_bool_decide.
    + apply elem_of_cons in Hin as [[= -> ->]|Hin].
      * apply elem_of_cons in Hx as [->|Hx]; [left|right]. eapply IH; [left|exact Hx].
      * right. eapply IH; [by right|exact Hx].
    + apply elem_of_cons in Hin as [[= -> ->]|Hin].
      * apply elem_of_list_singleton in Hx as ->. left.
      * right. by eapply IH.
Qed.

Definition all_proper (l : list sub) : Prop := Forall (fun m => proper_body (sb_body m)) l.

Lemma router_sends s a b op s' o : proper_body b -> router_op a b = Some op -> router_step s op = Ok (s', o) -> all_proper (router_subs o).
Proof.
  intros Hb Hop Hs. destruct b; try discriminate Hop; injection Hop as <-; cbn in Hs.
  1: { unfold route_messages in Hs. apply rbind_ok in Hs as (ms' & Hv & Hs). apply rbind_ok in Hs as (sent & Ht & Hs).
    injection Hs as <- <-. assert (ms' = ms) as ->.
    { unfold validate_msgs in Hv. case_bool_decide; [by injection Hv as <-|]. res_inv. done. }
    unfold all_proper, router_subs. apply Forall_fmap, Forall_forall. intros [g l] Hin. cbn.
    apply Forall_forall. intros x Hx. cbn in Hb. rewrite Forall_forall in Hb. apply Hb.
    assert (exists k, (k, l) ∈ group_by m_dchain ms) as [k Hk].
    { clear -Ht Hin. revert sent Ht Hin. induction (group_by m_dchain ms) as [|[k l'] rest IH]; intros sent Ht Hin; cbn in Ht.
      - injection Ht as <-. by apply elem_of_nil in Hin.
      - destruct (destination_gateway s a k) as [g'| |]; try discriminate Ht. cbn in Ht.
        destruct (try_map _ rest) as [r| |] eqn:E; try discriminate Ht. cbn in Ht. injection Ht as <-.
        apply elem_of_cons in Hin as [[= -> ->]|Hin]; [exists k; left|]. destruct (IH _ eq_refl Hin) as [k' Hk']. exists k'. by right. }
    by eapply group_by_parts. }
  all: apply rbind_ok in Hs as (? & _ & Hs).
  - unfold register_chain in Hs. res_inv; subst; constructor.
  - unfold upgrade_gateway in Hs. res_inv; subst; constructor.
  - unfold freeze_chain in Hs. res_inv; subst; constructor.
  - unfold unfreeze_chain in Hs. res_inv; subst; constructor.
Qed.
Lemma filter_proper (P : message -> Prop) `{forall m, Decision (P m)} ms : Forall proper_message ms -> Forall proper_message (filter P ms).
Proof. rewrite !Forall_forall. intros H1 x [_ Hx]%elem_of_list_filter. by apply H1. Qed.
Lemma gateway_sends s ans a b op s' o : proper_body b -> gateway_op ans a b = Some op -> gateway_step s op = Ok (s', o) ->
  all_proper (gateway_subs o).
Proof.
  intros Hb Hop Hs. destruct b; try discriminate Hop; injection Hop as <-; cbn in Hs, Hb.
  - case_bool_decide.
    + unfold route_outgoing_messages in Hs. apply rbind_ok in Hs as (? & _ & Hs). injection Hs as <- <-. constructor.
    + apply rbind_ok in Hs as (out & Ho & Hs). injection Hs as <- <-. unfold route_incoming_messages in Ho.
      apply rbind_ok in Ho as (? & _ & Ho). apply rbind_ok in Ho as ([v u] & Hp & Ho). injection Ho as <-.
      unfold partition_by_verified in Hp. apply rbind_ok in Hp as (r & _ & Hp). injection Hp as <- <-.
      unfold all_proper, gateway_subs. cbn [go_verify go_route fmap list_fmap app].
      match goal with |- Forall _ (_ <$> match ?l with _ => _ end) => assert (Forall proper_message l) as Hl by (by apply filter_proper);
        destruct l end; [constructor|]. constructor; [exact Hl|constructor].
  - apply rbind_ok in Hs as (out & Ho & Hs). injection Hs as <- <-. unfold gw_verify_messages in Ho.
    destruct ms as [|m ms]; [injection Ho as <-; constructor|].
    apply rbind_ok in Ho as (? & _ & Ho). apply rbind_ok in Ho as ([v u] & Hp & Ho).
    unfold partition_by_verified in Hp. apply rbind_ok in Hp as (r & _ & Hp). injection Hp as _ Hu.
    assert (Forall proper_message u) as Hpu by (rewrite <- Hu; by apply filter_proper). clear Hu.
    destruct u; injection Ho as <-; [constructor|]. constructor; [exact Hpu|constructor].
Qed.
Lemma from_nexus_proper n : proper_nmessage n -> proper_message (from_nexus n).
Proof.
  intros (H1 & H2 & H3 & H4 & H5 & H6 & H7). unfold proper_message, proper_id, from_nexus. cbn. split; [|done]. split; [done|].
  destruct (to_hex (n_txid n)); done.
Qed.
Lemma nexus_sends s a b op s' o : proper_body b -> nexus_op a b = Some op -> nexus_step s op = Ok (s', o) -> all_proper (nexus_subs o).
Proof.
  intros Hb Hop Hs. destruct b; try discriminate Hop; injection Hop as <-; cbn in Hs, Hb.
  - unfold route_to_nexus in Hs. apply rbind_ok in Hs as (? & _ & Hs). injection Hs as <- <-. constructor.
  - unfold route_to_router in Hs. apply rbind_ok in Hs as (? & _ & Hs).
    assert (Forall proper_message (from_nexus <$> ns)) as Hp.
    { apply Forall_fmap. eapply Forall_impl; [exact Hb|]. intros n. apply from_nexus_proper. }
    destruct (from_nexus <$> ns); injection Hs as <- <-; [constructor|]. constructor; [exact Hp|constructor].
Qed.
Lemma verifier_sends keccak s op s' o : verifier_step keccak s op = Ok (s', o) -> all_proper (verifier_subs o).
Proof.
  intros Hs. destruct o as [| | |l r]; try constructor. destruct op; cbn in Hs.
  - unfold verify_messages in Hs. do 4 apply rbind_ok in Hs as (? & _ & Hs).
    match type of Hs with match ?l with _ => _ end = _ => destruct l as [|] end; [discriminate Hs|].
    apply rbind_ok in Hs as (? & _ & Hs). apply rbind_ok in Hs as ([? ?] & _ & Hs). do 2 apply rbind_ok in Hs as (? & _ & Hs). discriminate Hs.
  - unfold verify_worker_set in Hs. do 3 apply rbind_ok in Hs as (? & _ & Hs).
    do 2 apply rbind_ok in Hs as ([? ?] & _ & Hs). discriminate Hs.
  - unfold verifier_vote in Hs. do 2 apply rbind_ok in Hs as (? & _ & Hs). discriminate Hs.
  - unfold verifier_end_poll in Hs. do 2 apply rbind_ok in Hs as (? & _ & Hs). injection Hs as _ <- _.
    unfold all_proper, verifier_subs. apply Forall_fmap, Forall_fmap, Forall_forall. intros w _. cbn. apply dec_nonempty.
Qed.
Lemma multisig_sends wsid crypto s op s' o : multisig_step wsid crypto s op = Ok (s', o) -> all_proper (multisig_subs o).
Proof.
  intros Hs. destruct o as [|r i sg sig c| | |]; try constructor; [|constructor]. destruct op; cbn in Hs.
  - unfold start_session in Hs. res_inv; discriminate.
  - unfold submit_signature in Hs. do 7 apply rbind_ok in Hs as (? & _ & Hs). injection Hs as _ <- _ _ _ _. cbn. apply dec_nonempty.
  - discriminate Hs.
  - unfold register_pub_key in Hs. res_inv; discriminate.
  - unfold set_caller in Hs. res_inv; discriminate.
Qed.

(** ** The prover *)
Lemma try_from_proper t b k : public_key_try_from t b = Some k -> proper_key k.
Proof.
  unfold public_key_try_from. cbv zeta. destruct t.
  - destruct (Nat.eqb_spec (String.length b) 33); cbn [orb]; [intros [= <-]; by left|].
    destruct (Nat.eqb_spec (String.length b) 65); [|discriminate]. intros [= <-]. by right.
  - destruct (Nat.eqb_spec (String.length b) 32); [|discriminate]. by intros [= <-].
Qed.
Definition answers_keys (env : penv) : Prop := forall a w t k, pe_key env a w t = Some k -> proper_key k.
Lemma collect_weights l : forall tot m tot' m', snapshot_collect (E:=perror) l tot m = Ok (tot', m') -> tot < U256 ->
  tot' < U256 /\ forall p, p ∈ l -> p_weight p < U256.
Proof.
  induction l as [|p l IH]; intros tot m tot' m' H Ht; cbn in H.
  - injection H as <- <-. split; [done|]. intros p Hp. by apply elem_of_nil in Hp.
  - apply rbind_ok in H as (t1 & Ha & H). unfold add_u256, checked in Ha. destruct (N.ltb_spec (tot + p_weight p) U256) as [Hlt|]; [|discriminate Ha].
    injection Ha as <-. destruct (IH _ _ _ _ H Hlt) as [H1 H2]. split; [done|]. intros q [->|Hq]%elem_of_cons; [lia|by apply H2].
Qed.
Lemma mul_ceil_bound x t q : mul_ceil (E:=perror) x t = Ok q -> q < U256.
Proof.
  unfold mul_ceil. destruct (t_den t =? 0); [discriminate|]. cbv zeta. destruct (N.ltb_spec (x * t_num t / t_den t) U256); [|discriminate].
  destruct (_ =? 0); [by intros [= <-]|]. unfold checked. destruct (N.ltb_spec (x * t_num t / t_den t + 1) U256); [by intros [= <-]|discriminate].
Qed.
Lemma made_proper c env w : answers_keys env -> pe_height env < 2 ^ 64 -> make_worker_set c env = Ok w -> proper_set w.
Proof.
  intros Hk Hh Hw. unfold make_worker_set in Hw. apply rbind_ok in Hw as (ws & _ & Hw). apply rbind_ok in Hw as (ps & _ & Hw).
  apply rbind_ok in Hw as (? & _ & Hw). apply rbind_ok in Hw as (snap & Hs & Hw). apply rbind_ok in Hw as (keys & Hkeys & Hw).
  injection Hw as <-. unfold snapshot_new in Hs. apply rbind_ok in Hs as ([tot m] & Hc & Hs). apply rbind_ok in Hs as (q & Hq & Hs).
  destruct (q =? 0); [discriminate Hs|]. injection Hs as <-. cbn [s_quorum].
  destruct (collect_weights _ _ _ _ _ Hc) as [_ Hws]; [reflexivity|].
  apply mul_ceil_bound in Hq. unfold proper_set, worker_set_new. cbn [ws_threshold ws_created ws_signers].
  split; [exact Hq|]. split; [exact Hh|].
  assert (forall l (m0 : gmap string signer),
    (forall p k, (p, k) ∈ l -> p_weight p < U256 /\ proper_key k) ->
    (forall a s, m0 !! a = Some s -> sg_weight s < U256 /\ proper_key (sg_key s)) ->
    forall a s, fold_left (fun m '(p, k) => <[p_addr p := {| sg_addr := p_addr p; sg_weight := p_weight p; sg_key := k |}]> m) l m0 !! a
      = Some s -> sg_weight s < U256 /\ proper_key (sg_key s)) as Hfold.
  { clear. induction l as [|[p k] l IH]; intros m0 Hl Hm0 a s Hs; [by eapply Hm0|].
    cbn [fold_left] in Hs. eapply IH; [| |exact Hs].
    - intros p' k' Hin. apply Hl. by right.
    - intros a' s' Ha'. destruct (decide (a' = p_addr p)) as [->|Hne].
      + rewrite lookup_insert in Ha'. injection Ha' as <-. cbn. apply Hl. left.
      + rewrite lookup_insert_ne in Ha' by done. by eapply Hm0. }
  apply Hfold; [|intros a s Ha; by rewrite lookup_empty in Ha].
  intros p k Hin. split; [apply Hws; eapply elem_of_zip_l; exact Hin|].
  apply elem_of_zip_r in Hin. apply try_map_ok in Hkeys. apply elem_of_list_lookup in Hin as [i Hi].
  destruct (Forall2_lookup_r _ _ _ _ _ Hkeys Hi) as (w & _ & Hw). apply of_option_ok in Hw. by eapply Hk.
Qed.
Definition sets_proper (s : pstate) : Prop :=
  (forall w, pv_current s = Some w -> proper_set w) /\ (forall w, pv_next s = Some w -> proper_set w).
Lemma save_proper s w s' : sets_proper s -> proper_set w -> save_next s w = Ok s' -> sets_proper s'.
Proof.
  intros [H1 H2] Hw. unfold save_next. destruct (different_in_progress s w); [discriminate|]. intros [= <-].
  split; cbn; [done|]. by intros ? [= <-].
Qed.
Lemma next_proper c env s o : answers_keys env -> pe_height env < 2 ^ 64 -> get_next_worker_set c env s = Ok o ->
  forall w, o = Some w -> proper_set w.
Proof.
  intros Hk Hh H w ->. unfold get_next_worker_set in H. apply rbind_ok in H as (new & Hn & H).
  destruct (pv_current s); [|discriminate H]. destruct (should_update _ _ _); [|discriminate H]. injection H as <-. by eapply made_proper.
Qed.
Lemma prover_sends keccak wshash sec1 c env s call s' o :
  answers_keys env -> pe_height env < 2 ^ 64 -> proper_chain (pc_chain c) -> sets_proper s ->
  prover_execute keccak wshash sec1 c env s call = Ok (s', o) ->
  sets_proper s' /\ all_proper (prover_subs o).
Proof.
  intros Hk Hh Hc Hs H. destruct call; cbn in H.
  - unfold construct_proof in H. apply rbind_ok in H as (ms & _ & H). apply rbind_ok in H as ([s1 b] & Hf & H).
    apply rbind_ok in H as (cur & _ & H). apply rbind_ok in H as (dg & _ & H). injection H as <- <-.
    split; [|constructor; [exact Hc|constructor]].
    unfold find_batch in Hf. destruct (pv_batches s !! _); [injection Hf as <- <-; exact Hs|].
    apply rbind_ok in Hf as (new & Hn & Hf). apply rbind_ok in Hf as (s2 & Hs2 & Hf). apply rbind_ok in Hf as (b' & _ & Hf).
    injection Hf as <- <-. assert (sets_proper s2) as [H1 H2]; [|by split].
    destruct new as [w|]; [|injection Hs2 as <-; exact Hs]. eapply save_proper; [exact Hs| |exact Hs2]. by eapply (next_proper _ _ _ _ Hk Hh Hn).
  - unfold update_worker_set in H. destruct (pv_current s) as [cur|] eqn:Ecur.
    + apply rbind_ok in H as (o1 & Ho & H). apply rbind_ok in H as (new & Hn & H). apply of_option_ok in Hn as ->.
      apply rbind_ok in H as (s1 & Hs1 & H). apply rbind_ok in H as (b & _ & H). apply rbind_ok in H as (dg & _ & H). injection H as <- <-.
      split; [|constructor; [exact Hc|constructor]].
      assert (sets_proper s1) as [H1 H2]; [|by split]. eapply save_proper; [exact Hs| |exact Hs1]. by eapply (next_proper _ _ _ _ Hk Hh Ho).
    + apply rbind_ok in H as (new & Hn & H). injection H as <- <-. pose proof (made_proper _ _ _ Hk Hh Hn) as Hp.
      split; [|constructor; [exact Hp|constructor]]. split; cbn; [by intros ? [= <-]|]. apply Hs.
  - unfold confirm_worker_set in H. apply rbind_ok in H as (w & Hw & H). apply of_option_ok in Hw.
    apply rbind_ok in H as (? & _ & H). apply rbind_ok in H as (? & _ & H). apply rbind_ok in H as (? & _ & H). injection H as <- <-.
    pose proof (proj2 Hs w Hw) as Hp. split; [|constructor; [exact Hp|constructor]]. split; cbn; [by intros ? [= <-]|done].
Qed.
