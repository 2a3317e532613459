(** Proofs about verifier and workers together. *)
From stdpp Require Import sorting.
From Verif Require Import Base Text TextLemmas BaseLemmas MapLemmas StdModel StdSpec RouterTypes RegistryTypes
  OperatorsModel EncodingModel VerifierModel VerifierSpec VerifierProofs VerifierProofs2 VerifierProofs3
  EventsModel HandlersModel HandlersSpec HandlersProofs HandlersProofs2 WorkersSpec.

Lemma hex_bytes_to_hex len x b : hex_bytes len (to_hex x) b -> b = x.
Proof.
  intros [_ [H|(s & E & _)]].
  - rewrite of_to_hex in H. by injection H as ->.
  - exfalso. destruct x as [|c x]; [done|]. cbn [to_hex] in E.
    pose proof (to_hex_chars (String c x)) as Hc. cbn [to_hex] in Hc. rewrite E in Hc. cbn in Hc. done.
Qed.

Lemma attr_abci ty attrs k v : has_attr (Abci ty attrs) ty k v <-> attrs !! k = Some v.
Proof.
  split.
  - intros (m & [= <-] & H). done.
  - intros H. by exists attrs.
Qed.

Lemma parse_id_spec id tx idx : parse_message_id id = Ok (tx, idx) ->
  exists n, id = tx +:+ String ":" n /\ parse_u64 n = Some idx.
Proof.
  unfold parse_message_id. pose proof (join_split ID_SEPARATOR id) as Hj.
  destruct (split ID_SEPARATOR id) as [|a [|b [|]]] eqn:E; try done. intros H.
  apply rbind_ok in H as (t & Ht & H). apply rbind_ok in H as (n & Hn & H).
  apply of_option_ok in Ht, Hn. injection H as <- <-. exists b. split; [|done].
  unfold nonempty_string_of in Ht. destruct (is_empty a); [done|]. injection Ht as ->.
  by rewrite <- Hj.
Qed.

(** *** What a decoded event of the verifier says *)

Lemma meta_attrs json contract m k v : metadata_attrs json contract m !! k = Some v ->
  (k = "_contract_address" /\ v = attr_value json contract) \/
  (k = "poll_id" /\ v = JStr (dec (pm_poll_id m))) \/
  (k = "source_chain" /\ v = attr_value json (pm_chain m)) \/
  (k = "source_gateway_address" /\ v = attr_value json (pm_gateway m)) \/
  (k = "confirmation_height" /\ v = JNum (pm_confirmations m)) \/
  (k = "expires_at" /\ v = JNum (pm_expires_at m)) \/
  (k = "participants" /\ v = JArr (JStr <$> pm_participants m)).
Proof.
  unfold metadata_attrs. intros H. apply elem_of_list_to_map_2 in H.
  repeat (apply elem_of_cons in H as [H|H]; [injection H as -> ->; tauto|]).
  by apply elem_of_nil in H.
Qed.

Lemma attr_json_str json s x : json s = None -> attr_value json s = JStr x -> x = s.
Proof. unfold attr_value. intros ->. cbn. by intros [= ->]. Qed.

Lemma has_field_obj l k v : has_field (JObj l) k v -> field_of l k = Some v.
Proof. by intros (l' & [= <-] & H). Qed.
Ltac field H := apply has_field_obj in H; cbn -[dec to_hex fmap list_fmap] in H; injection H; clear H; intros; subst.

Lemma message_json_fields e t i daddr dchain s h :
  message_fields (hex_bytes 32) (hex_bytes 20) (message_json e) t i daddr dchain s h ->
  hex_bytes 32 (te_tx_id e) t /\ i = te_index e /\ daddr = te_daddr e /\ dchain = lower (te_dchain e) /\
  hex_bytes 20 (te_src e) s /\ h = te_hash e.
Proof.
  intros [(x1 & F1 & H1) F2 F3 (x4 & F4 & H4) (x5 & F5 & H5) (x6 & F6 & H6)].
  field F1. field F2. field F3. field F4. field F5. field F6.
  apply hex_bytes_to_hex in H6. done.
Qed.

Lemma worker_set_json_fields tx idx o t i ops threshold :
  worker_set_fields (hex_bytes 32) (hex_bytes 20) (worker_set_json tx idx o) t i ops threshold ->
  Forall (fun p => p.2 < U256) (o_weights o) -> o_threshold o < U256 ->
  hex_bytes 32 tx t /\ i = idx /\ ops = o_weights o /\ threshold = o_threshold o.
Proof.
  intros [(x1 & F1 & H1) F2 (v3 & l3 & F3 & F3' & H3) (v4 & y4 & F4 & F4' & H4)] Hw Ht.
  field F1. field F2. field F3. field F3'. field F4. field F4'.
  split; [done|]. split; [done|]. rewrite parse_uint_dec in H4 by done. injection H4 as <-. split; [|done].
  apply Forall2_fmap_l in H3. clear -H3 Hw. induction H3 as [|[a n] [b m] l k H _ IH]; [done|].
  apply Forall_cons in Hw as [Hn Hw]. rewrite (IH Hw).
  destruct H as (x & y & [= <- <-] & Hx & Hy). cbn [fst snd] in *.
  apply hex_bytes_to_hex in Hx as ->. rewrite parse_uint_dec in Hy by done. by injection Hy as <-.
Qed.

(** *** One event per poll *)

Lemma omap_inj_elem {A B} (f : A -> option B) l x y b :
  NoDup (omap f l) -> x ∈ l -> y ∈ l -> f x = Some b -> f y = Some b -> x = y.
Proof.
  intros Hnd Hx Hy Fx Fy. induction l as [|z l IH]; [by apply elem_of_nil in Hx|].
  assert (Hin : forall w, w ∈ l -> f w = Some b -> b ∈ omap f l).
  { intros w Hw Fw. apply elem_of_list_omap. eauto. }
  change (omap f (z :: l)) with (match f z with Some y => y :: omap f l | None => omap f l end) in Hnd.
  apply elem_of_cons in Hx as [->|Hx]; apply elem_of_cons in Hy as [->|Hy]; try done.
  - rewrite Fx in Hnd. apply NoDup_cons in Hnd as [Hnd _]. destruct Hnd. eauto.
  - rewrite Fy in Hnd. apply NoDup_cons in Hnd as [Hnd _]. destruct Hnd. eauto.
  - apply IH; [|done..]. destruct (f z); [|done]. by apply NoDup_cons in Hnd as [_ Hnd].
Qed.
Lemma sorted_nodup (l : list N) : StronglySorted N.lt l -> NoDup l.
Proof.
  induction 1 as [|x l Hs IH Hx]; constructor; [|done].
  intros Hin. rewrite Forall_forall in Hx. specialize (Hx _ Hin). lia.
Qed.
Lemma one_event k c ops e e' id :
  e ∈ vlog k c ops -> e' ∈ vlog k c ops -> opened_id e.2 = Some id -> opened_id e'.2 = Some id -> e = e'.
Proof.
  intros He He' H H'. apply (omap_inj_elem (fun e => opened_id e.2) (vlog k c ops) e e' id); [|done..].
  apply sorted_nodup. exact (proj1 (c10_ids k c ops)).
Qed.
Lemma opens_id c e id expires workers subj : opens c e id expires workers subj -> opened_id e.2 = Some id.
Proof.
  destruct e as [[] []]; cbn; try done.
  - destruct started as [[es meta]|]; [|done]. intros (-> & _). done.
  - intros (-> & _). done.
Qed.

(** *** The vote of one worker *)

Lemma dec_u64_inj n m : parse_u64 (dec n) = Some m -> m = n.
Proof.
  unfold parse_u64. intros H. destruct (N.ltb_spec n U64) as [Hn|Hn].
  - rewrite parse_uint_dec in H by done. by injection H as ->.
  - unfold parse_uint in H. 
    assert (Hd : match dec n with String c s' => if Ascii.eqb c "+" then s' else dec n | EmptyString => dec n end = dec n).
    { pose proof (dec_digits n) as Hd. destruct (dec n) as [|c s']; [done|].
      destruct (Ascii.eqb_spec c "+") as [->|]; [|done]. cbn in Hd. done. }
    rewrite Hd in H. destruct (is_empty (dec n)); [done|]. rewrite undec_dec in H.
    destruct (N.ltb_spec n U64); [lia|done].
Qed.

Lemma worker_message_vote acc json contract chain es meta a height open rpc id ballot :
  json (pm_gateway meta) = None ->
  evm_msg_handler acc {| hc_worker := a; hc_contract := contract; hc_chain := chain |} height open rpc
    (messages_poll_event json contract es meta) =
    Ok (Some {| wt_sender := a; wt_contract := contract; wt_body := BodyVote id ballot |}) ->
  id = pm_poll_id meta /\
  Forall2 (fun e v => v = SucceededOnChain ->
    exists q t gw s dc, hex_bytes 32 (te_tx_id e) t /\ hex_bytes 20 (pm_gateway meta) gw /\
      hex_bytes 20 (te_src e) s /\ lower dc = lower (te_dchain e) /\
      evm_seen chain (pm_confirmations meta) rpc q gw t (te_index e) (ContractCall s dc (te_daddr e) (te_hash e)))
    es ballot.
Proof.
  intros Hj H. apply evm_msg_votes in H as (poll & confs & gw & js & votes & Hp & _ & Hc & Hg & Hm & Htx & HF).
  injection Htx as <- <-. unfold messages_poll_event in *.
  destruct Hp as (_ & (x & Hx & Hxp) & _ & _). destruct Hg as (xg & Hg & Hgb).
  rewrite attr_abci in Hx, Hc, Hg, Hm.
  rewrite lookup_insert in Hm. rewrite lookup_insert_ne in Hx, Hc, Hg by done. injection Hm as <-.
  apply meta_attrs in Hx. destruct_or?; destruct_and?; try done.
  apply meta_attrs in Hc. destruct_or?; destruct_and?; try done.
  apply meta_attrs in Hg. destruct_or?; destruct_and?; try done. cbn [hc_chain] in HF.
  repeat match goal with
         | H : JStr _ = JStr _ |- _ => injection H as ->
         | H : JNum _ = JNum _ |- _ => injection H as ->
         end.
  match goal with H : JStr xg = attr_value _ _ |- _ => symmetry in H; apply (attr_json_str _ _ _ Hj) in H; subst xg end.
  split; [by apply dec_u64_inj|]. rewrite Forall2_fmap_l in HF.
  eapply Forall2_impl; [exact HF|]. intros e v (t & i & daddr & dchain & s & h & Hf & _ & Hs & _) Hv.
  apply message_json_fields in Hf as (Hf1 & -> & -> & -> & Hf5 & ->).
  destruct (Hs Hv) as (q & dc & Hdc & Hseen). exists q, t, gw, s, dc. done.
Qed.

Lemma worker_set_poll_vote acc json contract chain tx idx o meta a height open rpc id ballot :
  json (pm_gateway meta) = None ->
  Forall (fun p => p.2 < U256) (o_weights o) -> o_threshold o < U256 ->
  evm_ws_handler acc {| hc_worker := a; hc_contract := contract; hc_chain := chain |} height open rpc
    (worker_set_poll_event json contract tx idx o meta) =
    Ok (Some {| wt_sender := a; wt_contract := contract; wt_body := BodyVote id ballot |}) ->
  id = pm_poll_id meta /\ exists v, ballot = [v] /\
  (v = SucceededOnChain <->
    exists t gw, hex_bytes 32 tx t /\ hex_bytes 20 (pm_gateway meta) gw /\
      evm_seen chain (pm_confirmations meta) rpc t gw t idx
        (OperatorshipTransferred (evm_operators (o_weights o) (o_threshold o)))).
Proof.
  intros Hj Hw Ht H.
  apply evm_ws_vote in H as (poll & confs & gw & j & v & Hp & _ & Hc & Hg & Hm & Htx & HF).
  injection Htx as <- ->. unfold worker_set_poll_event in *.
  destruct Hp as (_ & (x & Hx & Hxp) & _ & _). destruct Hg as (xg & Hg & Hgb).
  rewrite attr_abci in Hx, Hc, Hg, Hm.
  rewrite lookup_insert in Hm. rewrite lookup_insert_ne in Hx, Hc, Hg by done. injection Hm as <-.
  apply meta_attrs in Hx. destruct_or?; destruct_and?; try done.
  apply meta_attrs in Hc. destruct_or?; destruct_and?; try done.
  apply meta_attrs in Hg. destruct_or?; destruct_and?; try done. cbn [hc_chain] in HF.
  repeat match goal with
         | H : JStr _ = JStr _ |- _ => injection H as ->
         | H : JNum _ = JNum _ |- _ => injection H as ->
         end.
  match goal with H : JStr xg = attr_value _ _ |- _ => symmetry in H; apply (attr_json_str _ _ _ Hj) in H; subst xg end.
  split; [by apply dec_u64_inj|]. exists v. split; [done|].
  destruct HF as (t & i & ops & threshold & Hf & _ & Hv).
  apply worker_set_json_fields in Hf as (Hf1 & -> & -> & ->); [|done..]. rewrite Hv. split.
  - intros Hs. exists t, gw. done.
  - intros (t' & gw' & Hf1' & Hgb' & Hs).
    assert (Hinj : forall len s b b', hex_bytes len s b -> hex_bytes len s b' -> b = b').
    { clear. intros len s b b' [_ [H|(s1 & -> & H)]] [_ [H'|(s2 & E & H')]].
      - congruence.
      - subst s. cbn in H. destruct (of_hex s2); cbn in H; done.
      - cbn in H'. destruct (of_hex s1); cbn in H'; done.
      - injection E as ->. congruence. }
    by rewrite (Hinj _ _ _ _ Hf1 Hf1'), (Hinj _ _ _ _ Hgb Hgb').
Qed.
