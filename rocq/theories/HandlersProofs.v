(** Proofs about ampd's handlers. *)
From Verif Require Import Base Text BaseLemmas MapLemmas StdModel RouterTypes OperatorsModel EncodingModel EventsModel
  HandlersModel HandlersSpec.

Lemma opt_map_ok {A B} (f : A -> option B) l r :
  opt_map f l = Some r <-> Forall2 (fun x y => f x = Some y) l r.
Proof.
  revert r. induction l as [|x l IH]; intros r; cbn.
  - split.
    + intros [= <-]. constructor.
    + intros H. inversion H. reflexivity.
  - destruct (f x) as [y|] eqn:E.
    + destruct (opt_map f l) as [r'|] eqn:E'.
      * split.
        -- intros [= <-]. constructor; [done|]. by apply IH.
        -- intros H. inversion H as [|? y' ? r'' H1 H2]; subst. apply IH in H2.
           injection H2 as ->. rewrite E in H1. by injection H1 as ->.
      * split; [done|]. intros H. inversion H as [|? y' ? r'' H1 H2]; subst. apply IH in H2. done.
    + split; [done|]. intros H. inversion H as [|? y' ? r'' H1 H2]; subst. congruence.
Qed.

Lemma strip_0x_spec s b : of_hex (strip_0x s) = Some b ->
  of_hex s = Some b \/ exists s', s = "0x" +:+ s' /\ of_hex s' = Some b.
Proof.
  intros H. unfold strip_0x in H.
  destruct s as [|c s]; [by left|].
  destruct (decide (c = "0"%char)) as [->|Hc].
  - destruct s as [|c' s]; [by left|].
    destruct (decide (c' = "x"%char)) as [->|Hc'].
    + right. exists s. split; [reflexivity|]. exact H.
    + left. destruct c' as [[] [] [] [] [] [] [] []]; try exact H; done.
  - left. destruct c as [[] [] [] [] [] [] [] []]; try exact H; done.
Qed.

Lemma fixed_hex_spec len s b : fixed_hex len s = Some b -> hex_bytes len s b.
Proof.
  unfold fixed_hex. destruct (of_hex (strip_0x s)) as [x|] eqn:E; [|done].
  destruct (String.length x =? len)%nat eqn:E'; [|done]. intros [= ->].
  apply Nat.eqb_eq in E'. split; [done|]. by apply strip_0x_spec.
Qed.
Lemma de_fixed_spec len v b : de_fixed len v = Some b -> exists s, v = JStr s /\ hex_bytes len s b.
Proof. destruct v; cbn; try done. intros H. eexists. split; [done|]. by apply fixed_hex_spec. Qed.
Lemma de_u64_spec v n : de_u64 v = Some n -> v = JNum n.
Proof. destruct v; cbn; try done. destruct (_ <? _); [|done]. by intros [= ->]. Qed.
Lemma de_string_spec v s : de_string v = Some s -> v = JStr s.
Proof. destruct v; cbn; try done. by intros [= ->]. Qed.
Lemma de_chain_spec v c : de_chain v = Some c -> exists s, v = JStr s /\ c = lower s.
Proof.
  destruct v; cbn; try done. unfold chain_name_of. intros H. exists s. split; [done|].
  repeat case_match; by simplify_eq.
Qed.
Lemma de_account_spec p v a : de_account p v = Some a -> v = JStr a.
Proof. destruct v; cbn; try done. destruct (p s); [|done]. by intros [= ->]. Qed.
Lemma de_uint_spec b v n : de_uint b v = Some n -> exists s, v = JStr s /\ parse_uint b s = Some n.
Proof. destruct v; cbn; try done. intros H. by exists s. Qed.
Lemma undigit_plus : undigit "+" = None.
Proof. reflexivity. Qed.
Lemma de_uint256_spec v n : de_uint256 v = Some n -> exists s, v = JStr s /\ parse_uint U256 s = Some n.
Proof.
  destruct v; try done. unfold de_uint256. intros H. exists s. split; [done|]. unfold parse_uint.
  destruct s as [|c s]; [done|]. cbn [is_empty] in H.
  destruct (Ascii.eqb_spec c "+") as [->|]; [|done].
  cbn in H. done.
Qed.
Lemma parse_uint_mono b b' s n : (b <= b')%N -> parse_uint b s = Some n -> parse_uint b' s = Some n.
Proof.
  intros Hle. unfold parse_uint. destruct (is_empty _); [done|]. destruct (undec _ _) as [m|]; [|done].
  destruct (N.ltb_spec m b); [|done]. intros [= ->].
  destruct (N.ltb_spec n b'); [done|lia].
Qed.
Lemma de_field_spec {A} j k (f : jval -> option A) x :
  de_field j k f = Some x -> exists v, has_field j k v /\ f v = Some x.
Proof.
  destruct j; cbn; try done. destruct (field_of l k) as [v|] eqn:E; [|done].
  intros H. exists v. split; [|done]. by exists l.
Qed.
Lemma de_attr_spec {A} ty attrs k (f : jval -> option A) x :
  de_attr attrs k f = Some x -> exists v, has_attr (Abci ty attrs) ty k v /\ f v = Some x.
Proof.
  unfold de_attr. destruct (attrs !! k) as [v|] eqn:E; [|done].
  intros H. exists v. split; [|done]. by exists attrs.
Qed.
Lemma de_vec_spec {A} (f : jval -> option A) v l :
  de_vec f v = Some l -> exists js, v = JArr js /\ Forall2 (fun j x => f j = Some x) js l.
Proof. destruct v; cbn; try done. intros H. apply opt_map_ok in H. eauto. Qed.

Lemma de_message_spec tx src (Tx Src : string -> string -> Prop) j m :
  (forall v b, tx v = Some b -> exists s, v = JStr s /\ Tx s b) ->
  (forall v b, src v = Some b -> exists s, v = JStr s /\ Src s b) ->
  de_message tx src j = Some m ->
  message_fields Tx Src j (xm_tx m) (xm_index m) (xm_daddr m) (xm_dchain m) (xm_src m) (xm_hash m).
Proof.
  intros Htx Hsrc. unfold de_message.
  destruct (de_field j "tx_id" tx) as [a|] eqn:E1; [|done].
  destruct (de_field j "event_index" de_u64) as [b|] eqn:E2; [|done].
  destruct (de_field j "destination_address" de_string) as [c|] eqn:E3; [|done].
  destruct (de_field j "destination_chain" de_chain) as [d|] eqn:E4; [|done].
  destruct (de_field j "source_address" src) as [e|] eqn:E5; [|done].
  destruct (de_field j "payload_hash" (de_fixed 32)) as [f|] eqn:E6; [|done].
  intros [= <-]. cbn [xm_tx xm_index xm_daddr xm_dchain xm_src xm_hash].
  apply de_field_spec in E1 as (v1 & F1 & D1). apply Htx in D1 as (s1 & -> & D1).
  apply de_field_spec in E2 as (v2 & F2 & D2). apply de_u64_spec in D2 as ->.
  apply de_field_spec in E3 as (v3 & F3 & D3). apply de_string_spec in D3 as ->.
  apply de_field_spec in E4 as (v4 & F4 & D4). apply de_chain_spec in D4 as (s4 & -> & D4).
  apply de_field_spec in E5 as (v5 & F5 & D5). apply Hsrc in D5 as (s5 & -> & D5).
  apply de_field_spec in E6 as (v6 & F6 & D6). apply de_fixed_spec in D6 as (s6 & -> & D6).
  constructor; eauto.
Qed.

Lemma de_worker_set_spec tx op num (Tx Op : string -> string -> Prop) j w :
  (forall v b, tx v = Some b -> exists s, v = JStr s /\ Tx s b) ->
  (forall v b, op v = Some b -> exists s, v = JStr s /\ Op s b) ->
  (forall v n, num v = Some n -> exists s, v = JStr s /\ parse_uint U256 s = Some n) ->
  de_worker_set tx op num j = Some w ->
  worker_set_fields Tx Op j (xw_tx w) (xw_index w) (xw_weights w) (xw_threshold w).
Proof.
  intros Htx Hop Hnum. unfold de_worker_set.
  destruct (de_field j "tx_id" tx) as [a|] eqn:E1; [|done].
  destruct (de_field j "event_index" de_u64) as [b|] eqn:E2; [|done].
  destruct (de_field j "operators" _) as [c|] eqn:E3; [|done].
  destruct (de_field j "operators" (fun o => de_field o "threshold" num)) as [d|] eqn:E4; [|done].
  intros [= <-]. cbn [xw_tx xw_index xw_weights xw_threshold].
  apply de_field_spec in E1 as (v1 & F1 & D1). apply Htx in D1 as (s1 & -> & D1).
  apply de_field_spec in E2 as (v2 & F2 & D2). apply de_u64_spec in D2 as ->.
  apply de_field_spec in E3 as (v3 & F3 & D3). apply de_field_spec in D3 as (v3' & F3' & D3).
  apply de_vec_spec in D3 as (js & -> & D3).
  apply de_field_spec in E4 as (v4 & F4 & D4). apply de_field_spec in D4 as (v4' & F4' & D4).
  apply Hnum in D4 as (s4 & -> & D4).
  constructor; eauto 6.
  exists v3, js. split; [done|]. split; [done|]. eapply Forall2_impl; [exact D3|].
    intros v [x n] H. unfold de_pair in H.
    destruct v as [| | | | |l|]; try done. destruct l as [|v1 [|v2 [|]]]; try done.
    destruct (op v1) as [x'|] eqn:Ex; [|done]. destruct (num v2) as [n'|] eqn:En; [|done].
    injection H as -> ->. apply Hop in Ex as (s & -> & Ex). apply Hnum in En as (s' & -> & En).
    cbn [fst snd]. eauto 6.
Qed.

(** *** The polls *)

Lemma de_evm_poll_spec {A} acc key (item : jval -> option A) ty attrs p :
  de_evm_poll acc key item attrs = Some p ->
  let ev := Abci ty attrs in
  has_attr ev ty "_contract_address" (JStr (ep_contract p)) /\
  (exists x, has_attr ev ty "poll_id" (JStr x) /\ parse_u64 x = Some (ep_poll p)) /\
  (exists x, has_attr ev ty "source_chain" (JStr x) /\ ep_chain p = lower x) /\
  (exists x, has_attr ev ty "source_gateway_address" (JStr x) /\ hex_bytes 20 x (ep_gateway p)) /\
  has_attr ev ty "confirmation_height" (JNum (ep_confirmations p)) /\
  has_attr ev ty "expires_at" (JNum (ep_expires p)) /\
  (exists v, has_attr ev ty key v /\ item v = Some (ep_item p)) /\
  has_attr ev ty "participants" (JArr (JStr <$> ep_participants p)).
Proof.
  unfold de_evm_poll.
  destruct (de_attr attrs "_contract_address" _) as [a|] eqn:E1; [|done].
  destruct (de_attr attrs "poll_id" _) as [b|] eqn:E2; [|done].
  destruct (de_attr attrs "source_chain" _) as [c|] eqn:E3; [|done].
  destruct (de_attr attrs "source_gateway_address" _) as [d|] eqn:E4; [|done].
  destruct (de_attr attrs "confirmation_height" _) as [e|] eqn:E5; [|done].
  destruct (de_attr attrs "expires_at" _) as [f|] eqn:E6; [|done].
  destruct (de_attr attrs key item) as [g|] eqn:E7; [|done].
  destruct (de_attr attrs "participants" _) as [h|] eqn:E8; [|done].
  intros [= <-]. cbn [ep_contract ep_poll ep_chain ep_gateway ep_confirmations ep_expires ep_item ep_participants].
  apply (de_attr_spec ty) in E1 as (v1 & F1 & D1). apply de_account_spec in D1 as ->.
  apply (de_attr_spec ty) in E2 as (v2 & F2 & D2). apply de_uint_spec in D2 as (s2 & -> & D2).
  apply (de_attr_spec ty) in E3 as (v3 & F3 & D3). apply de_chain_spec in D3 as (s3 & -> & D3).
  apply (de_attr_spec ty) in E4 as (v4 & F4 & D4). apply de_fixed_spec in D4 as (s4 & -> & D4).
  apply (de_attr_spec ty) in E5 as (v5 & F5 & D5). apply de_u64_spec in D5 as ->.
  apply (de_attr_spec ty) in E6 as (v6 & F6 & D6). apply de_u64_spec in D6 as ->.
  apply (de_attr_spec ty) in E7 as (v7 & F7 & D7).
  apply (de_attr_spec ty) in E8 as (v8 & F8 & D8). apply de_vec_spec in D8 as (js & -> & D8).
  assert (js = JStr <$> h) as ->.
  { clear -D8. induction D8 as [|j x js h H _ IH]; [done|]. apply de_account_spec in H as ->. cbn. by f_equal. }
  cbv zeta. split; [done|]. split; [by eauto|]. split; [by eauto|]. split; [by eauto|].
  split; [done|]. split; [done|]. split; [by eauto|]. done.
Qed.

Lemma de_sui_poll_spec {A} acc key (item : jval -> option A) ty attrs p :
  de_sui_poll acc key item attrs = Some p ->
  let ev := Abci ty attrs in
  has_attr ev ty "_contract_address" (JStr (sp_contract p)) /\
  (exists x, has_attr ev ty "poll_id" (JStr x) /\ parse_u64 x = Some (sp_poll p)) /\
  (exists x, has_attr ev ty "source_gateway_address" (JStr x) /\ hex_bytes 32 x (sp_gateway p)) /\
  has_attr ev ty "expires_at" (JNum (sp_expires p)) /\
  (exists v, has_attr ev ty key v /\ item v = Some (sp_item p)) /\
  has_attr ev ty "participants" (JArr (JStr <$> sp_participants p)).
Proof.
  unfold de_sui_poll.
  destruct (de_attr attrs "_contract_address" _) as [a|] eqn:E1; [|done].
  destruct (de_attr attrs "poll_id" _) as [b|] eqn:E2; [|done].
  destruct (de_attr attrs "source_gateway_address" _) as [d|] eqn:E4; [|done].
  destruct (de_attr attrs key item) as [g|] eqn:E7; [|done].
  destruct (de_attr attrs "participants" _) as [h|] eqn:E8; [|done].
  destruct (de_attr attrs "expires_at" _) as [f|] eqn:E6; [|done].
  intros [= <-]. cbn [sp_contract sp_poll sp_gateway sp_expires sp_item sp_participants].
  apply (de_attr_spec ty) in E1 as (v1 & F1 & D1). apply de_account_spec in D1 as ->.
  apply (de_attr_spec ty) in E2 as (v2 & F2 & D2). apply de_uint_spec in D2 as (s2 & -> & D2).
  apply (de_attr_spec ty) in E4 as (v4 & F4 & D4). apply de_fixed_spec in D4 as (s4 & -> & D4).
  apply (de_attr_spec ty) in E6 as (v6 & F6 & D6). apply de_u64_spec in D6 as ->.
  apply (de_attr_spec ty) in E7 as (v7 & F7 & D7).
  apply (de_attr_spec ty) in E8 as (v8 & F8 & D8). apply de_vec_spec in D8 as (js & -> & D8).
  assert (js = JStr <$> h) as ->.
  { clear -D8. induction D8 as [|j x js h H _ IH]; [done|]. apply de_account_spec in H as ->. cbn. by f_equal. }
  cbv zeta. split; [done|]. split; [by eauto|]. split; [by eauto|].
  split; [done|]. split; [by eauto|]. done.
Qed.

Lemma lower_idem s : lower (lower s) = lower s.
Proof.
  induction s as [|c s IH]; [done|]. cbn [lower]. rewrite IH. f_equal.
  clear. destruct c as [[] [] [] [] [] [] [] []]; reflexivity.
Qed.

Lemma evm_relevant_spec {A} cfg height (p : evm_poll A) :
  evm_relevant cfg height p = true <->
  hc_contract cfg = ep_contract p /\ lower (evm_chain_str (hc_chain cfg)) = lower (ep_chain p) /\
  hc_worker cfg ∈ ep_participants p /\ height < ep_expires p.
Proof.
  unfold evm_relevant, evm_chain_eq. rewrite !andb_true_iff, !String.eqb_eq, bool_decide_eq_true, negb_true_iff,
    N.leb_gt. tauto.
Qed.
Lemma sui_relevant_spec {A} cfg height (p : sui_poll A) :
  sui_relevant cfg height p = true <->
  hc_contract cfg = sp_contract p /\ hc_worker cfg ∈ sp_participants p /\ height < sp_expires p.
Proof.
  unfold sui_relevant. rewrite !andb_true_iff, !String.eqb_eq, bool_decide_eq_true, negb_true_iff,
    N.leb_gt. tauto.
Qed.

Lemma typed_ok {A} ty (de : gmap string jval -> option A) ev k tx :
  typed ty de ev k = Ok (Some tx) ->
  exists attrs a, ev = Abci ty attrs /\ de attrs = Some a /\ k a = Ok (Some tx).
Proof.
  unfold typed. destruct ev as [| |t attrs]; try done.
  destruct (String.eqb_spec t ty) as [->|]; [|done].
  destruct (de attrs) as [a|] eqn:E; [|done]. eauto.
Qed.
Lemma submit_ok open tx tx' : submit open tx = Ok (Some tx') -> tx' = tx /\ open = true.
Proof. unfold submit. destruct open; [|done]. by intros [= ->]. Qed.

Lemma evm_poll_for {A} acc key (item : jval -> option A) ty attrs p cfg height :
  de_evm_poll acc key item attrs = Some p -> evm_relevant cfg height p = true ->
  poll_for cfg height (Abci ty attrs) ty (ep_poll p) /\ poll_of_chain cfg (Abci ty attrs) ty.
Proof.
  intros Hd Hr. apply (de_evm_poll_spec acc key item ty) in Hd as (F1 & F2 & F3 & _ & _ & F6 & _ & F8).
  apply evm_relevant_spec in Hr as (Hk & Hc & Hw & He). rewrite <- Hk in F1.
  split.
  - split; [done|]. split; [done|]. split.
    + eexists. split; [exact F8|]. by apply elem_of_list_fmap_1.
    + eauto.
  - destruct F3 as (x & F3 & Hx). exists x. split; [done|]. by rewrite Hc, Hx, lower_idem.
Qed.
Lemma sui_poll_for {A} acc key (item : jval -> option A) ty attrs p cfg height :
  de_sui_poll acc key item attrs = Some p -> sui_relevant cfg height p = true ->
  poll_for cfg height (Abci ty attrs) ty (sp_poll p).
Proof.
  intros Hd Hr. apply (de_sui_poll_spec acc key item ty) in Hd as (F1 & F2 & _ & F6 & _ & F8).
  apply sui_relevant_spec in Hr as (Hk & Hw & He). rewrite <- Hk in F1.
  split; [done|]. split; [done|]. split.
  - eexists. split; [exact F8|]. by apply elem_of_list_fmap_1.
  - eauto.
Qed.

(** *** Finality, receipts and logs *)

Lemma finalized_height_spec c confs rpc h b :
  finalized_height c confs rpc = Ok h -> (b <= h <-> evm_final c confs rpc b).
Proof.
  unfold finalized_height, evm_final. destruct c.
  - destruct (er_finalized rpc) as [[f|]|]; try done. intros [= ->]. split.
    + intros. eauto.
    + by intros (? & [= <-] & ?).
  - intros H. apply rbind_ok in H as (n & Hn & H). apply of_option_ok in Hn.
    destruct (N.ltb_spec n confs); [done|]. apply checked_ok in H as [Hb ->].
    split.
    + intros. exists n. split; [done|]. lia.
    + intros (n' & Hn' & ? & ?). rewrite Hn' in Hn. injection Hn as ->. lia.
Qed.

Lemma receipt_final_spec h r : receipt_final h r = true <-> default (2 ^ 64 - 1) (r_block r) <= h.
Proof. unfold receipt_final. apply N.leb_le. Qed.

Lemma find_first {A} (f : A -> bool) l x :
  List.find f l = Some x <->
  exists pre post, l = pre ++ x :: post /\ Forall (fun y => f y = false) pre /\ f x = true.
Proof.
  split.
  - induction l as [|y l IH]; [done|]. cbn. destruct (f y) eqn:E.
    + intros [= ->]. exists [], l. done.
    + intros H. apply IH in H as (pre & post & -> & Hp & Hx). exists (y :: pre), post.
      split; [done|]. split; [by constructor|done].
  - intros (pre & post & -> & Hp & Hx). induction Hp as [|y pre Hy _ IH]; cbn.
    + by rewrite Hx.
    + by rewrite Hy.
Qed.

Lemma get_event_spec gateway r i l e :
  get_event gateway r i = Some (l, e) <->
  exists pre post, r_logs r = pre ++ l :: post /\ Forall (fun l' => l_index l' <> Some i) pre /\
    l_index l = Some i /\ l_addr l = gateway /\ l_event l = Some e.
Proof.
  unfold get_event. split.
  - destruct (List.find _ _) as [l'|] eqn:E; [|done].
    destruct (String.eqb_spec (l_addr l') gateway); [|done].
    destruct (l_event l') as [e'|] eqn:E'; [|done]. cbn. intros [= -> ->].
    apply find_first in E as (pre & post & Hl & Hp & Hx).
    exists pre, post. split; [done|]. split.
    + eapply Forall_impl; [exact Hp|]. intros x Hx'. by apply bool_decide_eq_false in Hx'.
    + by apply bool_decide_eq_true in Hx.
  - intros (pre & post & Hl & Hp & Hi & Ha & He).
    assert (List.find (fun l => bool_decide (l_index l = Some i)) (r_logs r) = Some l) as ->.
    { apply find_first. exists pre, post. split; [done|]. split.
      - eapply Forall_impl; [exact Hp|]. intros x Hx'. by apply bool_decide_eq_false.
      - by apply bool_decide_eq_true. }
    apply String.eqb_eq in Ha as ->. by rewrite He.
Qed.

Lemma lower_chain_name c other : chain_name_eq_str c other = true <-> lower other = c.
Proof. unfold chain_name_eq_str. rewrite String.eqb_eq. split; congruence. Qed.

Lemma evm_verify_message_spec gateway r m :
  evm_verify_message gateway r m = SucceededOnChain <->
  r_hash r = xm_tx m /\
  exists l dc pre post, r_logs r = pre ++ l :: post /\ Forall (fun l' => l_index l' <> Some (xm_index m)) pre /\
    l_index l = Some (xm_index m) /\ l_tx l = Some (xm_tx m) /\ l_addr l = gateway /\
    lower dc = xm_dchain m /\ l_event l = Some (ContractCall (xm_src m) dc (xm_daddr m) (xm_hash m)).
Proof.
  unfold evm_verify_message. split.
  - destruct (get_event gateway r (xm_index m)) as [[l e]|] eqn:E; [|done].
    destruct (String.eqb_spec (r_hash r) (xm_tx m)) as [Hh|]; [|done]. cbn [andb].
    destruct (evm_message_eq l e m) eqn:Em; [|done]. intros _. split; [done|].
    apply get_event_spec in E as (pre & post & Hl & Hp & Hi & Ha & He).
    destruct e as [s c a h| |]; try done. cbn in Em.
    rewrite !andb_true_iff, !bool_decide_eq_true, !String.eqb_eq, lower_chain_name in Em.
    destruct Em as (((((Ht & _) & ->) & Hc) & ->) & ->). eauto 12.
  - intros (Hh & l & dc & pre & post & Hl & Hp & Hi & Ht & Ha & Hc & He).
    assert (get_event gateway r (xm_index m) = Some (l, ContractCall (xm_src m) dc (xm_daddr m) (xm_hash m))) as ->.
    { apply get_event_spec. eauto 10. }
    cbn. rewrite Hh, !String.eqb_refl, !bool_decide_eq_true_2 by done.
    apply lower_chain_name in Hc. by rewrite Hc.
Qed.
Lemma evm_verify_message_or gateway r m :
  evm_verify_message gateway r m = SucceededOnChain \/ evm_verify_message gateway r m = NotFound.
Proof.
  unfold evm_verify_message. destruct (get_event _ _ _) as [[l e]|]; [|by right].
  destruct (_ && _); [by left|by right].
Qed.
Lemma evm_verify_worker_set_spec gateway r w :
  evm_verify_worker_set gateway r w = SucceededOnChain <->
  r_hash r = xw_tx w /\
  exists l pre post, r_logs r = pre ++ l :: post /\ Forall (fun l' => l_index l' <> Some (xw_index w)) pre /\
    l_index l = Some (xw_index w) /\ l_tx l = Some (xw_tx w) /\ l_addr l = gateway /\
    l_event l = Some (OperatorshipTransferred (evm_operators (xw_weights w) (xw_threshold w))).
Proof.
  unfold evm_verify_worker_set. split.
  - destruct (get_event gateway r (xw_index w)) as [[l e]|] eqn:E; [|done].
    destruct (String.eqb_spec (r_hash r) (xw_tx w)) as [Hh|]; [|done]. cbn [andb].
    destruct (evm_worker_set_eq l e w) eqn:Em; [|done]. intros _. split; [done|].
    apply get_event_spec in E as (pre & post & Hl & Hp & Hi & Ha & He).
    destruct e as [|d|]; try done. unfold evm_worker_set_eq in Em.
    rewrite !andb_true_iff, !bool_decide_eq_true, !String.eqb_eq in Em.
    destruct Em as ((Ht & _) & ->). exists l, pre, post. done.
  - intros (Hh & l & pre & post & Hl & Hp & Hi & Ht & Ha & He).
    assert (get_event gateway r (xw_index w) =
      Some (l, OperatorshipTransferred (evm_operators (xw_weights w) (xw_threshold w)))) as ->.
    { apply get_event_spec. eauto 10. }
    unfold evm_worker_set_eq. rewrite Hh, !bool_decide_eq_true_2 by done.
    change (operators_data w) with (evm_operators (xw_weights w) (xw_threshold w)).
    by rewrite !String.eqb_refl.
Qed.
Lemma evm_verify_worker_set_or gateway r w :
  evm_verify_worker_set gateway r w = SucceededOnChain \/ evm_verify_worker_set gateway r w = NotFound.
Proof.
  unfold evm_verify_worker_set. destruct (get_event _ _ _) as [[l e]|]; [|by right].
  destruct (_ && _); [by left|by right].
Qed.

(** The map of receipts. *)
Lemma lookup_last {A} (l : list (string * A)) k x :
  (list_to_map (reverse l) : gmap string A) !! k = Some x -> (k, x) ∈ l.
Proof. intros H. apply elem_of_list_to_map_2 in H. by rewrite elem_of_reverse in H. Qed.

Lemma finalized_receipts_sound c confs rpc txs rs t r :
  finalized_receipts c confs rpc txs = Ok rs -> rs !! t = Some r ->
  exists q, q ∈ er_order rpc txs /\ er_receipt rpc q = Some (Some r) /\ r_hash r = t /\
    evm_final c confs rpc (default (2 ^ 64 - 1) (r_block r)).
Proof.
  unfold finalized_receipts. intros H Hl. apply rbind_ok in H as (h & Hh & H). injection H as <-.
  apply lookup_last in Hl. apply elem_of_list_omap in Hl as (q & Hq & Hl).
  exists q. split; [done|]. destruct (er_receipt rpc q) as [[r'|]|]; try done.
  destruct (receipt_final h r') eqn:Ef; [|done]. injection Hl as <- <-.
  split; [done|]. split; [done|]. apply receipt_final_spec in Ef.
  by apply (finalized_height_spec _ _ _ _ _ Hh).
Qed.
Lemma finalized_receipts_complete c confs rpc txs rs t r :
  finalized_receipts c confs rpc txs = Ok rs -> honest_receipts rpc -> set_order (er_order rpc) ->
  t ∈ txs -> er_receipt rpc t = Some (Some r) ->
  evm_final c confs rpc (default (2 ^ 64 - 1) (r_block r)) ->
  rs !! t = Some r.
Proof.
  unfold finalized_receipts. intros H Hh Ho Ht Hr Hf. apply rbind_ok in H as (h & Hh' & H). injection H as <-.
  apply (finalized_height_spec _ _ _ _ _ Hh') in Hf. apply receipt_final_spec in Hf.
  assert (Hrt : r_hash r = t) by by apply Hh.
  destruct (Ho txs) as [Hnd Hin].
  apply elem_of_list_to_map_1'.
  - intros r' Hr'. rewrite elem_of_reverse in Hr'. apply elem_of_list_omap in Hr' as (q & Hq & E).
    destruct (er_receipt rpc q) as [[r''|]|] eqn:Eq; try done.
    destruct (receipt_final h r''); [|done]. injection E as E1 ->.
    apply Hh in Eq as Eq'. assert (q = t) as -> by congruence. congruence.
  - apply elem_of_reverse. apply elem_of_list_omap. exists t. split; [by apply Hin|].
    rewrite Hr, Hf. by rewrite Hrt.
Qed.
