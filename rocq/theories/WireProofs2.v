(** The types of the messages, one by one. *)
From Verif Require Import Base BaseLemmas MapLemmas StdProofs Text TextLemmas StdModel RouterTypes RegistryTypes OperatorsModel MultisigTypes
  EncodingModel VerifierModel RewardsModel RegistryModel RouterModel GatewayModel NexusModel MultisigModel ProverModel
  EventsModel JsonModel JsonSpec JsonProofs WireModel WireSpec WireProofs.

Ltac inv_fields H :=
  repeat match type of H with
  | struct _ _ _ = Some _ => let l := fresh "l" in apply struct_some in H as (l & -> & H)
  | fld _ _ _ _ = Some _ => let v := fresh "v" in let a := fresh "a" in let E := fresh "E" in
      apply fld_some in H as (v & a & _ & E & H)
  | fld_opt _ _ _ _ = Some _ => let a := fresh "a" in let E := fresh "E" in
      apply fld_opt_some in H as (a & H & E)
  end.
Ltac to_fields :=
  rewrite struct_ok by reflexivity;
  repeat (first [erewrite fld_ok; [|reflexivity|eassumption]|erewrite fld_opt_ok; [|reflexivity|eassumption]]).
Ltac obj := apply readable_obj'; [reflexivity|repeat (apply Forall_cons; split; [cbn [snd fst]|]); try apply Forall_nil_2].
Ltac lift H := eapply readable_mono; [|exact H]; lia.

Lemma codec_ccid : codec e_ccid d_ccid proper_id 1.
Proof.
  split.
  - intros [c i] [Hc Hi]. cbn in Hc, Hi.
    destruct (proj1 codec_chain c Hc) as [_ D1], (proj1 codec_nonempty i Hi) as [_ D2]. split.
    + unfold e_ccid. obj; constructor.
    + unfold d_ccid, e_ccid. cbn [cc_chain cc_id]. to_fields. done.
  - intros v a H. unfold d_ccid in H. inv_fields H. injection H as <-. split; cbn.
    + by eapply codec_chain.
    + by eapply codec_nonempty.
Qed.
Lemma codec_message : codec e_message d_message proper_message 2.
Proof.
  split.
  - intros [c s dc da h] (Hc & Hs & Hdc & Hda & Hh). cbn in Hc, Hs, Hdc, Hda, Hh.
    destruct (proj1 codec_ccid c Hc) as [R1 D1], (proj1 codec_nonempty s Hs) as [_ D2], (proj1 codec_chain dc Hdc) as [_ D3],
      (proj1 codec_nonempty da Hda) as [_ D4], (proj1 codec_hash h Hh) as [_ D5]. unfold e_hex in D5. split.
    + unfold e_message. cbn [m_cc m_src m_dchain m_daddr m_hash]. obj; [exact R1|constructor|constructor|constructor|constructor].
    + unfold d_message, e_message. cbn [m_cc m_src m_dchain m_daddr m_hash]. to_fields. done.
  - intros v a H. unfold d_message in H. inv_fields H. injection H as <-. unfold proper_message. cbn [m_cc m_src m_dchain m_daddr m_hash].
    split; [by eapply codec_ccid|]. split; [by eapply codec_nonempty|]. split; [by eapply codec_chain|].
    split; [by eapply codec_nonempty|by eapply codec_hash].
Qed.
Lemma codec_messages : codec (e_list e_message) (d_vec d_message) (Forall proper_message) 3.
Proof. apply codec_list, codec_message. Qed.
Lemma codec_vote : codec e_vote d_vote (fun _ => True) 0.
Proof. split; [|done]. intros [] _; (split; [constructor|reflexivity]). Qed.
Lemma codec_votes : codec (e_list e_vote) (d_vec d_vote) (fun _ => True) 1.
Proof.
  eapply codec_impl; [|apply codec_list, codec_vote]. intros l. split; [done|]. intros _. by apply Forall_forall.
Qed.
Lemma codec_operators : codec e_operators d_operators proper_operators 3.
Proof.
  pose proof (codec_list _ _ _ _ (codec_pair _ _ _ _ _ _ _ _ codec_hex (codec_uint U256))) as Hp. cbn [Nat.max] in Hp.
  split.
  - intros [ws t] [Ht Hw]. cbn in Ht, Hw.
    destruct (proj1 Hp ws) as [R1 D1].
    { apply Forall_forall. intros [b w] Hin. cbn. split; [done|]. by eapply Hw. }
    destruct (proj1 (codec_uint U256) t Ht) as [_ D2]. split.
    + unfold e_operators. obj; [exact R1|constructor].
    + unfold d_operators, e_operators. cbn [o_weights o_threshold]. to_fields. done.
  - intros v a H. unfold d_operators in H. inv_fields H. injection H as <-. split; cbn.
    + by eapply (codec_uint U256).
    + intros b w Hin. pose proof (proj2 Hp _ _ E) as HF. rewrite Forall_forall in HF. by destruct (HF _ Hin).
Qed.
Lemma threshold_proper n d t : n < U64 -> d < U64 -> threshold_try_from n d = Ok t ->
  proper_threshold t /\ t = {| t_num := n; t_den := d |}.
Proof.
  intros Hn Hd. unfold threshold_try_from, nonempty_u64.
  destruct (N.eqb_spec n 0); [done|]. cbn. destruct (N.eqb_spec d 0); [done|]. cbn.
  destruct (N.ltb_spec d n); [done|]. intros [= <-]. split; [|done]. unfold proper_threshold. cbn.
  split; [lia|exact Hd].
Qed.
Lemma codec_threshold : codec e_threshold d_threshold proper_threshold 1.
Proof.
  pose proof (codec_pair _ _ _ _ _ _ _ _ (codec_uint U64) (codec_uint U64)) as Hp. cbn [Nat.max] in Hp.
  split.
  - intros [n d] [[H1 H2] H3]. cbn in H1, H2, H3. assert (n < U64 /\ d < U64) as Hb by (change U64 with (2 ^ 64); lia).
    destruct (proj1 Hp (n, d) Hb) as [R D]. split; [exact R|]. unfold d_threshold, e_threshold. cbn [t_num t_den].
    cbn [fst snd] in D. rewrite D. cbn. unfold threshold_try_from, nonempty_u64.
    destruct (N.eqb_spec n 0); [lia|]. cbn. destruct (N.eqb_spec d 0); [lia|]. cbn. destruct (N.ltb_spec d n); [lia|done].
  - intros v t. unfold d_threshold. destruct (d_pair _ _ v) as [[n d]|] eqn:E; [|done]. cbn.
    apply (proj2 Hp) in E as [Hn Hd]. cbn in Hn, Hd. destruct (threshold_try_from n d) eqn:Et; [|done|done].
    intros [= <-]. exact (proj1 (threshold_proper _ _ _ Hn Hd Et)).
Qed.
Lemma codec_params : codec e_params d_params proper_params 2.
Proof.
  split.
  - intros [d r t] (Hd & Hr & Ht). cbn in Hd, Hr, Ht.
    destruct (proj1 (codec_uint U128) r Hr) as [_ D1], (proj1 codec_threshold t Ht) as [R2 D2].
    assert (d_nonempty_u64 (e_uint d) = Some d) as D0.
    { unfold d_nonempty_u64. destruct (proj1 (codec_uint U64) d (proj2 Hd)) as [_ ->]. cbn. unfold nonempty_u64.
      destruct (N.eqb_spec d 0); [lia|done]. }
    change (d_uint U128) with d_nonempty_u128 in D1. split.
    + unfold e_params. obj; [constructor|constructor|exact R2].
    + unfold d_params, e_params. cbn [rp_duration rp_rewards rp_threshold]. to_fields. done.
  - intros v a H. unfold d_params in H. inv_fields H. injection H as <-. unfold proper_params. cbn [rp_duration rp_rewards rp_threshold].
    split; [|split; [by eapply (codec_uint U128)|by eapply codec_threshold]].
    unfold d_nonempty_u64 in E. destruct (d_uint U64 _) as [n|] eqn:En; [|done]. cbn in E. unfold nonempty_u64 in E.
    apply (proj2 (codec_uint U64)) in En. destruct (N.eqb_spec n 0); [done|]. injection E as <-. split; [lia|exact En].
Qed.
Lemma codec_key : codec e_public_key d_public_key proper_key 1.
Proof.
  split.
  - intros [t b] Hk. unfold proper_key in Hk. cbn in Hk. split.
    + unfold e_public_key. cbn. destruct t; (obj; constructor).
    + unfold d_public_key, e_public_key. cbn [pk_type pk_bytes].
      destruct (proj1 codec_hex b I) as [_ D].
      destruct t; cbn [variant mbind option_bind fst snd].
      * change (d_key_type (JStr "ecdsa")) with (Some KEcdsa). cbn [mbind option_bind]. rewrite D. cbn [mbind option_bind].
        unfold public_key_try_from. cbv zeta. by destruct Hk as [-> | ->].
      * change (d_key_type (JStr "ed25519")) with (Some KEd25519). cbn [mbind option_bind]. rewrite D. cbn [mbind option_bind].
        unfold public_key_try_from. cbv zeta. by rewrite Hk.
  - intros v a. unfold d_public_key. destruct (variant v) as [p|]; [|done]. cbn [mbind option_bind].
    destruct (d_key_type _) as [t|]; [|done]. cbn [mbind option_bind].
    destruct (d_hex p.2) as [b|]; [|done]. cbn [mbind option_bind]. unfold public_key_try_from. cbv zeta.
    destruct t.
    + destruct (Nat.eqb_spec (String.length b) 33); cbn [orb].
      * intros [= <-]. by left.
      * destruct (Nat.eqb_spec (String.length b) 65); [|done]. intros [= <-]. by right.
    + destruct (Nat.eqb_spec (String.length b) 32); [|done]. by intros [= <-].
Qed.
Lemma codec_signer : codec e_signer d_signer (fun s => sg_weight s < U256 /\ proper_key (sg_key s)) 2.
Proof.
  split.
  - intros [a w k] [Hw Hk]. cbn in Hw, Hk.
    destruct (proj1 codec_str a I) as [_ D1], (proj1 (codec_uint U256) w Hw) as [_ D2], (proj1 codec_key k Hk) as [R3 D3]. split.
    + unfold e_signer. obj; [constructor|constructor|exact R3].
    + unfold d_signer, e_signer. cbn [sg_addr sg_weight sg_key]. to_fields. done.
  - intros v s H. unfold d_signer in H. inv_fields H. injection H as <-. cbn.
    split; [by eapply (codec_uint U256)|by eapply codec_key].
Qed.

Lemma btree_keys_nodup {A} (m : gmap string A) : NoDup (btree_iter m).*1.
Proof.
  unfold btree_iter. rewrite (fmap_Permutation fst _ _ (isort_perm _ (map_to_list m))). apply NoDup_fst_map_to_list.
Qed.
Lemma d_entries_ok {A} (e : A -> jval) d (P : A -> Prop) n (l : list (string * A)) :
  codec e d P n -> Forall (fun p => P p.2) l ->
  forall m : gmap string A, d_entries d ((fun p => (p.1, e p.2)) <$> l) m = Some (foldl (fun m p => <[p.1 := p.2]> m) m l).
Proof.
  intros [H1 _]. induction l as [|[k a] l IH]; intros Hl m; [done|].
  apply Forall_cons in Hl as [Ha Hl]. cbn [fmap list_fmap d_entries fst snd]. destruct (H1 a Ha) as [_ ->]. cbn [mbind option_bind foldl fst snd].
  by apply IH.
Qed.
Lemma foldl_inserts {A} (l : list (string * A)) : NoDup l.*1 -> forall (m : gmap string A) k,
  foldl (fun m p => <[p.1 := p.2]> m) m l !! k =
  match (list_to_map l : gmap string A) !! k with Some a => Some a | None => m !! k end.
Proof.
  induction l as [|[x a] l IH]; intros Hnd m k; [done|]. cbn [fmap list_fmap fst] in Hnd. apply NoDup_cons in Hnd as [Hx Hnd].
  cbn [foldl fst snd]. rewrite IH by done. cbn [list_to_map foldr uncurry fst snd].
  destruct (decide (k = x)) as [->|Hk].
  - change (foldr _ ∅ l) with (list_to_map l : gmap string A).
    rewrite (not_elem_of_list_to_map_1 l x Hx), !lookup_insert. done.
  - change (foldr _ ∅ l) with (list_to_map l : gmap string A). rewrite !lookup_insert_ne by done. done.
Qed.
Lemma foldl_btree {A} (m : gmap string A) : foldl (fun m p => <[p.1 := p.2]> m) ∅ (btree_iter m) = m.
Proof.
  apply map_eq. intros k. rewrite foldl_inserts by apply btree_keys_nodup. rewrite lookup_empty.
  assert ((list_to_map (btree_iter m) : gmap string A) = m) as ->.
  { rewrite <- (list_to_map_to_list m) at 2. apply list_to_map_proper; [apply btree_keys_nodup|].
    unfold btree_iter. apply isort_perm. }
  by destruct (m !! k).
Qed.
Lemma codec_map {A} (e : A -> jval) d (P : A -> Prop) n : codec e d P n ->
  codec (fun m => JObj ((fun p => (p.1, e p.2)) <$> btree_iter m)) (d_map d) (fun m => forall k a, m !! k = Some a -> P a) (S n).
Proof.
  intros Hc. split.
  - intros m Hm. assert (Forall (fun p => P p.2) (btree_iter m)) as HF.
    { apply Forall_forall. intros [k a] Hin. apply elem_of_btree_iter in Hin. by eapply Hm. }
    split.
    + constructor.
      * rewrite <- list_fmap_compose. cbn. apply btree_keys_nodup.
      * apply Forall_fmap. eapply Forall_impl; [exact HF|]. intros [k a] Ha. cbn. by apply Hc.
    + unfold d_map. rewrite (d_entries_ok e d P n _ Hc HF). by rewrite foldl_btree.
  - intros v m H k a Hk. unfold d_map in H. destruct v as [| | | | | |l]; try done.
    assert (forall l (m0 m : gmap string A), (forall k a, m0 !! k = Some a -> P a) -> d_entries d l m0 = Some m ->
      forall k a, m !! k = Some a -> P a) as Hind.
    { clear -Hc. induction l as [|[x v] l IH]; intros m0 m Hm0 H k a Hk; cbn in H.
      - injection H as <-. by eapply Hm0.
      - destruct (d v) as [b|] eqn:E; [|done]. cbn in H. eapply IH; [|exact H|exact Hk].
        intros k' a' Hk'. destruct (decide (k' = x)) as [->|Hne].
        + rewrite lookup_insert in Hk'. injection Hk' as <-. by eapply Hc.
        + rewrite lookup_insert_ne in Hk' by done. by eapply Hm0. }
    eapply Hind; [|exact H|exact Hk]. intros k' a' Hk'. by rewrite lookup_empty in Hk'.
Qed.
Lemma codec_worker_set : codec e_worker_set d_worker_set proper_set 4.
Proof.
  pose proof (codec_map _ _ _ _ codec_signer) as Hm. split.
  - intros [m t c] (Ht & Hc & Hs). cbn in Ht, Hc, Hs.
    destruct (proj1 Hm m Hs) as [R1 D1], (proj1 (codec_uint U256) t Ht) as [_ D2],
      (proj1 (codec_num U64 ltac:(reflexivity)) c Hc) as [R3 D3]. split.
    + unfold e_worker_set. cbn [ws_signers ws_threshold ws_created]. obj; [exact R1|constructor|lift R3].
    + unfold d_worker_set, e_worker_set. cbn [ws_signers ws_threshold ws_created]. to_fields. done.
  - intros v w H. unfold d_worker_set in H. inv_fields H. injection H as <-. unfold proper_set. cbn [ws_signers ws_threshold ws_created].
    split; [by eapply (codec_uint U256)|]. split; [by eapply (codec_num U64 ltac:(reflexivity))|]. by eapply Hm.
Qed.
Lemma codec_direction : codec e_direction d_direction (fun _ => True) 0.
Proof. split; [|done]. intros [] _; (split; [constructor|reflexivity]). Qed.

(** bytes *)
Lemma d_all_bytes s : d_all (d_num 256) ((fun c => JNum (N_of_ascii c)) <$> String.list_ascii_of_string s) =
  Some ((fun c => N_of_ascii c) <$> String.list_ascii_of_string s).
Proof.
  induction s as [|c s IH]; [done|]. cbn [String.list_ascii_of_string fmap list_fmap d_all].
  assert (d_num 256 (JNum (N_of_ascii c)) = Some (N_of_ascii c)) as ->.
  { unfold d_num. assert (N_of_ascii c < 256) as H; [|by apply N.ltb_lt in H as ->].
    destruct c as [[] [] [] [] [] [] [] []]; reflexivity. }
  cbn [mbind option_bind]. change (list_fmap _ _ ?f ?l) with (f <$> l). by rewrite IH.
Qed.
Lemma string_of_ascii s : string_of_bytes ((fun c => N_of_ascii c) <$> String.list_ascii_of_string s) = s.
Proof.
  induction s as [|c s IH]; [done|]. cbn [String.list_ascii_of_string fmap list_fmap string_of_bytes].
  change (list_fmap _ _ ?f ?l) with (f <$> l). by rewrite IH, ascii_N_embedding.
Qed.
Lemma codec_bytes : codec bytes_json d_bytes (fun _ => True) 1.
Proof.
  split; [|done]. intros s _. split.
  - unfold bytes_json. constructor. apply Forall_fmap, Forall_forall. intros c _. constructor.
    destruct c as [[] [] [] [] [] [] [] []]; reflexivity.
  - unfold d_bytes, bytes_json, d_vec. rewrite d_all_bytes. cbn [fmap option_fmap option_map]. f_equal. apply string_of_ascii.
Qed.
Lemma codec_nmessage : codec e_nmessage d_nmessage proper_nmessage 2.
Proof.
  split.
  - intros [sc sa dc da h t i] (H1 & H2 & H3 & H4 & H5 & H6 & H7). cbn in H1, H2, H3, H4, H5, H6, H7.
    destruct (proj1 codec_chain sc H1) as [_ D1], (proj1 codec_nonempty sa H2) as [_ D2], (proj1 codec_chain dc H3) as [_ D3],
      (proj1 codec_nonempty da H4) as [_ D4], (proj1 codec_bytes h I) as [R5 D5], (proj1 codec_bytes t I) as [R6 D6],
      (proj1 (codec_num U64 ltac:(reflexivity)) i H7) as [R7 D7]. split.
    + unfold e_nmessage. cbn [n_schain n_saddr n_dchain n_daddr n_hash n_txid n_index].
      obj; [constructor|constructor|constructor|constructor|exact R5|exact R6|lift R7].
    + unfold d_nmessage, e_nmessage. cbn [n_schain n_saddr n_dchain n_daddr n_hash n_txid n_index].
      unfold struct_open. match goal with |- (if ?b then _ else _) = _ => change b with true end. cbn iota.
      do 5 (erewrite fld_ok; [|reflexivity|eassumption]). rewrite H5. change (32 =? 32)%nat with true. cbn iota.
      erewrite fld_ok; [|reflexivity|eassumption]. destruct t; [done|]. cbn [is_empty].
      erewrite fld_ok; [|reflexivity|eassumption]. done.
  - intros v a H. unfold d_nmessage, struct_open in H. destruct v as [| | | | | |l]; try done. case_match; [|done].
    inv_fields H. destruct (Nat.eqb_spec (String.length a4) 32); [|done]. inv_fields H. destruct (is_empty a5) eqn:Et; [done|].
    inv_fields H. injection H as <-. unfold proper_nmessage. cbn [n_schain n_saddr n_dchain n_daddr n_hash n_txid n_index].
    split; [by eapply codec_chain|]. split; [by eapply codec_nonempty|]. split; [by eapply codec_chain|].
    split; [by eapply codec_nonempty|]. split; [done|]. split; [by intros ->|]. by eapply (codec_num U64 ltac:(reflexivity)).
Qed.
