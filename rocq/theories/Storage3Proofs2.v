(** The stored types, written and read back. *)
From Verif Require Import Base BaseLemmas MapLemmas StdProofs Text TextLemmas StdModel RouterTypes RegistryTypes OperatorsModel MultisigTypes.
From Verif Require Import EncodingModel VerifierModel RewardsModel RegistryModel RouterModel GatewayModel NexusModel MultisigModel ProverModel.
From Verif Require Import StorageModel StorageSpec StorageProofs2 Storage2Model Storage2Spec EventsModel JsonModel JsonSpec JsonProofs WireModel WireSpec WireProofs WireProofs2 WireProofs3.
From Verif Require Import Storage3Model Storage3Spec.

Definition fwd {A} (e : A -> jval) (d : jval -> option A) (P : A -> Prop) (n : nat) : Prop :=
  forall a, P a -> readable n (e a) /\ d (e a) = Some a.
Lemma fwd_list {A} (e : A -> jval) d P n : fwd e d P n -> fwd (e_list e) (d_vec d) (Forall P) (S n).
Proof.
  intros H1 l Hl. split.
  - constructor. apply Forall_fmap. eapply Forall_impl; [exact Hl|]. intros a Ha. by apply H1.
  - unfold e_list, d_vec. induction Hl as [|a l Ha Hl IH]; [done|]. cbn [fmap list_fmap d_all].
    destruct (H1 a Ha) as [_ ->]. cbn. rewrite IH. done.
Qed.
Lemma fwd_entries {A} (e : A -> jval) d (P : A -> Prop) n (l : list (string * A)) :
  fwd e d P n -> Forall (fun p => P p.2) l ->
  forall m : gmap string A, d_entries d ((fun p => (p.1, e p.2)) <$> l) m = Some (foldl (fun m p => <[p.1 := p.2]> m) m l).
Proof.
  intros H1. induction l as [|[k a] l IH]; intros Hl m; [done|].
  apply Forall_cons in Hl as [Ha Hl]. cbn [fmap list_fmap d_entries fst snd]. destruct (H1 a Ha) as [_ ->]. cbn [mbind option_bind foldl fst snd].
  by apply IH.
Qed.
Lemma fwd_map {A} (e : A -> jval) d (P : A -> Prop) n : fwd e d P n ->
  fwd (fun m => JObj ((fun p => (p.1, e p.2)) <$> btree_iter m)) (d_map d) (fun m => forall k a, m !! k = Some a -> P a) (S n).
Proof.
  intros Hc m Hm. assert (Forall (fun p => P p.2) (btree_iter m)) as HF.
  { apply Forall_forall. intros [k a] Hin. apply elem_of_btree_iter in Hin. by eapply Hm. }
  split.
  - constructor.
    + rewrite <- list_fmap_compose. cbn. apply btree_keys_nodup.
    + apply Forall_fmap. eapply Forall_impl; [exact HF|]. intros [k a] Ha. cbn. by apply Hc.
  - unfold d_map. rewrite (fwd_entries e d P n _ Hc HF). by rewrite foldl_btree.
Qed.
Lemma struct_open_ok {A} names (f : list (string * jval) -> option A) l :
  distinct (filter (fun k => existsb (String.eqb k) names = true) l.*1) = true -> struct_open names f (JObj l) = f l.
Proof. cbn [struct_open]. by intros ->. Qed.
Ltac open_fields :=
  rewrite struct_open_ok by reflexivity;
  repeat (first [erewrite fld_ok; [|reflexivity|eassumption]|erewrite fld_opt_ok; [|reflexivity|eassumption]]).
Ltac rd := first [apply readable_str | apply readable_null | (eapply readable_mono; [|eassumption]; lia)].
(** a value of a type written by [e], read by [d] *)
Ltac have H a Ha := let R := fresh "R" in let D := fresh "D" in destruct (H a Ha) as [R D].
Lemma str_ok a : d_str (JStr a) = Some a.
Proof. done. Qed.
Lemma num_ok b n : b <= 2 ^ 64 -> n < b -> readable 0 (JNum n) /\ d_num b (JNum n) = Some n.
Proof. intros Hb Hn. by apply (codec_num b Hb). Qed.
Lemma u64_ok n : n < 2 ^ 64 -> readable 0 (JNum n) /\ d_num U64 (JNum n) = Some n.
Proof. intros Hn. by apply num_ok. Qed.
Lemma uint_ok b n : n < b -> d_uint b (e_uint n) = Some n.
Proof. intros Hn. by apply (codec_uint b). Qed.
Lemma hex_ok b : d_hex (e_hex b) = Some b.
Proof. by apply codec_hex. Qed.

(** *** The router *)
Lemma fwd_rt_config : fwd e_rt_config d_rt_config (fun _ => True) 1.
Proof.
  intros [a g n] _. split; [unfold e_rt_config; obj; rd|].
  unfold e_rt_config, d_rt_config. cbn [rc_admin rc_governance rc_nexus].
  pose proof (str_ok a). pose proof (str_ok g). pose proof (str_ok n). to_fields. done.
Qed.
Lemma fwd_endpoint : fwd e_endpoint d_endpoint (fun e => proper_chain (ce_name e) /\ ce_frozen e < 4) 2.
Proof.
  intros [n g f] [Hn Hf]. cbn in Hn, Hf. destruct (proj1 codec_chain n Hn) as [_ D1].
  destruct (num_ok 256 f) as [R2 D2]; [lia|lia|].
  assert (d_gateway (JObj [("address", JStr g)]) = Some g) as D3.
  { unfold d_gateway. pose proof (str_ok g). to_fields. done. }
  split.
  - unfold e_endpoint. cbn [ce_name ce_gateway ce_frozen]. obj; [rd| |rd]. obj. rd.
  - unfold e_endpoint, d_endpoint. cbn [ce_name ce_gateway ce_frozen]. to_fields. done.
Qed.

(** *** The service registry *)
Lemma fwd_service : fwd e_service d_service proper_service 1.
Proof.
  intros [n c mn mx b dn ud ds] (H1 & H2 & H3 & H4). cbn in H1, H2, H3, H4.
  destruct (num_ok U16 mn) as [R1 D1]; [done..|]. destruct (num_ok U16 ud) as [R2 D2]; [done..|].
  pose proof (uint_ok U128 b H3) as D3. destruct (proj1 (codec_opt_num U16 ltac:(done)) mx H2) as [R4 D4].
  pose proof (str_ok n). pose proof (str_ok c). pose proof (str_ok dn). pose proof (str_ok ds). split.
  - unfold e_service. cbn [sv_name sv_contract sv_min_workers sv_max_workers sv_min_bond sv_denom sv_unbonding_days sv_description].
    obj; rd.
  - unfold e_service, d_service.
    cbn [sv_name sv_contract sv_min_workers sv_max_workers sv_min_bond sv_denom sv_unbonding_days sv_description].
    open_fields. done.
Qed.
Definition proper_bond (b : bonding_state) : Prop :=
  match b with
  | Bonded n | RequestedUnbonding n => n < 2 ^ 128
  | Unbonding n t => n < 2 ^ 128 /\ t < 2 ^ 64
  | Unbonded => True
  end.
Lemma fwd_bond : fwd e_bond d_bond proper_bond 2.
Proof.
  intros [n|n|n t|] Hb; cbn [proper_bond] in Hb; unfold e_bond, tagged.
  - pose proof (uint_ok U128 n Hb). split; [obj; obj; rd|].
    unfold d_bond. cbn [variant mbind option_bind fst snd is String.eqb Ascii.eqb Bool.eqb]. open_fields. done.
  - pose proof (uint_ok U128 n Hb). split; [obj; obj; rd|].
    unfold d_bond. cbn [variant mbind option_bind fst snd is String.eqb Ascii.eqb Bool.eqb]. open_fields. done.
  - destruct Hb as [Hn Ht]. pose proof (uint_ok U128 n Hn). pose proof (uint_ok U64 t Ht). split; [obj; obj; rd|].
    unfold d_bond. cbn [variant mbind option_bind fst snd is String.eqb Ascii.eqb Bool.eqb]. open_fields. done.
  - split; [rd|done].
Qed.
Lemma fwd_auth : fwd e_auth d_auth (fun _ => True) 0.
Proof. intros [] _; (split; [rd|done]). Qed.
Lemma fwd_worker : fwd e_worker d_worker (fun w => proper_bond (w_bond w)) 3.
Proof.
  intros [a b t s] Hb. cbn in Hb. have fwd_bond b Hb. have fwd_auth t I. pose proof (str_ok a). pose proof (str_ok s). split.
  - unfold e_worker. cbn [w_addr w_bond w_auth w_service]. obj; rd.
  - unfold e_worker, d_worker. cbn [w_addr w_bond w_auth w_service]. open_fields. done.
Qed.

(** *** The multisig contract *)
Definition proper_state (s : ms_state) : Prop := match s with MPending => True | MCompleted h => h < 2 ^ 64 end.
Lemma fwd_ms_state : fwd e_ms_state d_ms_state proper_state 2.
Proof.
  intros [|h] Hh; cbn [proper_state] in Hh; unfold e_ms_state, tagged; [split; [rd|done]|].
  destruct (u64_ok h Hh) as [R D]. split; [obj; obj; rd|].
  unfold d_ms_state. cbn [variant mbind option_bind fst snd is String.eqb Ascii.eqb Bool.eqb]. to_fields. done.
Qed.
Definition proper_session (s : session) : Prop := ss_id s < 2 ^ 64 /\ proper_state (ss_state s).
Lemma fwd_session : fwd e_session d_session proper_session 3.
Proof.
  intros [i w m s] [Hi Hs]. cbn in Hi, Hs. have fwd_ms_state s Hs. pose proof (uint_ok U64 i Hi). pose proof (str_ok w).
  pose proof (hex_ok m). split.
  - unfold e_session. cbn [ss_id ss_wsid ss_msg ss_state]. obj; rd.
  - unfold e_session, d_session. cbn [ss_id ss_wsid ss_msg ss_state]. to_fields. done.
Qed.
Lemma fwd_signature : fwd e_signature d_signature (fun _ => True) 1.
Proof.
  intros [b|b|b] _; unfold e_signature; (split; [obj; rd|]); unfold d_signature; cbn [variant mbind option_bind fst snd];
    rewrite hex_ok; reflexivity.
Qed.

(** *** The rewards contract *)
Definition proper_epoch (e : epoch) : Prop := e_num e < 2 ^ 64 /\ e_start e < 2 ^ 64.
Lemma fwd_epoch : fwd e_epoch d_epoch proper_epoch 1.
Proof.
  intros [n s] [Hn Hs]. cbn in Hn, Hs. destruct (u64_ok n Hn) as [R1 D1], (u64_ok s Hs) as [R2 D2]. split.
  - unfold e_epoch. cbn [e_num e_start]. obj; rd.
  - unfold e_epoch, d_epoch. cbn [e_num e_start]. to_fields. done.
Qed.
Definition proper_tally (t : tally) : Prop :=
  ty_count t < 2 ^ 64 /\ (forall a n, ty_part t !! a = Some n -> n < 2 ^ 64) /\ proper_epoch (ty_epoch t) /\ proper_params (ty_params t).
Lemma fwd_counts : fwd e_counts (d_map (d_num U64)) (fun m => forall k a, m !! k = Some a -> a < 2 ^ 64) 1.
Proof. refine (fwd_map JNum (d_num U64) (fun n => n < 2 ^ 64) 0 _). intros n Hn. by apply u64_ok. Qed.
Lemma fwd_tally : fwd e_tally d_tally proper_tally 3.
Proof.
  intros [c n m e p] (Hn & Hm & He & Hp). cbn in Hn, Hm, He, Hp. destruct (u64_ok n Hn) as [R1 D1].
  have fwd_counts m Hm. have fwd_epoch e He. destruct (proj1 codec_params p Hp) as [R3 D3]. pose proof (str_ok c). split.
  - unfold e_tally. cbn [ty_contract ty_count ty_part ty_epoch ty_params]. obj; rd.
  - unfold e_tally, d_tally. cbn [ty_contract ty_count ty_part ty_epoch ty_params]. to_fields. done.
Qed.

(** *** The voting verifier *)
Lemma vote_of_vote_name v : vote_of_name (vote_name v) = Some v.
Proof. by destruct v. Qed.
Definition proper_tallies (t : tallies) : Prop :=
  exists a b c, t = [(FailedOnChain, a); (NotFound, b); (SucceededOnChain, c)] /\ a < 2 ^ 256 /\ b < 2 ^ 256 /\ c < 2 ^ 256.
Lemma fwd_tallies : fwd e_tallies d_tallies proper_tallies 1.
Proof.
  intros t (a & b & c & -> & Ha & Hb & Hc). split; [unfold e_tallies; cbn [fmap list_fmap fst snd vote_name]; obj; rd|].
  unfold d_tallies, e_tallies. cbn [fmap list_fmap fst snd vote_name d_map d_entries].
  rewrite (uint_ok U256 a Ha), (uint_ok U256 b Hb), (uint_ok U256 c Hc). cbn [mbind option_bind].
  rewrite <- (btree_of_list [("FailedOnChain", a); ("NotFound", b); ("SucceededOnChain", c)]); [reflexivity|..].
  - repeat constructor; unfold by_key; reflexivity.
  - cbn [fmap list_fmap fst]. repeat (constructor; [set_solver|]). constructor.
  - intros k v. rewrite !lookup_insert_Some, lookup_empty. rewrite !elem_of_cons, elem_of_nil. split.
    + intros [[= -> ->]|[[= -> ->]|[[= -> ->]|[]]]].
      * right. split; [done|]. right. split; [done|]. by left.
      * right. split; [done|]. by left.
      * by left.
    + intros [[<- <-]|[H1 [[<- <-]|[H2 [[<- <-]|[_ [=]]]]]]]; auto.
Qed.
Lemma fwd_status : fwd e_status d_status (fun _ => True) 0.
Proof. intros [] _; (split; [rd|done]). Qed.
Lemma fwd_participation : fwd e_participation d_participation (fun p => pt_weight p < 2 ^ 256) 2.
Proof.
  intros [w v] Hw. cbn in Hw. pose proof (uint_ok U256 w Hw).
  assert (readable 1 (e_opt (e_list e_vote) v) /\ d_opt (d_vec d_vote) (e_opt (e_list e_vote) v) = Some v) as [R D].
  { destruct v as [l|]; [|split; [apply readable_null|done]]. destruct (proj1 codec_votes l I) as [R D]. split; [exact R|].
    cbn [e_opt]. unfold d_opt. rewrite D. unfold e_list. done. }
  split.
  - unfold e_participation. cbn [pt_weight pt_vote]. obj; rd.
  - unfold e_participation, d_participation. cbn [pt_weight pt_vote]. to_fields. done.
Qed.
Definition proper_poll (p : poll) : Prop :=
  poll_id p < 2 ^ 64 /\ poll_quorum p < 2 ^ 256 /\ poll_expires_at p < 2 ^ 64 /\ poll_size p < 2 ^ 64 /\
  Forall proper_tallies (poll_tallies p) /\ forall a x, poll_participation p !! a = Some x -> pt_weight x < 2 ^ 256.
Lemma fwd_poll : fwd e_poll d_poll proper_poll 4.
Proof.
  intros [i q x n t s m] (H1 & H2 & H3 & H4 & H5 & H6). cbn in H1, H2, H3, H4, H5, H6.
  pose proof (uint_ok U64 i H1). pose proof (uint_ok U256 q H2). destruct (u64_ok x H3) as [R3 D3], (u64_ok n H4) as [R4 D4].
  have (fwd_list _ _ _ _ fwd_tallies) t H5. have fwd_status s I. have (fwd_map _ _ _ _ fwd_participation) m H6. split.
  - unfold e_poll. cbn [poll_id poll_quorum poll_expires_at poll_size poll_tallies poll_status_ poll_participation]. obj; rd.
  - unfold e_poll, d_poll. cbn [poll_id poll_quorum poll_expires_at poll_size poll_tallies poll_status_ poll_participation].
    to_fields. done.
Qed.
Lemma fwd_vpoll : fwd e_vpoll d_vpoll (fun v => proper_poll (vpoll_poll v)) 5.
Proof.
  intros [p|p] Hp; cbn [vpoll_poll] in Hp; destruct (fwd_poll p Hp) as [R D]; unfold e_vpoll, d_vpoll; (split; [obj; rd|]);
    cbn [variant mbind option_bind fst snd is String.eqb Ascii.eqb Bool.eqb]; rewrite D; done.
Qed.
Definition proper_content {T} (P : T -> Prop) (c : poll_content T) : Prop :=
  P (c_content c) /\ c_poll c < 2 ^ 64 /\ c_index c < 2 ^ 32.
Lemma fwd_content {T} (e : T -> jval) d P n : fwd e d P n -> fwd (e_content e) (d_content d) (proper_content P) (S n).
Proof.
  intros Hf [c i x] (Hc & Hi & Hx). cbn in Hc, Hi, Hx. have Hf c Hc. pose proof (uint_ok U64 i Hi).
  destruct (num_ok (2 ^ 32) x) as [R2 D2]; [done..|]. split.
  - unfold e_content. cbn [c_content c_poll c_index]. obj; rd.
  - unfold e_content, d_content. cbn [c_content c_poll c_index]. to_fields. done.
Qed.
Lemma fwd_majority : fwd e_threshold d_majority proper_majority 1.
Proof.
  intros t [Ht Hm]. destruct (proj1 codec_threshold t Ht) as [R D]. split; [done|]. unfold d_majority. rewrite D. cbn [mbind option_bind].
  unfold majority_try_from. destruct (N.leb_spec (t_num t) (t_den t / 2)); [lia|done].
Qed.
Lemma fwd_vconfig : fwd e_vconfig d_vconfig proper_vconfig 2.
Proof.
  intros [r s g t x h c w] (Hs & Hg & Ht & Hx & Hh & Hc). cbn in Hs, Hg, Ht, Hx, Hh, Hc.
  destruct (proj1 codec_nonempty s Hs) as [_ D1], (proj1 codec_nonempty g Hg) as [_ D2], (proj1 codec_chain c Hc) as [_ D3].
  have fwd_majority t Ht. destruct (u64_ok x Hx) as [R4 D4], (u64_ok h Hh) as [R5 D5]. pose proof (str_ok r). pose proof (str_ok w). split.
  - unfold e_vconfig. cbn [vc_registry vc_service vc_gateway vc_threshold vc_expiry vc_confirmations vc_chain vc_rewards]. obj; rd.
  - unfold e_vconfig, d_vconfig. cbn [vc_registry vc_service vc_gateway vc_threshold vc_expiry vc_confirmations vc_chain vc_rewards].
    to_fields. done.
Qed.

(** *** The prover *)
Lemma fwd_encoder : fwd e_encoder d_encoder (fun _ => True) 0.
Proof. intros [] _; (split; [rd|done]). Qed.
Lemma fwd_key_type : fwd e_key_type d_key_type (fun _ => True) 0.
Proof. intros [] _; (split; [rd|done]). Qed.
Lemma fwd_command_type : fwd e_command_type d_command_type (fun _ => True) 0.
Proof. intros [] _; (split; [rd|done]). Qed.
Lemma fwd_command : fwd e_command d_command (fun _ => True) 1.
Proof.
  intros [i t p] _. have fwd_command_type t I. pose proof (hex_ok i). pose proof (hex_ok p). split.
  - unfold e_command. cbn [c_id c_ty c_params]. obj; rd.
  - unfold e_command, d_command. cbn [c_id c_ty c_params]. to_fields. done.
Qed.
Lemma fwd_data : fwd e_data d_data (fun d => EncodingModel.d_chain d < 2 ^ 256) 3.
Proof.
  intros [c l] Hc. cbn [EncodingModel.d_chain] in Hc. pose proof (uint_ok U256 c Hc).
  assert (Forall (fun _ : command => True) l) as Hl by (by apply Forall_forall).
  have (fwd_list _ _ _ _ fwd_command) l Hl. split.
  - unfold e_data. cbn [EncodingModel.d_chain d_commands]. obj; rd.
  - unfold e_data, d_data. cbn [EncodingModel.d_chain d_commands]. to_fields. done.
Qed.
Definition proper_batch (b : batch) : Prop := Forall proper_id (b_ids b) /\ EncodingModel.d_chain (b_data b) < 2 ^ 256.
Lemma fwd_batch : fwd e_batch d_batch proper_batch 4.
Proof.
  intros [i l d e] [Hl Hd]. cbn [b_ids b_data] in Hl, Hd. destruct (proj1 codec_ids l Hl) as [R1 D1]. have fwd_data d Hd. have fwd_encoder e I.
  pose proof (hex_ok i). split.
  - unfold e_batch. cbn [b_id b_ids b_data b_encoder]. obj; rd.
  - unfold e_batch, d_batch. cbn [b_id b_ids b_data b_encoder]. to_fields. done.
Qed.
Lemma fwd_pconfig admin : fwd (e_pconfig admin) d_pconfig proper_pconfig 2.
Proof.
  intros [g m r v i t s c n e k] (Hi & Ht & Hc & Hn). cbn [pc_chain_id pc_threshold pc_chain pc_diff] in Hi, Ht, Hc, Hn.
  pose proof (uint_ok U256 i Hi). have fwd_majority t Ht. destruct (proj1 codec_chain c Hc) as [_ D1].
  destruct (num_ok (2 ^ 32) n) as [R2 D2]; [done..|]. have fwd_encoder e I. have fwd_key_type k I.
  pose proof (str_ok admin). pose proof (str_ok g). pose proof (str_ok m). pose proof (str_ok r). pose proof (str_ok v).
  pose proof (str_ok s). split.
  - unfold e_pconfig.
    cbn [pc_gateway pc_multisig pc_registry pc_verifier pc_chain_id pc_threshold pc_service pc_chain pc_diff pc_encoder pc_key_type].
    obj; rd.
  - unfold e_pconfig, d_pconfig.
    cbn [pc_gateway pc_multisig pc_registry pc_verifier pc_chain_id pc_threshold pc_service pc_chain pc_diff pc_encoder pc_key_type].
    to_fields. done.
Qed.

(** ** All values *)
Lemma fwd_text {A} (e : A -> jval) d (P : A -> Prop) n a :
  fwd e d P n -> (n <= 127)%nat -> P a -> (j ← of_wire (to_json (e a)); d j) = Some a.
Proof.
  intros Hf Hn Ha. destruct (Hf a Ha) as [R D]. rewrite of_wire_to_json by (by eapply readable_mono). exact D.
Qed.
