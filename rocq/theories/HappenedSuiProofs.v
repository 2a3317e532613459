(** Proofs: what happened on a Sui chain gets verified. *)
From Verif Require Import Base Text TextLemmas BaseLemmas MapLemmas StdModel StdSpec RouterTypes RegistryTypes
  OperatorsModel EncodingModel VerifierModel VerifierSpec VerifierProofs VerifierProofs2 LivenessSpec VerifierProofs5
  EventsModel HandlersModel HandlersSpec HandlersProofs HandlersProofs2 WorkersSpec WorkersProofs HandlersProofs3
  SameCallProofs ParticipantsSpec ParticipantsProofs SuiWorkersSpec SuiWorkersProofs HappenedSuiSpec.

Lemma sui_id_fun b58 id t i t' i' : sui_id b58 id t i -> sui_id b58 id t' i' -> t = t' /\ i = i'.
Proof.
  intros (x & n & -> & Hx & Hn) (x' & n' & E & Hx' & Hn').
  apply last_sep in E as [<- <-]; [|by eapply parse_u64_sep..]. split; congruence.
Qed.

Lemma sui_message_decodes_tx b58 e : sui_form b58 e ->
  exists m, de_message (de_digest b58) (de_fixed 32) (message_json e) = Some m /\ b58 (te_tx_id e) = Some (xm_tx m).
Proof.
  intros ([t Ht] & Hi & Hc & (s & Hs) & Hh). unfold de_message, message_json.
  unfold de_field. cbn -[de_fixed de_chain de_u64 to_hex fixed_hex de_digest].
  assert (de_digest b58 (JStr (te_tx_id e)) = Some t) as -> by exact Ht.
  assert (de_fixed 32 (JStr (te_src e)) = Some s) as -> by by apply hex_bytes_fixed.
  rewrite fixed_to_hex by done.
  assert (de_chain (JStr (te_dchain e)) = Some (te_dchain e)) as -> by exact Hc.
  rewrite u64_ok by done. eexists. split; [reflexivity|]. done.
Qed.
(** As [sui_messages_handled], asking less of the node. *)
Lemma sui_messages_answered acc b58 cfg height rpc json es meta gw :
  plain_poll acc json cfg meta -> hex_bytes 32 (pm_gateway meta) gw -> Forall (sui_form b58) es ->
  hc_worker cfg ∈ pm_participants meta -> height < pm_expires_at meta ->
  set_order (sr_order rpc) -> answers_poll b58 rpc es ->
  exists votes,
    sui_msg_handler acc b58 cfg height true rpc (messages_poll_event json (hc_contract cfg) es meta) =
    Ok (Some {| wt_sender := hc_worker cfg; wt_contract := hc_contract cfg;
                wt_body := BodyVote (pm_poll_id meta) votes |}) /\ length votes = length es.
Proof.
  intros Hp Hg Hes Hin Hht Hord Hr.
  assert (Hms : exists ms, de_vec (de_message (de_digest b58) (de_fixed 32)) (JArr (message_json <$> es)) = Some ms /\ length ms = length es /\
    forall t, t ∈ xm_tx <$> ms -> exists e, e ∈ es /\ b58 (te_tx_id e) = Some t).
  { clear -Hes. induction Hes as [|e es He _ IH].
    { exists []. split; [done|]. split; [done|]. intros t Ht. by apply elem_of_nil in Ht. }
    destruct IH as (ms & IH & Hl & Ht). destruct (sui_message_decodes_tx _ e He) as (m & Hm & Hx).
    exists (m :: ms). cbn [de_vec] in *. cbn. cbn in IH. rewrite Hm, IH. split; [done|]. split; [by rewrite Hl|].
    intros t [->|H]%elem_of_cons.
    - exists e. split; [apply elem_of_list_here|done].
    - destruct (Ht t H) as (e' & He' & Hb). exists e'. split; [by apply elem_of_list_further|done]. }
  destruct Hms as (ms & Hms & Hl & Ht).
  unfold sui_msg_handler, typed, messages_poll_event. rewrite String.eqb_refl. unfold de_sui_messages.
  rewrite (sui_poll_decodes _ _ _ _ gw "messages" _ _ ms); [|done|done|auto|exact Hms].
  match goal with |- context [sui_relevant cfg height ?p] => assert (sui_relevant cfg height p = true) as -> end.
  { apply sui_relevant_spec. cbn. done. }
  cbn [sp_item sp_poll]. unfold sui_finalized_blocks.
  destruct (Hr (sr_order rpc (xm_tx <$> ms))) as [bs ->]. { intros t H. apply Ht. by apply (Hord (xm_tx <$> ms)). }
  cbn [of_option rbind]. unfold submit. eexists. split; [reflexivity|]. unfold sui_message_votes. by rewrite fmap_length.
Qed.

Lemma sui_message_voted acc b58 json contract chain es meta a height open rpc id ballot idx te m :
  json (pm_gateway meta) = None -> honest_blocks rpc -> set_order (sr_order rpc) ->
  sui_msg_handler acc b58 {| hc_worker := a; hc_contract := contract; hc_chain := chain |} height open rpc
    (messages_poll_event json contract es meta) =
    Ok (Some {| wt_sender := a; wt_contract := contract; wt_body := BodyVote id ballot |}) ->
  es !! idx = Some te -> tx_event_of m = Ok te -> sui_has b58 (pm_gateway meta) m rpc ->
  ballot !! idx = Some SucceededOnChain.
Proof.
  intros Hj Hhon Hord H Hte Hm Hsh. apply sui_msg_votes in H as (poll & gw & js & votes & ids & bs & Hp & Hg & Hms & Htx & Hbs & Hids & HF).
  injection Htx as <- <-. unfold messages_poll_event in *.
  destruct Hg as (xg & Hg & Hgb). rewrite attr_abci in Hg, Hms.
  rewrite lookup_insert in Hms. rewrite lookup_insert_ne in Hg by done. injection Hms as <-.
  apply meta_attrs in Hg. destruct_or?; destruct_and?; try done.
  match goal with H : JStr xg = attr_value _ _ |- _ => symmetry in H; apply (attr_json_str _ _ _ Hj) in H; subst xg end.
  destruct (Hids Hord) as [Hnd Hin]. pose proof (Hhon _ _ Hbs) as Hdig.
  rewrite Forall2_fmap_l in HF. destruct (Forall2_lookup_l _ _ _ _ _ HF Hte) as (v & Hv & Hvote). rewrite Hv. f_equal.
  destruct Hvote as (t & i & daddr & dchain & s & h & Hf & _ & _ & Hiff). pose proof Hf as [(x & Fx & Hx) _ _ _ _ _].
  apply sui_message_json_fields in Hf as (Hf1 & -> & -> & -> & Hf5 & ->).
  apply Hiff; [by rewrite Hdig|]. destruct Hsh as (b & t' & i' & gw' & s' & dc & e & Hid & Hg' & Hs' & Hdc & [_ Hb] & Hseen & Hcall).
  unfold tx_event_of in Hm. apply rbind_ok in Hm as ([tx n] & Hpid & Hm). injection Hm as <-.
  cbn [te_tx_id te_index te_daddr te_dchain te_src te_hash] in *.
  apply parse_id_spec in Hpid as (n' & Hpid & Hn').
  destruct (sui_id_fun b58 _ t n t' i' (ltac:(exists tx, n'; done)) Hid) as [<- <-].
  rewrite (hex_bytes_inj _ _ _ _ Hgb Hg'), (hex_bytes_inj _ _ _ _ Hf5 Hs').
  assert (Ht : t ∈ sb_digest <$> bs).
  { rewrite Hdig. apply Hin. eexists _, x. split; [|done]. apply elem_of_list_fmap. eexists. split; [reflexivity|]. by eapply elem_of_list_lookup_2. }
  apply elem_of_list_fmap in Ht as (b' & Hb' & Hbin). pose proof Hseen as (Hbd & _).
  assert (b' = b) as -> by (eapply Hb; [exact Hbs|exact Hbin|congruence]).
  exists b, e, dc. done.
Qed.

Lemma happened_sui k cfg ops1 h reg ms s' sts es meta workers ops2 idx m acc b58 json contract chain gw (voters : list addr) :
  valid_vconfig cfg ->
  verifier_step k (vrun k cfg ops1) (VerifyMessages h reg ms) = Ok (s', OutVerify sts (Some (es, meta))) ->
  reg (vc_registry cfg) (vc_service cfg) (vc_chain cfg) = Some workers ->
  let asked := List.filter (wants_poll k (vrun k cfg ops1)) ms in
  asked !! idx = Some m ->
  (forall j m', asked !! j = Some m' -> message_key k m' = message_key k m -> (j <= idx)%nat) ->
  in_order ops2 ->
  plain_poll acc json {| hc_worker := ""; hc_contract := contract; hc_chain := chain |} meta ->
  hex_bytes 32 (vc_gateway cfg) gw -> Forall (sui_form b58) es ->
  NoDup voters ->
  (forall a, a ∈ voters -> a ∈ w_addr <$> workers /\
     does_its_part_sui contract chain meta (messages_poll_event json contract es meta) (log (verifier_step k) s' ops2) (sui_msg_handler acc b58)
       (fun rpc => answers_poll b58 rpc es /\ sui_has b58 (vc_gateway cfg) m rpc) a) ->
  N.of_nat (length workers) * t_num (vc_threshold cfg) <= N.of_nat (length voters) * t_den (vc_threshold cfg) ->
  message_status k (vrun k cfg (ops1 ++ VerifyMessages h reg ms :: ops2)) m = Ok Verified.
Proof.
  intros Hcfg Hstep Hreg asked Hidx Hlast Hord Hp Hg Hes Hnd Hvot Hq.
  eapply c88_verifies; [done|exact Hstep|exact Hreg|exact Hidx|exact Hlast|done|].
  assert (Ho : pm_expires_at meta = h + vc_expiry cfg /\ pm_gateway meta = vc_gateway cfg /\
    (forall a, a ∈ pm_participants meta <-> a ∈ w_addr <$> workers) /\
    Forall2 (fun m ev => tx_event_of m = Ok ev) asked es).
  { pose proof (inv_run k cfg ops1) as Hinv. pose proof Hinv as [Hc _ _ _].
    pose proof Hstep as Hst. cbn in Hst.
    apply verify_messages_ok in Hst as (_ & _ & sts' & _ & [(_ & _ & [=])|(_ & Hopen)]).
    destruct Hopen as (workers' & snap & tbl & events & Hreg' & Hsn & _ & _ & Htbl & Hev & Hs' & Hout).
    injection Hout as -> -> Hmeta. rewrite Hc in *. rewrite Hreg in Hreg'. injection Hreg' as <-.
    rewrite Hmeta. cbn. split_and!; try done. eauto using worker_snapshot_addrs. }
  destruct Ho as (Hex & Hmg & Hpa & Hev).
  exists voters. split; [done|]. split; [|done]. intros a Ha. destruct (Hvot a Ha) as [Hw (height & rpc & Hht & Hhon & Hor & (Hans & Hsh) & Hinc)].
  split; [done|].
  destruct (sui_messages_answered acc b58 {| hc_worker := a; hc_contract := contract; hc_chain := chain |} height rpc json es meta gw)
    as (votes & Hh & _); [done|by rewrite Hmg|done|by apply Hpa|done|done|done|].
  destruct (Hinc _ Hh) as (h' & out & Hlt & Hin). exists h', votes, out. split; [done|]. split; [by rewrite <- Hex|].
  destruct (Forall2_lookup_l _ _ _ _ _ Hev Hidx) as (te & Hte & Hm). destruct Hp as (Hp1 & Hp2 & Hp3 & Hp4 & Hp5 & _).
  eapply (sui_message_voted acc b58 json contract chain es meta a height true rpc); [done|done|done|exact Hh|exact Hte|exact Hm|]. by rewrite Hmg.
Qed.

Lemma happened_sui_set k cfg ops1 h reg mid o s' tx n o' meta workers ops2 acc b58 json contract chain gw t (voters : list addr) :
  valid_vconfig cfg ->
  verifier_step k (vrun k cfg ops1) (VerifyWorkerSet h reg mid o) = Ok (s', OutWorkerSet tx n o' meta) ->
  reg (vc_registry cfg) (vc_service cfg) (vc_chain cfg) = Some workers ->
  (forall h' reg' mid' o' out, (VerifyWorkerSet h' reg' mid' o', out) ∈ log (verifier_step k) s' ops2 ->
     operators_key k o' <> operators_key k o) ->
  plain_poll acc json {| hc_worker := ""; hc_contract := contract; hc_chain := chain |} meta ->
  hex_bytes 32 (vc_gateway cfg) gw -> sui_operators_form o -> b58 tx = Some t -> n < 2 ^ 64 ->
  NoDup voters ->
  (forall a, a ∈ voters -> a ∈ w_addr <$> workers /\
     does_its_part_sui contract chain meta (worker_set_poll_event json contract tx n o meta) (log (verifier_step k) s' ops2) (sui_ws_handler acc b58)
       (sui_has_transfer b58 (vc_gateway cfg) mid o) a) ->
  N.of_nat (length workers) * t_num (vc_threshold cfg) <= N.of_nat (length voters) * t_den (vc_threshold cfg) ->
  worker_set_status k (vrun k cfg (ops1 ++ VerifyWorkerSet h reg mid o :: ops2)) o = Ok Verified.
Proof.
  intros Hcfg Hstep Hreg Hno Hp Hg Hop Ht Hn Hnd Hvot Hq.
  eapply c88_verifies_set; [done|exact Hstep|exact Hreg|exact Hno|].
  assert (Ho : pm_expires_at meta = h + vc_expiry cfg /\ pm_gateway meta = vc_gateway cfg /\
    (forall a, a ∈ pm_participants meta <-> a ∈ w_addr <$> workers) /\ parse_message_id mid = Ok (tx, n)).
  { pose proof (inv_run k cfg ops1) as Hinv. pose proof Hinv as [Hc _ _ _].
    pose proof Hstep as Hst. cbn in Hst.
    apply verify_worker_set_ok in Hst as (st & workers' & snap & tx' & ix & _ & _ & Hreg' & Hsn & Hpm & Hs' & Hout).
    injection Hout as -> -> -> Hmeta. rewrite Hc in *. rewrite Hreg in Hreg'. injection Hreg' as <-.
    rewrite Hmeta. cbn. split_and!; try done. eauto using worker_snapshot_addrs. }
  destruct Ho as (Hex & Hmg & Hpa & Hpid). apply parse_id_spec in Hpid as (n' & Hpid & Hn').
  exists voters. split; [done|]. split; [|done]. intros a Ha. destruct (Hvot a Ha) as [Hw (height & rpc & Hht & Hhon & Hor & Hsh & Hinc)].
  split; [done|]. destruct Hsh as (b & t' & i' & gw' & e & d & Hid & Hg' & [Hb _] & Hseen & Htr & Hd).
  destruct (sui_id_fun b58 _ t n t' i' (ltac:(exists tx, n'; done)) Hid) as [<- <-].
  pose proof Hseen as (Hbd & _). rewrite Hbd in Hb.
  destruct (sui_worker_set_handled acc b58 {| hc_worker := a; hc_contract := contract; hc_chain := chain |} height rpc json tx t n o meta gw)
    as (v & Hh); [done|by rewrite Hmg|done|done|done|by apply Hpa|done|by rewrite Hb|].
  cbn [hc_worker hc_contract] in Hh. destruct (Hinc _ Hh) as (h' & out & Hlt & Hin).
  exists h', [v], out. split; [done|]. split; [by rewrite <- Hex|]. cbn. f_equal.
  assert (Forall (fun p => p.2 < U256) (o_weights o) /\ o_threshold o < U256) as [Hw1 Hw2].
  { destruct Hop as (H1 & H2 & _). change U256 with (2 ^ 256). split; [|lia]. eapply Forall_impl; [exact H1|]. intros p [_ H]. cbv beta in *. lia. }
  destruct Hp as (Hp1 & Hp2 & Hp3 & Hp4 & Hp5 & _).
  apply sui_ws_vote in Hh as (poll & gw0 & j & v' & _ & (xg & Hxg & Hgb) & Hm & Htx & HF).
  injection Htx as _ <-. unfold worker_set_poll_event in *. rewrite attr_abci in Hxg, Hm.
  rewrite lookup_insert in Hm. rewrite lookup_insert_ne in Hxg by done. injection Hm as <-.
  apply meta_attrs in Hxg. destruct_or?; destruct_and?; try done.
  match goal with H : JStr xg = attr_value _ _ |- _ => symmetry in H; apply (attr_json_str _ _ _ Hp5) in H; subst xg end.
  destruct HF as (t0 & i & ops & threshold & block & Hf & Hb0 & _ & Hv).
  apply sui_worker_set_json_fields in Hf as (Hf1 & -> & -> & ->); [|done..].
  rewrite Ht in Hf1. injection Hf1 as <-. rewrite Hb in Hb0. injection Hb0 as <-. rewrite Hmg in Hgb.
  apply Hv. exists e, d. by rewrite (hex_bytes_inj _ _ _ _ Hgb Hg').
Qed.
