(** Proofs: what happened gets verified. *)
From Verif Require Import Base Text TextLemmas BaseLemmas MapLemmas StdModel StdSpec RouterTypes RegistryTypes
  OperatorsModel EncodingModel VerifierModel VerifierSpec VerifierProofs VerifierProofs2 LivenessSpec VerifierProofs5
  EventsModel HandlersModel HandlersSpec HandlersProofs HandlersProofs2 WorkersSpec WorkersProofs HandlersProofs3
  SameCallProofs ParticipantsSpec ParticipantsProofs HappenedSpec.

Lemma seen_place c confs rpc q gw t i e : honest_receipts rpc -> evm_seen c confs rpc q gw t i e -> evm_seen c confs rpc t gw t i e.
Proof.
  intros Hh (r & l & pre & post & Hr & Ht & Hs). pose proof (Hh _ _ Hr) as E. rewrite Ht in E. subst q.
  exists r, l, pre, post. done.
Qed.

(** What the handler votes about a call its node shows. *)
Lemma message_voted acc json contract chain es meta a height open rpc id ballot idx te m :
  json (pm_gateway meta) = None -> honest_receipts rpc -> set_order (er_order rpc) ->
  evm_msg_handler acc {| hc_worker := a; hc_contract := contract; hc_chain := chain |} height open rpc
    (messages_poll_event json contract es meta) =
    Ok (Some {| wt_sender := a; wt_contract := contract; wt_body := BodyVote id ballot |}) ->
  es !! idx = Some te -> tx_event_of m = Ok te ->
  evm_shows chain (pm_confirmations meta) rpc (pm_gateway meta) m ->
  ballot !! idx = Some SucceededOnChain.
Proof.
  intros Hj Hhon Hord H Hte Hm Hsh. apply evm_msg_votes in H as (poll & confs & gw & js & votes & Hp & _ & Hc & Hg & Hms & Htx & HF).
  injection Htx as <- <-. unfold messages_poll_event in *.
  destruct Hp as (_ & (x & Hx & Hxp) & _ & _). destruct Hg as (xg & Hg & Hgb).
  rewrite attr_abci in Hx, Hc, Hg, Hms.
  rewrite lookup_insert in Hms. rewrite lookup_insert_ne in Hx, Hc, Hg by done. injection Hms as <-.
  apply meta_attrs in Hx. destruct_or?; destruct_and?; try done.
  apply meta_attrs in Hc. destruct_or?; destruct_and?; try done.
  apply meta_attrs in Hg. destruct_or?; destruct_and?; try done. cbn [hc_chain] in HF.
  repeat match goal with
         | H : JStr _ = JStr _ |- _ => injection H as ->
         | H : JNum _ = JNum _ |- _ => injection H as ->
         end.
  match goal with H : JStr xg = attr_value _ _ |- _ => symmetry in H; apply (attr_json_str _ _ _ Hj) in H; subst xg end.
  rewrite Forall2_fmap_l in HF. destruct (Forall2_lookup_l _ _ _ _ _ HF Hte) as (v & Hv & Hvote). rewrite Hv. f_equal.
  destruct Hvote as (t & i & daddr & dchain & s & h & Hf & _ & _ & Hiff).
  apply message_json_fields in Hf as (Hf1 & -> & -> & -> & Hf5 & ->).
  apply Hiff; [done|done|]. destruct Hsh as (q & t' & i' & gw' & s' & dc & Hid & Hg' & Hs' & Hdc & Hseen).
  unfold tx_event_of in Hm. apply rbind_ok in Hm as ([tx n] & Hpid & Hm). injection Hm as <-.
  cbn [te_tx_id te_index te_daddr te_dchain te_src te_hash] in *.
  apply parse_id_spec in Hpid as (n' & Hpid & Hn').
  destruct (evm_id_fun _ t n t' i' (ltac:(exists tx, n'; done)) Hid) as [<- <-].
  rewrite (hex_bytes_inj _ _ _ _ Hgb Hg'), (hex_bytes_inj _ _ _ _ Hf5 Hs').
  exists dc. split; [done|]. by eapply seen_place.
Qed.

Lemma happened_verified k cfg ops1 h reg ms s' sts es meta workers ops2 idx m acc json contract chain gw (voters : list addr) :
  valid_vconfig cfg ->
  verifier_step k (vrun k cfg ops1) (VerifyMessages h reg ms) = Ok (s', OutVerify sts (Some (es, meta))) ->
  reg (vc_registry cfg) (vc_service cfg) (vc_chain cfg) = Some workers ->
  let asked := List.filter (wants_poll k (vrun k cfg ops1)) ms in
  asked !! idx = Some m ->
  (forall j m', asked !! j = Some m' -> message_key k m' = message_key k m -> (j <= idx)%nat) ->
  in_order ops2 ->
  plain_poll acc json {| hc_worker := ""; hc_contract := contract; hc_chain := chain |} meta ->
  hex_bytes 20 (vc_gateway cfg) gw -> Forall evm_form es -> lower (evm_chain_str chain) = vc_chain cfg ->
  NoDup voters ->
  (forall a, a ∈ voters -> a ∈ w_addr <$> workers /\
     does_its_part contract chain meta (messages_poll_event json contract es meta) (log (verifier_step k) s' ops2) (evm_msg_handler acc)
       (fun rpc => evm_shows chain (vc_confirmations cfg) rpc (vc_gateway cfg) m) a) ->
  N.of_nat (length workers) * t_num (vc_threshold cfg) <= N.of_nat (length voters) * t_den (vc_threshold cfg) ->
  message_status k (vrun k cfg (ops1 ++ VerifyMessages h reg ms :: ops2)) m = Ok Verified.
Proof.
  intros Hcfg Hstep Hreg asked Hidx Hlast Hord Hp Hg Hes Hch Hnd Hvot Hq.
  eapply c88_verifies; [done|exact Hstep|exact Hreg|exact Hidx|exact Hlast|done|].
  assert (Ho : pm_expires_at meta = h + vc_expiry cfg /\ pm_chain meta = vc_chain cfg /\ pm_gateway meta = vc_gateway cfg /\
    pm_confirmations meta = vc_confirmations cfg /\ (forall a, a ∈ pm_participants meta <-> a ∈ w_addr <$> workers) /\
    Forall2 (fun m ev => tx_event_of m = Ok ev) asked es).
  { pose proof (inv_run k cfg ops1) as Hinv. pose proof Hinv as [Hc _ _ _].
    pose proof Hstep as Hst. cbn in Hst.
    apply verify_messages_ok in Hst as (_ & _ & sts' & _ & [(_ & _ & [=])|(_ & Hopen)]).
    destruct Hopen as (workers' & snap & tbl & events & Hreg' & Hsn & _ & _ & Htbl & Hev & Hs' & Hout).
    injection Hout as -> -> Hmeta. rewrite Hc in *. rewrite Hreg in Hreg'. injection Hreg' as <-.
    rewrite Hmeta. cbn. split_and!; try done. eauto using worker_snapshot_addrs. }
  destruct Ho as (Hex & Hmc & Hmg & Hmf & Hpa & Hev).
  exists voters. split; [done|]. split; [|done]. intros a Ha. destruct (Hvot a Ha) as [Hw (height & rpc & f & Hht & Hfin & Hhon & Hor & Hsh & Hinc)].
  split; [done|]. destruct Hp as (Hp1 & Hp2 & Hp3 & Hp4 & Hp5 & Hp6 & Hp7 & Hp8 & Hp9).
  destruct (messages_handled acc {| hc_worker := a; hc_contract := contract; hc_chain := chain |} height true rpc json es meta gw f)
    as (votes & Hh & _); [done..|by rewrite Hmg|done|done|done|done|by rewrite Hmc|by apply Hpa|done|done|done|].
  destruct (Hinc _ Hh) as (h' & out & Hlt & Hin). exists h', votes, out. split; [done|]. split; [by rewrite <- Hex|].
  destruct (Forall2_lookup_l _ _ _ _ _ Hev Hidx) as (te & Hte & Hm).
  eapply (message_voted acc json contract chain es meta a height true rpc); [done|done|done|exact Hh|exact Hte|exact Hm|]. by rewrite Hmg, Hmf.
Qed.

(** Worker sets. *)
Lemma happened_verified_set k cfg ops1 h reg mid o s' tx n o' meta workers ops2 acc json contract chain gw t (voters : list addr) :
  valid_vconfig cfg ->
  verifier_step k (vrun k cfg ops1) (VerifyWorkerSet h reg mid o) = Ok (s', OutWorkerSet tx n o' meta) ->
  reg (vc_registry cfg) (vc_service cfg) (vc_chain cfg) = Some workers ->
  (forall h' reg' mid' o' out, (VerifyWorkerSet h' reg' mid' o', out) ∈ log (verifier_step k) s' ops2 ->
     operators_key k o' <> operators_key k o) ->
  plain_poll acc json {| hc_worker := ""; hc_contract := contract; hc_chain := chain |} meta ->
  hex_bytes 20 (vc_gateway cfg) gw -> evm_operators_form o -> hex_bytes 32 tx t -> n < 2 ^ 64 -> lower (evm_chain_str chain) = vc_chain cfg ->
  NoDup voters ->
  (forall a, a ∈ voters -> a ∈ w_addr <$> workers /\
     does_its_part contract chain meta (worker_set_poll_event json contract tx n o meta) (log (verifier_step k) s' ops2) (evm_ws_handler acc)
       (fun rpc => evm_shows_transfer chain (vc_confirmations cfg) rpc (vc_gateway cfg) mid o) a) ->
  N.of_nat (length workers) * t_num (vc_threshold cfg) <= N.of_nat (length voters) * t_den (vc_threshold cfg) ->
  worker_set_status k (vrun k cfg (ops1 ++ VerifyWorkerSet h reg mid o :: ops2)) o = Ok Verified.
Proof.
  intros Hcfg Hstep Hreg Hno Hp Hg Hop Ht Hn Hch Hnd Hvot Hq.
  eapply c88_verifies_set; [done|exact Hstep|exact Hreg|exact Hno|].
  assert (Ho : pm_expires_at meta = h + vc_expiry cfg /\ pm_chain meta = vc_chain cfg /\ pm_gateway meta = vc_gateway cfg /\
    pm_confirmations meta = vc_confirmations cfg /\ (forall a, a ∈ pm_participants meta <-> a ∈ w_addr <$> workers) /\
    parse_message_id mid = Ok (tx, n)).
  { pose proof (inv_run k cfg ops1) as Hinv. pose proof Hinv as [Hc _ _ _].
    pose proof Hstep as Hst. cbn in Hst.
    apply verify_worker_set_ok in Hst as (st & workers' & snap & tx' & ix & _ & _ & Hreg' & Hsn & Hpm & Hs' & Hout).
    injection Hout as -> -> -> Hmeta. rewrite Hc in *. rewrite Hreg in Hreg'. injection Hreg' as <-.
    rewrite Hmeta. cbn. split_and!; try done. eauto using worker_snapshot_addrs. }
  destruct Ho as (Hex & Hmc & Hmg & Hmf & Hpa & Hpid). apply parse_id_spec in Hpid as (n' & Hpid & Hn').
  exists voters. split; [done|]. split; [|done]. intros a Ha. destruct (Hvot a Ha) as [Hw (height & rpc & f & Hht & Hfin & Hhon & Hor & Hsh & Hinc)].
  split; [done|]. destruct Hsh as (q & t' & i' & gw' & Hid & Hg' & Hseen).
  destruct (evm_id_fun _ t n t' i' (ltac:(exists tx, n'; done)) Hid) as [<- <-].
  apply seen_place in Hseen; [|done]. pose proof Hseen as (r & l & pre & post & Hr & _).
  destruct (worker_set_handled acc {| hc_worker := a; hc_contract := contract; hc_chain := chain |} height rpc json tx t n o meta gw f (Some r))
    as (v & Hh); [done|by rewrite Hmg|done|done|done|by rewrite Hmc|by apply Hpa|done|done|done|].
  cbn [hc_worker hc_contract] in Hh. destruct (Hinc _ Hh) as (h' & out & Hlt & Hin).
  exists h', [v], out. split; [done|]. split; [by rewrite <- Hex|]. cbn. f_equal.
  assert (Forall (fun p => p.2 < U256) (o_weights o) /\ o_threshold o < U256) as [Hw1 Hw2].
  { destruct Hop as [H1 H2]. split; [|done]. eapply Forall_impl; [exact H1|]. by intros p []. }
  destruct Hp as (Hp1 & Hp2 & Hp3 & Hp4 & Hp5 & _).
  apply worker_set_poll_vote in Hh as (_ & v' & [= ->] & Hiff); [|done..].
  apply Hiff. exists t, gw'. split; [done|]. rewrite Hmg, Hmf. done.
Qed.
