From Verif Require Import Base BaseLemmas Text TextLemmas StdModel StdSpec RouterTypes RegistryTypes OperatorsModel EncodingModel MultisigTypes
  VerifierModel VerifierSpec EventsModel HandlersModel HandlersSpec HandlersProofs HandlersProofs2 HandlersProofs3 WorkersSpec
  SubscriptionModel SubscriptionSpec SubscriptionProofs2 SubscriptionProofs3 SubscriptionProofs4 QueueModel QueueSpec
  SystemModel DaemonModel DaemonSpec DaemonProofs.

Section Runs.
  Context (is_account : string -> bool) (base58 : string -> option string) (de_key : jval -> option string).
  Context (worker : addr).
  Context (decode : string -> option string) (json : string -> option jval).
  Context {B : Type} (estimate : B -> list wasm_tx -> B * option N) (broadcast : B -> list wasm_tx -> B * bool).
  Context (limit : N).
  Notation handle := (handle is_account base58 de_key worker).
  Notation session_of := (session_of (B:=B) is_account base58 de_key worker).
  Notation drun1 := (run_daemon is_account base58 de_key worker decode json estimate broadcast limit).
  Notation druns := (run_daemons is_account base58 de_key worker decode json estimate broadcast limit).
  Notation orderly := (orderly (B:=B) decode json is_account base58 de_key worker).
  Notation served_in := (served_in (B:=B) decode json is_account base58 de_key worker).

  Lemma unconfigured s x r l : drun1 s x = Ok r -> l ∉ label <$> (rn_handlers x).*1 -> lb_heights r !! l = s !! l.
  Proof.
    intros H Hl. apply run_daemon_inv in H as [Hs _]. eapply run_not_configured; [exact Hs|].
    by rewrite labels_of.
  Qed.

  Lemma runs_serve s xs s' log l r :
    druns s xs = (s', log) -> s !! l = Some r -> Forall (orderly l) log ->
    exists r', s' !! l = Some r' /\ forall k, r < k -> k <= r' -> Exists (served_in l k) log.
  Proof.
    revert s s' log r. induction xs as [|x xs IH]; intros s s' log r H Hr Hf; cbn [run_daemons] in H.
    - injection H as <- <-. exists r. split; [done|]. intros. lia.
    - destruct (drun1 s x) as [y|e|] eqn:E; [|by eapply IH..].
      destruct (druns (lb_heights y) xs) as [s1 l1] eqn:E1. injection H as <- <-.
      apply Forall_cons in Hf as [[Hl|(c & t & <- & Hfair & Hch & Hq)] Hf].
      + destruct (IH _ _ _ r E1) as (r' & Hr' & Hk); [by rewrite (unconfigured _ _ _ _ E Hl)|done|].
        exists r'. split; [done|]. intros k ? ?. right. by apply Hk.
      + destruct (run_served is_account base58 de_key worker decode json estimate broadcast limit _ _ _ _ _ _ E Hfair Hr Hch Hq) as (r1 & Hr1 & Hk1).
        destruct (IH _ _ _ r1 E1 Hr1 Hf) as (r' & Hr' & Hk).
        exists r'. split; [done|]. intros k Hgt Hle. destruct (decide (k <= r1)) as [Hle1|Hgt1].
        * left. destruct (Hk1 k Hgt Hle1) as (o & evs & Ho & Ha & Hb). exists c, t, o, evs.
          split; [done|]. split; [by destruct Hfair as (_ & _ & Hin & _)|]. done.
        * right. apply Hk; lia.
  Qed.

  (** the same runs, as sessions *)
  Lemma runs_sessions s xs s' log :
    druns s xs = (s', log) ->
    run_sessions s (session_of <$> xs) = (s', (fun y : heights * drun B * left_behind => (y.1.1, session_of y.1.2, lb_outcomes y.2)) <$> log).
  Proof.
    revert s s' log. induction xs as [|x xs IH]; intros s s' log H; cbn [run_daemons fmap list_fmap run_sessions] in *.
    - by injection H as <- <-.
    - assert (Hs : match drun1 s x with
        | Ok y => run_session s (session_of x) = Ok (lb_heights y, lb_outcomes y)
        | _ => is_ok (run_session s (session_of x)) = false end).
      { destruct (drun1 s x) as [y|e|] eqn:E; [by apply run_daemon_inv in E as [-> _]|..];
          unfold run_daemon in E; unfold run_session in *;
          (destruct (start_from s); cbn [rbind] in *; [|done..]);
          (destruct (run_handlers s _); cbn [rbind] in *; [|done..]);
          by destruct (qrun _ _ _ _ _) as [[? ?] ?]. }
      destruct (drun1 s x) as [y|e|] eqn:E.
      + rewrite Hs. destruct (druns (lb_heights y) xs) as [s1 l1] eqn:E1. injection H as <- <-.
        by rewrite (IH _ _ _ E1).
      + destruct (run_session s (session_of x)); [done|by apply IH..].
      + destruct (run_session s (session_of x)); [done|by apply IH..].
  Qed.
End Runs.

(** ** Votes *)
Lemma queue_needed acc cfg height rpc ev tx open :
  evm_msg_handler acc cfg height true rpc ev = Ok (Some tx) ->
  is_ok (evm_msg_handler acc cfg height open rpc ev) = true -> evm_msg_handler acc cfg height open rpc ev = Ok (Some tx).
Proof.
  destruct open; [done|]. unfold evm_msg_handler, typed. destruct ev as [| |ty at']; [done..|].
  destruct (String.eqb ty _); [|done]. destruct (de_evm_messages acc at') as [p|]; [|done].
  destruct (evm_relevant cfg height p); [|done].
  destruct (finalized_receipts _ _ _ _); [|done..]. done.
Qed.
Lemma finality_needed acc cfg height open rpc json es meta gw :
  acc (hc_contract cfg) = true -> Forall (fun a => acc a = true) (pm_participants meta) ->
  json (hc_contract cfg) = None -> json (pm_chain meta) = None -> json (pm_gateway meta) = None ->
  wf_chain (pm_chain meta) -> hex_bytes 20 (pm_gateway meta) gw ->
  pm_poll_id meta < 2 ^ 64 -> pm_confirmations meta < 2 ^ 64 -> pm_expires_at meta < 2 ^ 64 ->
  Forall evm_form es ->
  lower (evm_chain_str (hc_chain cfg)) = pm_chain meta -> hc_worker cfg ∈ pm_participants meta ->
  height < pm_expires_at meta ->
  is_ok (evm_msg_handler acc cfg height open rpc (messages_poll_event json (hc_contract cfg) es meta)) = true ->
  is_ok (finalized_height (hc_chain cfg) (pm_confirmations meta) rpc) = true.
Proof.
  intros Ha Hps Hj1 Hj2 Hj3 Hc Hg Hid Hcf Hex Hes Hch Hw Hht Hok.
  destruct (messages_decode acc json (hc_contract cfg) es meta gw) as (ms & HF & Hd); [done..|].
  unfold evm_msg_handler, typed, messages_poll_event in Hok. rewrite String.eqb_refl, Hd in Hok.
  match type of Hok with context [evm_relevant cfg height ?p] => assert (evm_relevant cfg height p = true) as Hrel end.
  { apply evm_relevant_spec. cbn. split; [done|]. split; [by rewrite Hch, <- Hch, !lower_idem|]. done. }
  rewrite Hrel in Hok. unfold finalized_receipts in Hok. cbn [ep_confirmations] in Hok.
  destruct (finalized_height _ _ _); done.
Qed.

Section Votes.
  Context (is_account : string -> bool) (base58 : string -> option string) (de_key : jval -> option string).
  Context (worker : addr).
  Context (decode : string -> option string) (json : string -> option jval).
  Context {B : Type} (estimate : B -> list wasm_tx -> B * option N) (broadcast : B -> list wasm_tx -> B * bool).
  Context (limit : N).
  Notation druns := (run_daemons is_account base58 de_key worker decode json estimate broadcast limit).
  Notation orderly := (orderly (B:=B) decode json is_account base58 de_key worker).

  (** all messages of a poll are decided by its contract; the handler of the
      chain is configured for it whenever it runs *)
  Lemma runs_vote s xs s' log contract name r k jsn es meta gw :
    let l := name +:+ "-msg-verifier" in
    druns s xs = (s', log) -> s !! l = Some r -> Forall (orderly l) log ->
    is_account contract = true -> Forall (fun a => is_account a = true) (pm_participants meta) ->
    jsn contract = None -> jsn (pm_chain meta) = None -> jsn (pm_gateway meta) = None ->
    wf_chain (pm_chain meta) -> hex_bytes 20 (pm_gateway meta) gw ->
    pm_poll_id meta < 2 ^ 64 -> pm_confirmations meta < 2 ^ 64 -> pm_expires_at meta < 2 ^ 64 ->
    Forall evm_form es -> lower name = pm_chain meta -> worker ∈ pm_participants meta ->
    (forall s0 x y evs, (s0, x, y) ∈ log -> answered decode json (rn_inputs x) k evs ->
       messages_poll_event jsn contract es meta ∈ evs) ->
    (forall s0 x y c t given, (s0, x, y) ∈ log -> (c, t) ∈ rn_handlers x -> label c = l ->
       c = EvmMsgVerifier contract name /\ (inside k given -> ce_height (te_calls t given) < pm_expires_at meta)) ->
    exists r', s' !! l = Some r' /\ (r < k -> k <= r' ->
      exists s0 x y votes, (s0, x, y) ∈ log /\ length votes = length es /\
        {| wt_sender := worker; wt_contract := contract; wt_body := BodyVote (pm_poll_id meta) votes |} ∈ delivered (lb_calls y)).
  Proof.
    intros l H Hr Hf Ha Hps Hj1 Hj2 Hj3 Hc Hg Hid Hcf Hex Hes Hch Hw Hev Hcfg.
    destruct (runs_serve is_account base58 de_key worker decode json estimate broadcast limit _ _ _ _ _ _ H Hr Hf) as (r' & Hr' & Hk).
    exists r'. split; [done|]. intros Hgt Hle. specialize (Hk k Hgt Hle).
    apply Exists_exists in Hk as ([[s0 x] y] & Hin & c & t & o & evs & Hl & Hct & Ho & Hans & pre & post & Hgiv & Hserve).
    pose proof (Hev _ _ _ _ Hin Hans) as Hm. apply elem_of_list_split in Hm as (p & q & Hpq).
    destruct (Hcfg _ _ _ _ _ (pre ++ BlockBegin k :: p) Hin Hct Hl) as [-> Hht].
    assert (inside k (pre ++ BlockBegin k :: p)) as Hins.
    { exists pre, p. split; [done|]. intros Hend. apply answered_abci in Hans. rewrite Hpq in Hans.
      rewrite Forall_forall in Hans. apply (end_not_abci k), Hans, elem_of_app. by left. }
    specialize (Hht Hins).
    destruct (Hserve (BlockBegin k :: p) (messages_poll_event jsn contract es meta) (q ++ [BlockEnd k])) as (o' & Hh & Htx).
    { unfold frame. cbn [fst snd]. rewrite Hpq. cbn [app]. by rewrite <- app_assoc. }
    set (v := te_calls t (pre ++ BlockBegin k :: p)) in *.
    cbn [DaemonModel.handle hconfig_of] in Hh.
    set (cfg := {| hc_worker := worker; hc_contract := contract; hc_chain := evm_chain_of name |}) in *.
    assert (is_ok (evm_msg_handler is_account cfg (ce_height v) (ce_open v) (ce_evm v) (messages_poll_event jsn contract es meta)) = true) as Hok
      by (by rewrite Hh).
    assert (lower (evm_chain_str (hc_chain cfg)) = pm_chain meta) as Hch' by (cbn; by rewrite chain_str).
    pose proof (finality_needed is_account cfg (ce_height v) (ce_open v) (ce_evm v) jsn es meta gw
      Ha Hps Hj1 Hj2 Hj3 Hc Hg Hid Hcf Hex Hes Hch' Hw Hht Hok) as Hfin.
    destruct (finalized_height (hc_chain cfg) (pm_confirmations meta) (ce_evm v)) as [h|e|] eqn:Efin; [|done..].
    destruct (messages_handled is_account cfg (ce_height v) true (ce_evm v) jsn es meta gw h) as (votes & Hv & Hlen); [done..|].
    pose proof (queue_needed _ _ _ _ _ _ (ce_open v) Hv Hok) as Hv'.
    change (hc_contract cfg) with contract in Hv'. rewrite Hh in Hv'. injection Hv' as ->.
    exists s0, x, y, votes. split; [done|]. split; [done|]. by apply Htx.
  Qed.
End Votes.
