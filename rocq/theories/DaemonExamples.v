(** Concrete runs of the daemon as a whole, a key daemon, and a worker that
    joins. *)
From Verif Require Import Base BaseLemmas Text TextLemmas StdModel StdSpec RouterTypes RegistryTypes OperatorsModel MultisigTypes
  RegistryModel RegistrySpec MultisigModel EncodingModel VerifierModel VerifierSpec EventsModel HandlersModel HandlersSpec HandlersProofs3 HandlersExamples
  SubscriptionModel SubscriptionSpec SubscriptionExamples QueueModel QueueSpec ProverModel ProverExamples SigningExamples MultisigExamples EncodingExamples
  SystemModel SystemSpec SystemExamples DaemonModel DaemonSpec DaemonProofs DaemonProofs2 DaemonProofs3 DaemonProofs4.

(** ** Blocks with one event *)

(** An event as a node sends it: [json] reads an attribute's key as its value. *)
Definition dx_json (ev : event) (s : string) : option jval := match ev with Abci _ m => m !! s | _ => None end.
Definition dx_raw (ev : event) : abci_event :=
  match ev with
  | Abci ty m => {| ae_type := ty; ae_attrs := (fun k => (k, k)) <$> (map_to_list m).*1 |}
  | _ => {| ae_type := ""; ae_attrs := [] |}
  end.
Lemma dx_reads ty m : event_of_abci sx_decode (dx_json (Abci ty m)) (ae_type (dx_raw (Abci ty m))) (ae_attrs (dx_raw (Abci ty m))) =
  Some (Abci ty m).
Proof.
  cbn [dx_raw ae_type ae_attrs]. unfold event_of_abci.
  assert (H : forall l, (forall k v, (k, v) ∈ l -> m !! k = Some v) ->
    kv_pairs sx_decode (dx_json (Abci ty m)) ((fun k => (k, k)) <$> l.*1) = Some l).
  { induction l as [|[k v] l IH]; intros Hl; [done|]. rewrite !fmap_cons. cbn [kv_pairs fst].
    rewrite IH by (intros k' v' Hin; apply Hl; by right).
    unfold kv_pair, sx_decode, attr_value, dx_json. cbn [fst snd]. rewrite (Hl k v) by left. done. }
  rewrite H by (intros k v Hin; by apply elem_of_map_to_list in Hin). cbn [fmap option_fmap option_map].
  f_equal. f_equal. rewrite <- (list_to_map_to_list m) at 2. apply list_to_map_proper; [|apply reverse_Permutation].
  rewrite (fmap_Permutation fst _ _ (reverse_Permutation _)). apply NoDup_fst_map_to_list.
Qed.

(** Block [k] has the event, the others have none. *)
Definition dx_tick (ev : event) (k latest : N) : tick :=
  {| tk_latest := Some latest;
     tk_block := fun h => Some {| br_begin := None; br_txs := Some [if h =? k then [dx_raw ev] else []]; br_end := None |};
     tk_cancelled := fun _ => false |}.
Definition dx_block (ev : event) (k h : N) : N * list event := (h, if h =? k then [ev] else []).

Lemma dx_frame ty m k latest h :
  block_frame sx_decode (dx_json (Abci ty m)) (dx_tick (Abci ty m) k latest) h = Ok (frame (dx_block (Abci ty m) k h)).
Proof.
  unfold block_frame, dx_tick, dx_block, block_events. cbn [tk_block of_option rbind br_begin br_txs br_end default from_option concat app].
  destruct (h =? k); [|done].
  change (concat (id [[dx_raw (Abci ty m)]]) ++ []) with [dx_raw (Abci ty m)]. cbn [opt_map]. rewrite dx_reads. done.
Qed.
Lemma dx_send pub evs : send_all (fun _ => true) pub evs = (pub ++ evs, Ok tt).
Proof. revert pub. induction evs as [|e evs IH]; intros pub; cbn; [by rewrite app_nil_r|]. rewrite IH, <- app_assoc. done. Qed.
Lemma dx_answered ty m k latest h evs :
  answered sx_decode (dx_json (Abci ty m)) [Tick (dx_tick (Abci ty m) k latest)] h evs -> evs = (dx_block (Abci ty m) k h).2.
Proof.
  intros (t & r & Hin & Hr & Hf). apply elem_of_list_singleton in Hin. injection Hin as ->. cbn in Hr. injection Hr as <-.
  unfold dx_block. cbn [snd]. revert Hf. cbn [br_begin br_txs br_end default concat app]. rewrite !app_nil_r.
  destruct (h =? k); intros Hf.
  - apply Forall2_cons_inv_l in Hf as (e & es & He & Hf & ->). apply Forall2_nil_inv_l in Hf as ->.
    rewrite dx_reads in He. by injection He as <-.
  - by apply Forall2_nil_inv_l in Hf as ->.
Qed.

Definition dx_config : list handler_config := [EvmMsgVerifier "verifier" "Eth"].
Definition dx_calls (height : N) (_ : list event) : call_env :=
  {| ce_height := height; ce_open := true; ce_evm := hx_node; ce_sui := hs_node; ce_sign := hm_sign |}.
Definition dx_task (height : N) (es : list event) : task_env :=
  {| te_items := Item <$> es; te_calls := dx_calls height; te_stop := fun _ => false |}.
(** The broadcaster works or not. *)
Definition dx_estimate (b : bool) (_ : list wasm_tx) : bool * option N := (b, Some 1).
Definition dx_broadcast (b : bool) (_ : list wasm_tx) : bool * bool := (b, b).
Definition dx_vote (w : addr) : wasm_tx :=
  {| wt_sender := w; wt_contract := "verifier"; wt_body := BodyVote 7 [SucceededOnChain; NotFound] |}.
Notation dx_daemon ev := (run_daemon hx_acc hs_b58 hm_key "w1" sx_decode (dx_json ev) dx_estimate dx_broadcast 10).
Notation dx_daemons ev := (run_daemons hx_acc hs_b58 hm_key "w1" sx_decode (dx_json ev) dx_estimate dx_broadcast 10).
Definition dx_run (ev : event) (k latest : N) (hs : list (handler_config * task_env)) (works : bool)
    (q : list (input wasm_tx)) (signal : bool) : drun bool :=
  {| rn_latest := None; rn_inputs := [Tick (dx_tick ev k latest)]; rn_receivers := fun _ => true; rn_handlers := hs;
     rn_broadcaster := works; rn_queue := q; rn_height := true; rn_first := TaskQueue; rn_signal := signal;
     rn_flush := true; rn_killed := false |}.

(** what is published when the heights [s] are on disk *)
Lemma dx_published ev k latest hs works q signal s a ty m :
  ev = Abci ty m -> min_height s = Some a -> a <= latest -> latest + 1 < HEIGHTS ->
  published sx_decode (dx_json ev) s (session_of hx_acc hs_b58 hm_key "w1" (dx_run ev k latest hs works q signal)) =
    Ok (frames (dx_block ev k <$> ((fun i => a + 1 + N.of_nat i) <$> seq 0 (N.to_nat (latest - a))))).
Proof.
  intros Hev Hs Hle Hm. unfold published, start_from. rewrite Hs. unfold increment.
  replace (a + 1 <? HEIGHTS) with true by (symmetry; apply N.ltb_lt; lia). cbn [rbind]. f_equal.
  unfold session_of, dx_run. cbn [se_receivers se_latest se_inputs rn_receivers rn_latest rn_inputs sub_run sub_loop].
  unfold process_blocks_from. cbn [tk_latest dx_tick].
  change {| tk_latest := Some latest;
            tk_block := fun h => Some {| br_begin := None; br_txs := Some [if h =? k then [dx_raw ev] else []]; br_end := None |};
            tk_cancelled := fun _ => false |} with (dx_tick ev k latest).
  assert (H : forall n c pub, c + N.of_nat n = latest + 1 ->
    process_blocks sx_decode (dx_json ev) (fun _ => true) n (dx_tick ev k latest) latest pub c =
      (pub ++ frames (dx_block ev k <$> ((fun i => c + N.of_nat i) <$> seq 0 n)), Ok latest)).
  { induction n as [|n IH]; intros c pub Hc; [cbn; by rewrite app_nil_r|]. cbn [process_blocks].
    replace (c <=? latest) with true by (symmetry; apply N.leb_le; lia).
    unfold process_block. rewrite Hev, dx_frame, dx_send, <- Hev. cbn [tk_cancelled dx_tick].
    unfold increment. replace (c + 1 <? HEIGHTS) with true by (symmetry; apply N.ltb_lt; lia).
    change {| tk_latest := Some latest;
            tk_block := fun h => Some {| br_begin := None; br_txs := Some [if h =? k then [dx_raw ev] else []]; br_end := None |};
            tk_cancelled := fun _ => false |} with (dx_tick ev k latest).
    rewrite IH by lia. rewrite <- app_assoc. do 2 f_equal.
    assert ((fun i => c + 1 + N.of_nat i) <$> seq 0 n = (fun i => c + N.of_nat i) <$> seq 1 n) as ->.
    { rewrite <- (fmap_S_seq 0 n), <- list_fmap_compose. apply list_fmap_ext. intros i x _. unfold compose. lia. }
    cbn [seq]. rewrite !fmap_cons. replace (c + N.of_nat 0) with c by lia. done. }
  replace (N.to_nat (latest + 1 - (a + 1))) with (N.to_nat (latest - a)) by lia. rewrite H by lia. cbn [fst app].
  unfold increment. by destruct (latest + 1 <? HEIGHTS).
Qed.

Definition dx_frames (ev : event) (k : N) (hs : list N) : list event := frames (dx_block ev k <$> hs).
Lemma dx_hx_poll : exists ty m, hx_poll = Abci ty m.
Proof. eexists _, _. reflexivity. Qed.
Definition dx_heights (l : string) (h : N) : gmap string N := {[ l := h ]}.
Lemma dx_min l h : min_height (dx_heights l h) = Some h.
Proof. unfold min_height. change (map_to_list (dx_heights l h)) with (map_to_list ({[ l := h ]} : gmap string N)). by rewrite map_to_list_singleton. Qed.

(** a run with one handler that reads everything *)
Lemma dx_fair ev k latest c t works q signal s a ty m :
  ev = Abci ty m -> min_height s = Some a -> a <= latest -> latest + 1 < HEIGHTS -> accepted [c] = true ->
  te_items t = Item <$> dx_frames ev k ((fun i => a + 1 + N.of_nat i) <$> seq 0 (N.to_nat (latest - a))) ->
  fair_daemon sx_decode (dx_json ev) hx_acc hs_b58 hm_key "w1" s (dx_run ev k latest [(c, t)] works q signal) c t.
Proof.
  intros Hev Hs Hle Hm Hc Ht. split; [done|]. split.
  { change (rn_handlers (dx_run ev k latest [(c, t)] works q signal)).*1 with [c].
    split; intros (? & ? & H1 & H2); apply elem_of_list_singleton in H1; apply elem_of_list_singleton in H2; congruence. }
  split; [left|]. eexists. split; [eapply dx_published; eauto|]. rewrite Ht. split; [apply delivers_all|]. intros r _. apply no_lag_all.
Qed.
Lemma one_interleaved {A} (l : list A) : interleaved [l] l.
Proof.
  induction l as [|x l IH]; [constructor; by repeat constructor|]. apply (interleaved_take [] x l [] l). exact IH.
Qed.

(** ** A vote that is delivered, and one that is lost *)
Definition dx_run1 (works signal : bool) : drun bool :=
  dx_run hx_poll 7 8 [(EvmMsgVerifier "verifier" "Eth", dx_task 49 (dx_frames hx_poll 7 [6; 7; 8]))] works
    [QMsg (dx_vote "w1"); QTick; QClose] signal.
Definition dx_run2 : drun bool :=
  dx_run hx_poll 7 9 [(EvmMsgVerifier "verifier" "Eth", dx_task 49 (dx_frames hx_poll 7 [9]))] true [QTick; QClose] true.

Definition dx_out (x : res sub_error left_behind) : left_behind :=
  match x with
  | Ok r => r
  | _ => {| lb_heights := ∅; lb_outcomes := []; lb_calls := []; lb_queue := Crashed; lb_exit := Panic |}
  end.
Lemma dx_out_ok x : is_ok x = true -> x = Ok (dx_out x).
Proof. by destruct x. Qed.

Lemma dx_run1_ok works signal : exists r,
  dx_daemon hx_poll (dx_heights "Eth-msg-verifier" 5) (dx_run1 works signal) = Ok r /\
  lb_heights r !! "Eth-msg-verifier" = Some 8 /\ min_height (lb_heights r) = Some 8 /\
  handed_over hx_acc hs_b58 hm_key "w1" (dx_run1 works signal) r = [[dx_vote "w1"]] /\
  delivered (lb_calls r) = (if works then [dx_vote "w1"] else []) /\
  lb_queue r = (if works then Finished else QueueModel.Stopped EBroadcast) /\
  lb_exit r = (if signal then Ok tt else if works then Ok tt else Err BroadcasterFailed).
Proof.
  exists (dx_out (dx_daemon hx_poll (dx_heights "Eth-msg-verifier" 5) (dx_run1 works signal))).
  split; [apply dx_out_ok; destruct works, signal; vm_compute; reflexivity|].
  split; [destruct works, signal; vm_compute; reflexivity|]. split; [destruct works, signal; vm_compute; reflexivity|].
  split; [destruct works, signal; vm_compute; reflexivity|]. split; [destruct works, signal; vm_compute; reflexivity|].
  split; destruct works, signal; vm_compute; reflexivity.
Qed.

Lemma dx_run2_ok signal r1 : dx_daemon hx_poll (dx_heights "Eth-msg-verifier" 5) (dx_run1 false signal) = Ok r1 -> exists r,
  dx_daemon hx_poll (lb_heights r1) dx_run2 = Ok r /\ lb_heights r !! "Eth-msg-verifier" = Some 9 /\
  handed_over hx_acc hs_b58 hm_key "w1" dx_run2 r = [[]] /\ delivered (lb_calls r) = [] /\ lb_queue r = Finished.
Proof.
  intros H. replace r1 with (dx_out (dx_daemon hx_poll (dx_heights "Eth-msg-verifier" 5) (dx_run1 false signal))) by (by rewrite H).
  clear H. eexists. split; [apply dx_out_ok; destruct signal; vm_compute; reflexivity|].
  split; [destruct signal; vm_compute; reflexivity|]. split; [destruct signal; vm_compute; reflexivity|].
  split; destruct signal; vm_compute; reflexivity.
Qed.
Lemma dx_fair1 works signal : fair_daemon sx_decode (dx_json hx_poll) hx_acc hs_b58 hm_key "w1" (dx_heights "Eth-msg-verifier" 5)
  (dx_run1 works signal) (EvmMsgVerifier "verifier" "Eth") (dx_task 49 (dx_frames hx_poll 7 [6; 7; 8])).
Proof.
  destruct dx_hx_poll as (ty & m & Hp). eapply dx_fair; [exact Hp|apply dx_min|lia|by vm_compute|by vm_compute|reflexivity].
Qed.
Lemma dx_keeps1 works signal r : dx_daemon hx_poll (dx_heights "Eth-msg-verifier" 5) (dx_run1 works signal) = Ok r ->
  channel_keeps hx_acc hs_b58 hm_key "w1" (dx_run1 works signal) r.
Proof.
  intros H. destruct (dx_run1_ok works signal) as (r' & H' & _ & _ & Hh & _). rewrite H in H'. injection H' as <-.
  unfold channel_keeps. rewrite Hh. apply one_interleaved.
Qed.

Lemma dx_lost (signal : bool) :
  exists (acc : string -> bool) (b58 : string -> option string) (de_key : jval -> option string) (worker : addr)
    (decode : string -> option string) (json : string -> option jval)
    (estimate : bool -> list wasm_tx -> bool * option N) (broadcast : bool -> list wasm_tx -> bool * bool) (limit : N)
    c t1 t2 s x1 r1 x2 r2 k tx h1 h2,
    (* the first run *)
    run_daemon acc b58 de_key worker decode json estimate broadcast limit s x1 = Ok r1 /\
    fair_daemon decode json acc b58 de_key worker s x1 c t1 /\ channel_keeps acc b58 de_key worker x1 r1 /\
    rn_handlers x1 = [(c, t1)] /\ rn_killed x1 = false /\ s !! label c = Some h1 /\ h1 < k /\
    (exists evs ev before, answered decode json (rn_inputs x1) k evs /\ ev ∈ evs /\
       handle acc b58 de_key worker c (te_calls t1 before) ev = Ok (Some tx)) /\
    handed_over acc b58 de_key worker x1 r1 = [[tx]] /\ delivered (lb_calls r1) = [] /\
    lb_exit r1 = (if signal then Ok tt else Err BroadcasterFailed) /\
    lb_heights r1 !! label c = Some h2 /\ k <= h2 /\
    (* the second *)
    run_daemon acc b58 de_key worker decode json estimate broadcast limit (lb_heights r1) x2 = Ok r2 /\
    fair_daemon decode json acc b58 de_key worker (lb_heights r1) x2 c t2 /\ lb_queue r2 = Finished /\ rn_handlers x2 = [(c, t2)] /\
    rn_killed x2 = false /\ handed_over acc b58 de_key worker x2 r2 = [[]] /\ lb_heights r2 !! label c = Some (h2 + 1).
Proof.
  destruct (dx_run1_ok false signal) as (r1 & H1 & Hh & Hmin & Hs & Hd & Hq & He).
  destruct (dx_run2_ok signal r1 H1) as (r2 & H2 & Hh2 & Hs2 & Hd2 & Hq2).
  exists hx_acc, hs_b58, hm_key, "w1", sx_decode, (dx_json hx_poll), dx_estimate, dx_broadcast, 10, (EvmMsgVerifier "verifier" "Eth"),
    (dx_task 49 (dx_frames hx_poll 7 [6; 7; 8])), (dx_task 49 (dx_frames hx_poll 7 [9])), (dx_heights "Eth-msg-verifier" 5),
    (dx_run1 false signal), r1, dx_run2, r2, 7, (dx_vote "w1"), 5, 8.
  split; [exact H1|]. split; [apply dx_fair1|]. split; [by apply dx_keeps1|]. split; [done|]. split; [done|].
  split; [done|]. split; [done|]. split.
  { exists [hx_poll], hx_poll, []. split; [|split; [left|vm_compute; reflexivity]].
    eexists _, _. split; [left|]. split; [reflexivity|]. cbn [br_begin br_txs br_end default concat app].
    destruct dx_hx_poll as (ty & m & ->). constructor; [apply dx_reads|constructor]. }
  split; [exact Hs|]. split; [exact Hd|]. split; [destruct signal; exact He|]. split; [exact Hh|]. split; [lia|].
  split; [exact H2|]. split.
  { destruct dx_hx_poll as (ty & m & Hp). eapply dx_fair; [exact Hp|exact Hmin|lia|by vm_compute|by vm_compute|reflexivity]. }
  split; [exact Hq2|]. split; [done|]. split; [done|]. split; [exact Hs2|]. exact Hh2.
Qed.

(** the same run with a working broadcaster is one of the theorems' *)
Lemma dx_delivered : exists r, dx_daemons hx_poll (dx_heights "Eth-msg-verifier" 5) [dx_run1 true false] =
    (lb_heights r, [(dx_heights "Eth-msg-verifier" 5, dx_run1 true false, r)]) /\
  orderly sx_decode (dx_json hx_poll) hx_acc hs_b58 hm_key "w1" "Eth-msg-verifier" (dx_heights "Eth-msg-verifier" 5, dx_run1 true false, r) /\
  lb_heights r !! "Eth-msg-verifier" = Some 8 /\ delivered (lb_calls r) = [dx_vote "w1"].
Proof.
  destruct (dx_run1_ok true false) as (r & H & Hh & _ & _ & Hd & Hq & _). exists r. split.
  { cbn [run_daemons]. by rewrite H. }
  split; [|done]. right. eexists _, _. split; [|split; [apply dx_fair1|]]; [reflexivity|]. split; [by apply dx_keeps1|done].
Qed.

(** ** Names *)
Definition dx_named_sui : list handler_config := [EvmMsgVerifier "verifier" "sui"; SuiMsgVerifier "sui verifier"].
(** the EVM handler fails at the end of its first block, the other goes on, and
    the height 8 is recorded under the common name *)
Definition dx_sui_vote : wasm_tx :=
  {| wt_sender := "w1"; wt_contract := "sui verifier"; wt_body := BodyVote 8 [SucceededOnChain] |}.
Definition dx_sui_run : drun bool :=
  dx_run hs_poll 7 8 ((fun c => (c, dx_task 49 (dx_frames hs_poll 7 [6; 7; 8]))) <$> dx_named_sui) true
    [QMsg dx_sui_vote; QClose] false.
Lemma dx_sui : exists r o1 o2,
  dx_daemon hs_poll (dx_heights "sui-msg-verifier" 5) dx_sui_run = Ok r /\
  lb_outcomes r = [("sui-msg-verifier", o1); ("sui-msg-verifier", o2)] /\ ho_given o1 = frame (6, []) /\ ho_end o1 = HandlerError /\
  delivered (lb_calls r) = [dx_sui_vote] /\ lb_heights r !! "sui-msg-verifier" = Some 8 /\ lb_exit r = Ok tt.
Proof.
  exists (dx_out (dx_daemon hs_poll (dx_heights "sui-msg-verifier" 5) dx_sui_run)).
  pose (os := lb_outcomes (dx_out (dx_daemon hs_poll (dx_heights "sui-msg-verifier" 5) dx_sui_run))).
  pose (d := {| ho_given := []; ho_heights := []; ho_end := StreamOver |} : SubscriptionModel.outcome).
  exists (default d (os.*2 !! 0%nat)), (default d (os.*2 !! 1%nat)).
  split; [apply dx_out_ok; vm_compute; reflexivity|]. split.
  { assert (os.*1 = ["sui-msg-verifier"; "sui-msg-verifier"]) as H by (vm_compute; reflexivity). fold os.
    destruct os as [|[l1 a1] [|[l2 a2] [|[] ?]]]; try discriminate H. cbn in H. by injection H as -> ->. }
  split; [vm_compute; reflexivity|]. split; [vm_compute; reflexivity|]. split; [vm_compute; reflexivity|].
  split; vm_compute; reflexivity.
Qed.
(** one chain written in two ways *)
Definition dx_twice : list handler_config := [EvmMsgVerifier "verifier" "Eth"; EvmMsgVerifier "verifier" "eth"].
Definition dx_twice_run : drun bool :=
  dx_run hx_poll 7 8 ((fun c => (c, dx_task 49 (dx_frames hx_poll 7 [6; 7; 8]))) <$> dx_twice) true
    [QMsg (dx_vote "w1"); QMsg (dx_vote "w1"); QClose] false.
Lemma dx_voted_twice : exists r, dx_daemon hx_poll (dx_heights "Eth-msg-verifier" 5) dx_twice_run = Ok r /\
  handed_over hx_acc hs_b58 hm_key "w1" dx_twice_run r = [[dx_vote "w1"]; [dx_vote "w1"]] /\
  delivered (lb_calls r) = [dx_vote "w1"; dx_vote "w1"].
Proof.
  exists (dx_out (dx_daemon hx_poll (dx_heights "Eth-msg-verifier" 5) dx_twice_run)).
  split; [apply dx_out_ok; vm_compute; reflexivity|]. split; vm_compute; reflexivity.
Qed.

(** ** Keys *)
Definition dx_seed (m : string) : string := repeat_char 27 (if String.eqb m "new" then "n" else "o").
Definition dx_pub (m uid : string) : string := uid +:+ dx_seed m.
Definition dx_sig (m uid d : string) : string := m +:+ uid +:+ d.
Definition dx_tofnd : tofnd :=
  {| tf_keygen := fun uid => Some (dx_pub "new" uid);
     tf_sign := fun uid d pk => if String.eqb pk (dx_pub "new" uid) then Some (dx_sig "new" uid d)
                                else if String.eqb pk (dx_pub "old" uid) then Some (dx_sig "old" uid d) else None |}.
Lemma dx_ids_apart : ids_apart dx_pub.
Proof.
  intros m m' u u' H. unfold dx_pub in H. apply tail_inj in H; [by destruct H|]. unfold dx_seed.
  by destruct (String.eqb m "new"), (String.eqb m' "new").
Qed.
Lemma dx_derived : derived_keys dx_pub dx_sig ["new"; "old"] dx_tofnd.
Proof.
  split; [done|]. intros uid d pk. cbn [tf_sign dx_tofnd].
  destruct (String.eqb_spec pk (dx_pub "new" uid)) as [->|H1]; [exists "new"; split; [left|done]|].
  destruct (String.eqb_spec pk (dx_pub "old" uid)) as [->|H2]; [exists "old"; split; [right; left|done]|].
  intros m Hm. apply elem_of_cons in Hm as [->|Hm]; [congruence|]. apply elem_of_list_singleton in Hm as ->. congruence.
Qed.

(** A worker set up with the default key id, asked to sign in block 7: two
    runs, and the height stays at 6. *)
Definition dx_sign_event : event := signing_event hx_json "multisig" 5 [("w1", JStr (dx_pub "new" "axelar")); ("w2", JStr "key2")] hx_hash.
Lemma dx_asks : asks_to_sign hm_key dx_sign_event "multisig" "w1" (dx_pub "new" "axelar").
Proof.
  split; [eexists; split; [reflexivity|vm_compute; reflexivity]|]. exists [("w1", JStr (dx_pub "new" "axelar")); ("w2", JStr "key2")], (JStr (dx_pub "new" "axelar")).
  split; [eexists; split; [reflexivity|vm_compute; reflexivity]|]. split; [by apply (bool_decide_unpack _); vm_compute|]. split; [left|done].
Qed.
Definition dx_signer (es : list event) : task_env :=
  {| te_items := Item <$> es;
     te_calls := fun _ => {| ce_height := 49; ce_open := true; ce_evm := hx_node; ce_sui := hs_node; ce_sign := tf_sign dx_tofnd |};
     te_stop := fun _ => false |}.
Definition dx_sign_run (latest : N) (blocks : list N) : drun bool :=
  dx_run dx_sign_event 7 latest [(MultisigSigner "multisig", dx_signer (dx_frames dx_sign_event 7 blocks))] true [QClose] true.
Definition dx_sign_runs : list (drun bool) := [dx_sign_run 9 [5; 6; 7; 8; 9]; dx_sign_run 10 [7; 8; 9; 10]].
Definition dx_signed : heights * list (heights * drun bool * left_behind) :=
  dx_daemons dx_sign_event (dx_heights "multisig-signer" 4) dx_sign_runs.
Lemma dx_stuck : length dx_signed.2 = 2%nat /\ dx_signed.1 !! "multisig-signer" = Some 6 /\
  forall s0 x y, (s0, x, y) ∈ dx_signed.2 ->
    (exists t, fair_daemon sx_decode (dx_json dx_sign_event) hx_acc hs_b58 hm_key "w1" s0 x (MultisigSigner "multisig") t /\
       forall given, ce_sign (te_calls t given) = tf_sign dx_tofnd) /\
    (forall evs, answered sx_decode (dx_json dx_sign_event) (rn_inputs x) 7 evs ->
       exists ev, ev ∈ evs /\ asks_to_sign hm_key ev "multisig" "w1" (dx_pub "new" "axelar")) /\
    delivered (lb_calls y) = [].
Proof.
  split; [vm_compute; reflexivity|]. split; [vm_compute; reflexivity|].
  pose (r1 := dx_out (dx_daemon dx_sign_event (dx_heights "multisig-signer" 4) (dx_sign_run 9 [5; 6; 7; 8; 9]))).
  pose (r2 := dx_out (dx_daemon dx_sign_event (lb_heights r1) (dx_sign_run 10 [7; 8; 9; 10]))).
  assert (H1 : dx_daemon dx_sign_event (dx_heights "multisig-signer" 4) (dx_sign_run 9 [5; 6; 7; 8; 9]) = Ok r1).
  { apply dx_out_ok. vm_compute. reflexivity. }
  assert (H2 : dx_daemon dx_sign_event (lb_heights r1) (dx_sign_run 10 [7; 8; 9; 10]) = Ok r2).
  { apply dx_out_ok. vm_compute. reflexivity. }
  assert (Hm : min_height (lb_heights r1) = Some 6) by (vm_compute; reflexivity).
  assert (Hl : dx_signed.2 = [(dx_heights "multisig-signer" 4 : heights, dx_sign_run 9 [5; 6; 7; 8; 9], r1);
                              (lb_heights r1, dx_sign_run 10 [7; 8; 9; 10], r2)]).
  { unfold dx_signed, dx_sign_runs. cbn [run_daemons]. rewrite H1, H2. done. }
  assert (Hd1 : delivered (lb_calls r1) = []) by (vm_compute; reflexivity).
  assert (Hd2 : delivered (lb_calls r2) = []) by (vm_compute; reflexivity).
  assert (Hev : exists ty m, dx_sign_event = Abci ty m) by (eexists _, _; reflexivity). destruct Hev as (ty & m & Hev).
  assert (Ha : forall latest evs, answered sx_decode (dx_json dx_sign_event) [Tick (dx_tick dx_sign_event 7 latest)] 7 evs ->
    exists ev, ev ∈ evs /\ asks_to_sign hm_key ev "multisig" "w1" (dx_pub "new" "axelar")).
  { intros latest evs H. rewrite Hev in H. apply dx_answered in H as ->. cbn [dx_block snd]. rewrite <- Hev.
    exists dx_sign_event. split; [left|apply dx_asks]. }
  clearbody r1 r2. rewrite Hl. clear Hl H1 H2. intros s0 x y Hin. apply elem_of_cons in Hin as [Hin|Hin].
  - injection Hin as -> -> ->. split; [|split; [apply (Ha 9)|done]].
    eexists. split; [eapply dx_fair; [exact Hev|apply dx_min|lia|by vm_compute|by vm_compute|reflexivity]|done].
  - apply elem_of_list_singleton in Hin. injection Hin as -> -> ->. split; [|split; [apply (Ha 10)|done]].
    eexists. split; [eapply dx_fair; [exact Hev|exact Hm|lia|by vm_compute|by vm_compute|reflexivity]|done].
Qed.

(** ** Joining *)
Definition dx_dave : string := repeat_char 33 "d".
Definition dx_account (key : string) : addr := if String.eqb key dx_dave then "dave" else "nobody".
Definition dx_cf : config := {| cf_key_uid := "multisig"; cf_registry := "registry"; cf_handlers := [EvmMsgVerifier "verifier" "Eth"; MultisigSigner "multisig"] |}.
Definition dx_dave_tofnd : tofnd := {| tf_keygen := fun _ => Some dx_dave; tf_sign := fun _ _ _ => None |}.
Definition registry_of (st : chain) : option srstate := match st !! "registry" with Some (CRegistry s) => Some s | _ => None end.
Definition dx_join_check (st : chain) : bool :=
  match registry_of st with
  | Some s => match sr_services s !! "validators", sr_workers s !! ("validators", "dave") with
              | Some sv, Some w => match w_auth w with Authorized => true | _ => false end &&
                  (owed (w_bond w) =? 0) && (sv_min_bond sv =? 100) && String.eqb (sv_denom sv) "uaxl"
              | _, _ => false
              end
  | None => false
  end.
Definition dx_multisig_check (st : chain) : bool := match st !! "multisig" with Some (CMultisig _) => true | _ => false end.
Lemma dx_join_checked st : dx_join_check st = true -> dx_multisig_check st = true ->
  exists s mst sv w, st !! "registry" = Some (CRegistry s) /\ st !! "multisig" = Some (CMultisig mst) /\
    sr_services s !! "validators" = Some sv /\ sr_workers s !! ("validators", "dave") = Some w /\
    w_auth w = Authorized /\ owed (w_bond w) = 0 /\ sv_min_bond sv = 100 /\ sv_denom sv = "uaxl".
Proof.
  intros H Hm. unfold dx_join_check, registry_of in H. unfold dx_multisig_check in Hm.
  destruct (st !! "registry") as [[| | | | |s| |]|]; try discriminate H.
  destruct (st !! "multisig") as [[| | | | | |mst|]|]; try discriminate Hm.
  destruct (sr_services s !! "validators") as [sv|] eqn:Es; [|discriminate H].
  destruct (sr_workers s !! ("validators", "dave")) as [w|] eqn:Ew; [|discriminate H].
  apply andb_prop in H as [H H4]. apply andb_prop in H as [H H3]. apply andb_prop in H as [H1 H2].
  exists s, mst, sv, w. split; [done|]. split; [done|]. split; [done|]. split; [done|].
  split; [by destruct (w_auth w)|]. split; [by apply N.eqb_eq|]. split; [by apply N.eqb_eq|]. by apply String.eqb_eq.
Qed.
Lemma dx_joins :
  worker_key None dx_dave_tofnd dx_cf = Ok dx_dave /\ String.length dx_dave = 33%nat /\
  sys_dep !! cf_registry dx_cf = Some (DRegistry "gov") /\ multisig_address dx_cf = Some "multisig" /\
  sys_dep !! "multisig" = Some (DMultisig "gov" "rewards" 10) /\ sys_dep !! dx_account dx_dave = None /\
  exists s mst sv w, sys_run sys_setup !! cf_registry dx_cf = Some (CRegistry s) /\ sys_run sys_setup !! "multisig" = Some (CMultisig mst) /\
    sr_services s !! "validators" = Some sv /\ sr_workers s !! ("validators", dx_account dx_dave) = Some w /\
    w_auth w = Authorized /\ owed (w_bond w) = 0 /\ sv_min_bond sv = 100 /\ sv_denom sv = "uaxl".
Proof.
  split; [reflexivity|]. split; [reflexivity|]. split; [vm_compute; reflexivity|]. split; [reflexivity|]. split; [vm_compute; reflexivity|].
  split; [vm_compute; reflexivity|]. change (cf_registry dx_cf) with "registry". change (dx_account dx_dave) with "dave".
  apply dx_join_checked; vm_compute; reflexivity.
Qed.
(** the default: tofnd/mod.rs:14-19 *)
Definition dx_default : config := {| cf_key_uid := "axelar"; cf_registry := "registry"; cf_handlers := [MultisigSigner "multisig"] |}.

Lemma dx_poll_hyps :
  (forall evs, answered sx_decode (dx_json hx_poll) (rn_inputs (dx_run1 true false)) 7 evs ->
     messages_poll_event hx_json "verifier" hx_events hx_meta ∈ evs) /\
  (forall c t given, (c, t) ∈ rn_handlers (dx_run1 true false) -> label c = "Eth-msg-verifier" ->
     c = EvmMsgVerifier "verifier" "Eth" /\ (inside 7 given -> ce_height (te_calls t given) < pm_expires_at hx_meta)) /\
  Forall evm_form hx_events /\ hex_bytes 20 (pm_gateway hx_meta) hx_gw /\ wf_chain (pm_chain hx_meta) /\
  lower "Eth" = pm_chain hx_meta.
Proof.
  split.
  { intros evs H. destruct dx_hx_poll as (ty & m & Hp). fold hx_poll.
    change (rn_inputs (dx_run1 true false)) with [Tick (dx_tick hx_poll 7 8)] in H. rewrite Hp in H |- *. apply dx_answered in H as ->. left. }
  split.
  { intros c t given H _. apply elem_of_list_singleton in H. injection H as -> ->. done. }
  assert (Hx : forall n b, String.length b = n -> hex_bytes n ("0x" +:+ to_hex b) b /\ hex_bytes n (to_hex b) b).
  { intros n b Hb. split; (split; [done|]); [right; exists (to_hex b); split; [done|]|left]; apply of_to_hex. }
  split.
  { repeat constructor; cbn [te_tx_id te_index te_dchain te_src te_hash]; try (by vm_compute).
    - exists hx_tx1. by apply Hx.
    - exists hx_src. by apply Hx.
    - exists hx_tx2. by apply Hx.
    - exists hx_src. by apply Hx. }
  split; [by apply Hx|]. split; [vm_compute; reflexivity|]. vm_compute. reflexivity.
Qed.
