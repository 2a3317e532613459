(** A poll opened at height 40 until 50, and a worker who hears of it late. *)
From Verif Require Import Base BaseLemmas Text TextLemmas StdModel RouterTypes RegistryTypes OperatorsModel EncodingModel VerifierModel VerifierSpec
  VerifierExamples EventsModel HandlersModel HandlersSpec WorkersSpec HandlersExamples MonitorModel MonitorSpec MonitorSpec2.

Definition mx_k : string -> string := fun x => x.
Definition mx_op : vop := VerifyMessages 40 ex_reg [hx_m1].
Definition mx_meta : poll_metadata :=
  {| pm_poll_id := 1; pm_chain := "eth"; pm_gateway := "0x" +:+ to_hex hx_gw; pm_confirmations := 5;
     pm_expires_at := 50; pm_participants := ["w1"; "w2"; "w3"] |}.
Definition mx_out : vout := OutVerify [(m_cc hx_m1, false)]
  (Some ([{| te_tx_id := "0x" +:+ to_hex hx_tx1; te_index := 1; te_daddr := "0xdest"; te_dchain := "avax";
             te_src := "0x" +:+ to_hex hx_src; te_hash := hx_hash |}], mx_meta)).
Definition mx_event : event :=
  messages_poll_event hx_json "verifier" [{| te_tx_id := "0x" +:+ to_hex hx_tx1; te_index := 1; te_daddr := "0xdest"; te_dchain := "avax";
    te_src := "0x" +:+ to_hex hx_src; te_hash := hx_hash |}] mx_meta.
(** the node lags behind by one block *)
Definition mx_line (h h' : N) : timeline := [(44, Tick (Some 43)); (h, Tick (Some h'))].

Lemma mx_step : exists s', verifier_step mx_k (vrun mx_k hx_vcfg []) mx_op = Ok (s', mx_out).
Proof.
  assert (H : match verifier_step mx_k (vrun mx_k hx_vcfg []) mx_op with Ok (_, o) => o = mx_out | _ => False end) by (vm_compute; reflexivity).
  destruct (verifier_step mx_k (vrun mx_k hx_vcfg []) mx_op) as [[s' o]| |]; [|done..]. exists s'. by rewrite H.
Qed.
Lemma mx_opens : opens hx_vcfg (mx_op, mx_out) 1 50 [ex_worker "w1"; ex_worker "w2"; ex_worker "w3"] (OnMessages [hx_m1]).
Proof.
  do 8 (split; [done|]). exists [hx_m1]. split; [done|]. split; [done|]. constructor; [vm_compute; reflexivity|constructor].
Qed.
Lemma mx_listed : listed (hx_cfg "w1") mx_event "wasm-messages_poll_started" 1 50.
Proof.
  split; [eexists; split; [reflexivity|vm_compute; reflexivity]|].
  split; [exists "1"; split; [eexists; split; [reflexivity|vm_compute; reflexivity]|vm_compute; reflexivity]|].
  split; [exists [JStr "w1"; JStr "w2"; JStr "w3"]; split; [eexists; split; [reflexivity|vm_compute; reflexivity]|set_solver]|].
  eexists; split; [reflexivity|vm_compute; reflexivity].
Qed.
Lemma mx_truthful h h' now : 44 <= h -> h' <= h -> h <= now -> truthful now (mx_line h h').
Proof.
  intros H1 H2 H3. split; [|split].
  - intros i j H t H' t' Hij Hi Hj. destruct i as [|[|i]]; destruct j as [|[|j]]; cbn in Hi, Hj; try done; try lia; simplify_eq; lia.
  - intros H t Hin. unfold mx_line in Hin. rewrite !elem_of_cons in Hin. destruct Hin as [[= -> _]|[[= -> _]|Hin]]; [lia|lia|by apply elem_of_nil in Hin].
  - intros H x Hin. unfold mx_line in Hin. rewrite !elem_of_cons in Hin. destruct Hin as [[= -> ->]|[[= -> ->]|Hin]]; [lia|lia|by apply elem_of_nil in Hin].
Qed.
(** at 51 the monitor shows 50 and the poll is left out; at 50 it shows 49 and
    a vote is sent, which comes too late *)
Lemma mx_handler :
  (monitor 43 [Tick (Some 50)]).1 = 50 /\
  passes hx_acc (fun _ => None) (hx_cfg "w1") (monitor 43 [Tick (Some 50)]).1 mx_event "wasm-messages_poll_started" /\
  evm_msg_handler hx_acc (hx_cfg "w1") (monitor 43 [Tick (Some 49)]).1 true hx_node mx_event =
    Ok (Some {| wt_sender := "w1"; wt_contract := "verifier"; wt_body := BodyVote 1 [SucceededOnChain] |}).
Proof.
  split; [done|]. split; [|vm_compute; reflexivity].
  apply (pass_evm_messages _ _ _ _ _ true hx_node); [vm_compute; reflexivity|].
  exists "eth". split; [eexists; split; [reflexivity|vm_compute; reflexivity]|vm_compute; reflexivity].
Qed.
