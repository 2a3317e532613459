(** A call on a Sui chain that two of three workers see gets verified. *)
From Verif Require Import Base BaseLemmas Text TextLemmas StdModel StdSpec RouterTypes RegistryTypes OperatorsModel EncodingModel
  VerifierModel VerifierSpec VerifierExamples LivenessSpec EventsModel HandlersModel HandlersSpec HandlersProofs HandlersProofs3 WorkersSpec
  HandlersExamples MonitorExamples ParticipantsSpec ParticipantsExamples SuiWorkersSpec SuiWorkersExamples HappenedExamples
  HappenedSuiSpec HappenedSuiProofs.

Definition hn_block (q : string) : option sui_block := if String.eqb q hx_tx1 then Some hs_block else None.
Definition hn_node : sui_rpc := {| sr_block := hn_block; sr_blocks := opt_map hn_block; sr_order := remove_dups |}.
Lemma hn_block_digest q b : hn_block q = Some b -> sb_digest b = q /\ b = hs_block.
Proof. unfold hn_block. destruct (String.eqb_spec q hx_tx1) as [->|]; [|done]. by intros [= <-]. Qed.
Lemma hn_honest : honest_blocks hn_node.
Proof.
  intros ids bs H. cbn in H. apply opt_map_ok in H. induction H as [|q b l k Hq _ IH]; [done|].
  apply hn_block_digest in Hq as [<- _]. rewrite fmap_cons. by rewrite IH.
Qed.
Lemma hn_order : set_order (sr_order hn_node).
Proof. intros l. split; [apply NoDup_remove_dups|]. intros x. apply elem_of_remove_dups. Qed.
Lemma hn_holds : sui_holds hn_node hs_block.
Proof.
  split; [vm_compute; reflexivity|]. intros ids bs b' H Hin _. cbn in H. apply opt_map_ok in H.
  apply elem_of_list_lookup in Hin as [i Hi]. destruct (Forall2_lookup_r _ _ _ _ _ H Hi) as (q & _ & Hq).
  by apply hn_block_digest in Hq as [_ ->].
Qed.

Definition hn_te : tx_event :=
  {| te_tx_id := "digest1"; te_index := 3; te_daddr := "0xdest"; te_dchain := "avax"; te_src := to_hex hs_src; te_hash := hx_hash |}.
Lemma hn_answers : answers_poll hs_b58 hn_node [hn_te].
Proof.
  intros ids H. cbn. induction ids as [|q ids IH]; [by eexists|].
  destruct IH as [bs IH]. { intros t Ht. apply H. by apply elem_of_list_further. }
  destruct (H q) as (e & ->%elem_of_list_singleton & Hq); [apply elem_of_list_here|]. vm_compute in Hq. apply (inj Some) in Hq. subst q.
  cbn [opt_map]. rewrite IH. by eexists.
Qed.
Lemma hn_gateway : hex_bytes 32 (vc_gateway sw_vcfg) hs_gw.
Proof. split; [done|]. right. eexists. split; [reflexivity|apply of_to_hex]. Qed.
Lemma hn_has : sui_has hs_b58 (vc_gateway sw_vcfg) (sw_msg "3") hn_node.
Proof.
  exists hs_block, hx_tx1, 3, hs_gw, hs_src, "avax".
  eexists. split. { exists "digest1", "3". split; [reflexivity|]. split; vm_compute; reflexivity. }
  split; [exact hn_gateway|]. split. { split; [done|]. left. apply of_to_hex. }
  split; [done|]. split; [exact hn_holds|]. split.
  { split; [done|]. split; [done|]. exists []. eexists. split; [reflexivity|]. split; [constructor|]. done. }
  reflexivity.
Qed.
Lemma hn_has_transfer : sui_has_transfer hs_b58 (vc_gateway sw_vcfg) "digest1:4" hx_operators hn_node.
Proof.
  destruct (sui_operators (o_weights hx_operators) 2) as [d|] eqn:Ed; [|by vm_compute in Ed].
  exists hs_block, hx_tx1, 4, hs_gw.
  eexists {| se_seq := 4; se_type := Some (hs_gw, "validators", "OperatorshipTransferred");
             se_call := None; se_transfer := sui_operators (o_weights hx_operators) 2 |}, d.
  split. { exists "digest1", "4". split; [reflexivity|]. split; vm_compute; reflexivity. }
  split; [exact hn_gateway|]. split; [exact hn_holds|]. split.
  { split; [done|]. split; [done|]. eexists [_], []. split; [reflexivity|]. split; [by repeat constructor|]. done. }
  split; [exact Ed|exact Ed].
Qed.

Definition hn_meta : poll_metadata :=
  {| pm_poll_id := 1; pm_chain := "sui"; pm_gateway := "0x" +:+ to_hex hs_gw; pm_confirmations := 1;
     pm_expires_at := 50; pm_participants := ["w1"; "w2"; "w3"] |}.
Definition hn_request : vop := VerifyMessages 40 ex_reg [sw_msg "3"].
Definition hn_out : vout := OutVerify [(m_cc (sw_msg "3"), false)] (Some ([hn_te], hn_meta)).
Definition hn_request2 : vop := VerifyWorkerSet 40 ex_reg "digest1:4" hx_operators.
Definition hn_out2 : vout := OutWorkerSet "digest1" 4 hx_operators hn_meta.
Definition hn_after (op : vop) : vstate := match verifier_step mx_k (vrun mx_k sw_vcfg []) op with Ok (s, _) => s | _ => vrun mx_k sw_vcfg [] end.
Lemma hn_steps : verifier_step mx_k (vrun mx_k sw_vcfg []) hn_request = Ok (hn_after hn_request, hn_out) /\
  verifier_step mx_k (vrun mx_k sw_vcfg []) hn_request2 = Ok (hn_after hn_request2, hn_out2).
Proof.
  assert (G : forall op out, match verifier_step mx_k (vrun mx_k sw_vcfg []) op with Ok (_, o) => o = out | _ => False end ->
    verifier_step mx_k (vrun mx_k sw_vcfg []) op = Ok (hn_after op, out)).
  { intros op out H. unfold hn_after. destruct (verifier_step mx_k (vrun mx_k sw_vcfg []) op) as [[s' o]| |]; [|done..]. by rewrite H. }
  split; apply G; vm_compute; reflexivity.
Qed.
Lemma hn_plain : plain_poll hx_acc hx_json {| hc_worker := ""; hc_contract := "sui verifier"; hc_chain := OtherChain "sui" |} hn_meta.
Proof. split; [done|]. split; [by repeat constructor|]. do 3 (split; [done|]). split; [by vm_compute|]. by repeat split. Qed.

Lemma hn_part a : a = "w1" \/ a = "w2" ->
  does_its_part_sui "sui verifier" (OtherChain "sui") hn_meta (messages_poll_event hx_json "sui verifier" [hn_te] hn_meta)
    (log (verifier_step mx_k) (hn_after hn_request) hp_later) (sui_msg_handler hx_acc hs_b58)
    (fun rpc => answers_poll hs_b58 rpc [hn_te] /\ sui_has hs_b58 (vc_gateway sw_vcfg) (sw_msg "3") rpc) a.
Proof.
  intros Ha. exists 40, hn_node. split; [done|]. split; [exact hn_honest|]. split; [exact hn_order|].
  split; [exact (conj hn_answers hn_has)|]. intros ballot Hb.
  assert (ballot = [SucceededOnChain]) as ->.
  { assert (E : sui_msg_handler hx_acc hs_b58 {| hc_worker := a; hc_contract := "sui verifier"; hc_chain := OtherChain "sui" |} 40 true hn_node
        (messages_poll_event hx_json "sui verifier" [hn_te] hn_meta) =
      Ok (Some {| wt_sender := a; wt_contract := "sui verifier"; wt_body := BodyVote 1 [SucceededOnChain] |})).
    { destruct Ha as [-> | ->]; vm_compute; reflexivity. }
    rewrite E in Hb. by injection Hb as <-. }
  destruct Ha as [-> | ->].
  - eexists 41, _. split; [done|]. eapply (elem_of_list_lookup_2 _ 0%nat). vm_compute. reflexivity.
  - eexists 43, _. split; [done|]. eapply (elem_of_list_lookup_2 _ 2%nat). vm_compute. reflexivity.
Qed.
Lemma hn_part2 a : a = "w1" \/ a = "w2" ->
  does_its_part_sui "sui verifier" (OtherChain "sui") hn_meta (worker_set_poll_event hx_json "sui verifier" "digest1" 4 hx_operators hn_meta)
    (log (verifier_step mx_k) (hn_after hn_request2) hp_later) (sui_ws_handler hx_acc hs_b58)
    (sui_has_transfer hs_b58 (vc_gateway sw_vcfg) "digest1:4" hx_operators) a.
Proof.
  intros Ha. exists 40, hn_node. split; [done|]. split; [exact hn_honest|]. split; [exact hn_order|].
  split; [exact hn_has_transfer|]. intros ballot Hb.
  assert (ballot = [SucceededOnChain]) as ->.
  { assert (E : sui_ws_handler hx_acc hs_b58 {| hc_worker := a; hc_contract := "sui verifier"; hc_chain := OtherChain "sui" |} 40 true hn_node
        (worker_set_poll_event hx_json "sui verifier" "digest1" 4 hx_operators hn_meta) =
      Ok (Some {| wt_sender := a; wt_contract := "sui verifier"; wt_body := BodyVote 1 [SucceededOnChain] |})).
    { destruct Ha as [-> | ->]; vm_compute; reflexivity. }
    rewrite E in Hb. by injection Hb as <-. }
  destruct Ha as [-> | ->].
  - eexists 41, _. split; [done|]. eapply (elem_of_list_lookup_2 _ 0%nat). vm_compute. reflexivity.
  - eexists 43, _. split; [done|]. eapply (elem_of_list_lookup_2 _ 2%nat). vm_compute. reflexivity.
Qed.
Lemma hn_form : Forall (sui_form hs_b58) [hn_te].
Proof. exact px_sui_form. Qed.
Lemma hn_verified :
  message_status mx_k (vrun mx_k sw_vcfg ([] ++ hn_request :: hp_later)) (sw_msg "3") = Ok Verified /\
  worker_set_status mx_k (vrun mx_k sw_vcfg ([] ++ hn_request2 :: hp_later)) hx_operators = Ok Verified.
Proof.
  assert (Hn : NoDup ["w1"; "w2"]) by (apply NoDup_cons; split; [by rewrite elem_of_list_singleton|apply NoDup_singleton]).
  split.
  - eapply (happened_sui mx_k sw_vcfg [] 40 ex_reg [sw_msg "3"] (hn_after hn_request) _ [hn_te] hn_meta hp_workers hp_later 0 (sw_msg "3") hx_acc
      hs_b58 hx_json "sui verifier" (OtherChain "sui") hs_gw ["w1"; "w2"]).
    + exact sw_valid.
    + exact (proj1 hn_steps).
    + reflexivity.
    + vm_compute. reflexivity.
    + intros [|[|j]] m' H _; [lia|vm_compute in H; done|vm_compute in H; done].
    + repeat constructor; by vm_compute.
    + exact hn_plain.
    + exact hn_gateway.
    + exact hn_form.
    + exact Hn.
    + intros a Ha. rewrite !elem_of_cons, elem_of_nil in Ha. destruct Ha as [->|[->|[]]]; (split; [|apply hn_part; auto]).
      * apply elem_of_list_here.
      * apply elem_of_list_further, elem_of_list_here.
    + by vm_compute.
  - eapply (happened_sui_set mx_k sw_vcfg [] 40 ex_reg "digest1:4" hx_operators (hn_after hn_request2) _ _ _ hn_meta hp_workers hp_later hx_acc
      hs_b58 hx_json "sui verifier" (OtherChain "sui") hs_gw hx_tx1 ["w1"; "w2"]).
    + exact sw_valid.
    + exact (proj2 hn_steps).
    + reflexivity.
    + intros h' reg' mid' o' out Hin. apply log_elem in Hin as (o1 & o2 & s' & Hh & _). exfalso.
      assert (Hx : VerifyWorkerSet h' reg' mid' o' ∈ hp_later) by (rewrite Hh; apply elem_of_app; right; left). clear Hh.
      unfold hp_later in Hx. rewrite !elem_of_cons, elem_of_nil in Hx. by destruct Hx as [?|[?|[?|[]]]].
    + exact hn_plain.
    + exact hn_gateway.
    + apply px_operators.
    + vm_compute. reflexivity.
    + done.
    + exact Hn.
    + intros a Ha. rewrite !elem_of_cons, elem_of_nil in Ha. destruct Ha as [->|[->|[]]]; (split; [|apply hn_part2; auto]).
      * apply elem_of_list_here.
      * apply elem_of_list_further, elem_of_list_here.
    + by vm_compute.
Qed.
