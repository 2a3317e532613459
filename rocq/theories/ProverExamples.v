(** Concrete histories of the prover. *)
From Verif Require Import Base BaseLemmas Text StdModel StdSpec RegistryTypes RouterTypes MultisigTypes OperatorsModel
  MultisigModel MultisigExamples EncodingModel EncodingSpec EncodingExamples ProverModel ProverSpec ProverProofs
  ProverProofs2 ProverProofs3 ProverProofs4 ProverProofs5.

Definition pcfg (e : encoder) : pconfig :=
  {| pc_gateway := "gateway"; pc_multisig := "multisig"; pc_registry := "registry"; pc_verifier := "verifier";
     pc_chain_id := 1337; pc_threshold := {| t_num := 2; t_den := 3 |}; pc_service := "validators";
     pc_chain := "sui"; pc_diff := 1; pc_encoder := e; pc_key_type := KEcdsa |}.

Definition ex_worker (a : addr) : worker :=
  {| w_addr := a; w_bond := Bonded 100; w_auth := Authorized; w_service := "validators" |}.
(** the key of a worker: its first letter, repeated *)
Definition ex_key (a : addr) : option public_key :=
  match a with String ch _ => Some (ex_pk ch) | EmptyString => None end.
Definition ex_msg_of (e : encoder) (i : ccid) : message :=
  {| m_cc := i; m_src := "sender"; m_dchain := "sui"; m_daddr := ex_dst e; m_hash := repeat_char 32 "h" |}.
Definition penv_of (e : encoder) (h : N) (workers : list addr) (ok : bool) : penv :=
  {| pe_height := h;
     pe_messages := fun _ ids => Some (ex_msg_of e <$> ids);
     pe_active := fun _ _ _ => Some (ex_worker <$> workers);
     pe_key := fun _ a _ => ex_key a;
     pe_verified := fun _ _ => Some ok |}.

Definition set1 : list addr := ["alice"; "bob"; "carol"].
Definition set2 : list addr := ["alice"; "bob"; "dave"].
Definition set3 : list addr := ["alice"; "eve"; "dave"].
Definition ev (n : N) : ccid := {| cc_chain := "ethereum"; cc_id := "0xabc:" +:+ dec n |}.

Definition p_op (call : pcall) (env : penv) (ans : option N) : pop :=
  {| po_call := call; po_env := env; po_multisig := Some ans |}.
(** first set; two proofs for the same messages; a proposal; a refused other
    proposal; the same proposal again with a proof; a refused and an
    accepted confirmation; a second confirmation, refused *)
Definition ex_prover_ops (e : encoder) : list pop :=
  [p_op UpdateWorkerSet (penv_of e 10 set1 false) None;
   p_op (ConstructProof [ev 1; ev 2]) (penv_of e 11 set1 false) (Some 1);
   p_op (ConstructProof [ev 2; ev 1]) (penv_of e 12 set2 false) (Some 2);
   p_op UpdateWorkerSet (penv_of e 13 set1 false) (Some 3);
   p_op UpdateWorkerSet (penv_of e 13 set2 false) (Some 3);
   p_op UpdateWorkerSet (penv_of e 14 set3 false) (Some 4);
   p_op (ConstructProof [ev 3]) (penv_of e 15 set2 false) (Some 4);
   p_op ConfirmWorkerSet (penv_of e 16 set2 false) None;
   p_op ConfirmWorkerSet (penv_of e 17 set2 true) None;
   p_op ConfirmWorkerSet (penv_of e 18 set2 true) None].

Definition ex_prun (e : encoder) (ops : list pop) : pstate := prun ex_keccak ex_wshash ex_sec1 (pcfg e) ops.
Definition ex_plog (e : encoder) (ops : list pop) : list (pop * pout) := plog ex_keccak ex_wshash ex_sec1 (pcfg e) ops.

Definition ex_prover_check (e : encoder) : bool :=
  let l := ex_plog e (ex_prover_ops e) in
  let s := ex_prun e (ex_prover_ops e) in
  let s7 := ex_prun e (firstn 7 (ex_prover_ops e)) in
  bool_decide (length l = 6%nat) &&
  bool_decide (length (omap (fun x => px_event x.2) l) = 4%nat) &&
  (* the two requests for the same messages got the same batch *)
  bool_decide (session_batch l 1 = session_batch l 2) && negb (bool_decide (session_batch l 1 = session_batch l 4)) &&
  match pv_current s7, pv_next s7, pv_current s, pv_next s with
  | Some a, Some b, Some d, None =>
      bool_decide (b = d) && (differing b a =? 2) && (ws_threshold a =? 2) && (ws_created a =? 10) &&
      (ws_created b =? 15) && (pc_diff (pcfg e) <? differing b a)
  | _, _, _, _ => false
  end &&
  match prover_step ex_keccak ex_wshash ex_sec1 (pcfg e) (ex_prun e (firstn 3 (ex_prover_ops e)))
          (p_op UpdateWorkerSet (penv_of e 13 set1 false) (Some 3)),
        prover_step ex_keccak ex_wshash ex_sec1 (pcfg e) (ex_prun e (firstn 5 (ex_prover_ops e)))
          (p_op UpdateWorkerSet (penv_of e 14 set3 false) (Some 4)),
        prover_step ex_keccak ex_wshash ex_sec1 (pcfg e) (ex_prun e (firstn 7 (ex_prover_ops e)))
          (p_op ConfirmWorkerSet (penv_of e 16 set2 false) None) with
  | Err WorkerSetUnchanged, Err WorkerSetConfirmationInProgress, Err WorkerSetNotConfirmed => true
  | _, _, _ => false
  end.
Example ex_prover_history : ex_prover_check Abi = true /\ ex_prover_check Bcs = true.
Proof. split; vm_compute; reflexivity. Qed.

Lemma ex_sensible e h ws ok : N.of_nat (length ws) < U256 -> sensible (pcfg e) (penv_of e h ws ok).
Proof.
  intros H. split; [split; [reflexivity|discriminate]|]. cbn. intros l [= <-]. rewrite fmap_length. exact H.
Qed.
Example ex_gateway e h ws ok ids : gateway_by_id (pcfg e) (penv_of e h ws ok) (ex_msg_of e) ids.
Proof. split; [reflexivity|]. apply Forall_forall. reflexivity. Qed.

(** another set waits, and a second one is refused *)
Definition set_of (e : encoder) (h : N) (ws : list addr) : worker_set :=
  match make_worker_set (pcfg e) (penv_of e h ws false) with Ok w => w | _ => ex_ws 0 end.
Example ex_waiting e : exists cur next, sets_after ex_keccak ex_wshash ex_sec1 (pcfg e)
    (ex_plog e (firstn 5 (ex_prover_ops e))) (Some cur) next /\
  is_active_set (pcfg e) (penv_of e 14 set3 false) (set_of e 14 set3) /\
  pc_diff (pcfg e) < differing (set_of e 14 set3) cur /\ ~ admits next (set_of e 14 set3) /\
  is_active_set (pcfg e) (penv_of e 14 set2 false) (set_of e 14 set2) /\ admits next (set_of e 14 set2).
Proof.
  exists (set_of e 10 set1), (Some (set_of e 13 set2)).
  assert (forall h ws, is_ok (make_worker_set (pcfg e) (penv_of e h ws false)) = true ->
    is_active_set (pcfg e) (penv_of e h ws false) (set_of e h ws)) as Ha.
  { intros h ws H. unfold set_of. destruct (make_worker_set _ _) eqn:E; [|done..]. by apply make_worker_set_active. }
  split_and!.
  - pose proof (c46_history ex_keccak ex_wshash ex_sec1 (pcfg e) (firstn 5 (ex_prover_ops e))) as H.
    replace (pv_current _) with (Some (set_of e 10 set1)) in H by (destruct e; vm_compute; reflexivity).
    replace (pv_next _) with (Some (set_of e 13 set2)) in H by (destruct e; vm_compute; reflexivity).
    exact H.
  - apply Ha. destruct e; vm_compute; reflexivity.
  - destruct e; vm_compute; reflexivity.
  - cbn. intros [H _]. apply (f_equal (fun m => m !! "eve")) in H. destruct e; vm_compute in H; discriminate H.
  - apply Ha. destruct e; vm_compute; reflexivity.
  - cbn. split; destruct e; vm_compute; reflexivity.
Qed.

(** a worker with a new key counts twice *)
Example ex_rotated : differing (set_of Bcs 10 set1)
  {| ws_signers := <["alice" := {| sg_addr := "alice"; sg_weight := 1; sg_key := ex_pk "z" |}]> (ws_signers (set_of Bcs 10 set1));
     ws_threshold := 2; ws_created := 10 |} = 2.
Proof. vm_compute. reflexivity. Qed.

(** requests for different messages: nothing collides *)
Example ex_no_clash : forall new new',
  may_carry (pcfg Bcs) (penv_of Bcs 11 set1 false) new -> may_carry (pcfg Bcs) (penv_of Bcs 11 set1 false) new' ->
  no_collision ex_keccak [batch_id_preimage ex_wshash [ev 1; ev 2] new; batch_id_preimage ex_wshash [ev 3] new'].
Proof.
  assert (forall new, may_carry (pcfg Bcs) (penv_of Bcs 11 set1 false) new -> new = None \/ new = Some (set_of Bcs 11 set1)) as H.
  { intros [w|] Hw; [right|by left]. f_equal. eapply active_set_unique; [exact Hw|].
    apply make_worker_set_active. vm_compute. reflexivity. }
  intros new new' Hn Hn'.
  assert (ex_keccak (batch_id_preimage ex_wshash [ev 1; ev 2] new) <> ex_keccak (batch_id_preimage ex_wshash [ev 3] new')) as Hne.
  { destruct (H new Hn) as [-> | ->], (H new' Hn') as [-> | ->];
      apply (bool_decide_eq_true_1 _); vm_compute; reflexivity. }
  clear H Hn Hn'. generalize dependent (batch_id_preimage ex_wshash [ev 1; ev 2] new).
  generalize (batch_id_preimage ex_wshash [ev 3] new'). intros a b Hne x y Hx Hy Hxy.
  rewrite !elem_of_cons, elem_of_nil in Hx. rewrite !elem_of_cons, elem_of_nil in Hy.
  destruct Hx as [->|[->|[]]], Hy as [->|[->|[]]]; congruence.
Qed.

(** a completed session's answer; the heaviest signatures that reach the
    quorum are kept *)
Definition ex_answer (q : N) : multisig :=
  {| mu_state := MCompleted 20; mu_quorum := q;
     mu_signers := [(ex_member "w1" 10 "c", Some (SigEcdsa (repeat_char 64 "s")));
                    (ex_member "w2" 20 "a", None);
                    (ex_member "w3" 300 "b", Some (SigEcdsa (repeat_char 64 "t")));
                    (ex_member "w4" 25 "d", Some (SigEcdsa (repeat_char 64 "u")))] |}.
Definition ex_proof_check (e : encoder) : bool :=
  match get_proof ex_keccak ex_sec1 ex_recover (pcfg e) (ex_prun e (ex_prover_ops e))
          (fun _ => Some (ex_answer 320)) 1,
        optimize_signers (mu_signers (ex_answer 320)) 320 with
  | Ok r, Ok sel =>
      bool_decide (pr_ids r = [ev 1; ev 2]) && bool_decide (length (signed sel) = 2%nat) &&
      (weight_of (signed sel) =? 325) &&
      match pr_status r with
      | PfCompleted d =>
          match decode_execute e d with
          | Some (x, p) => bool_decide (decode_data e x = Some (data_view (pr_data r))) &&
              match decode_proof e p with
              | Some (addrs, ws, q, sigs) => bool_decide (length addrs = 4%nat) && (q =? 320) &&
                  bool_decide (length sigs = 2%nat)
              | None => false
              end
          | None => false
          end
      | PfPending => false
      end
  | _, _ => false
  end.
Example ex_proofs : ex_proof_check Abi = true /\ ex_proof_check Bcs = true.
Proof. split; vm_compute; reflexivity. Qed.

(** a request for one message with a comma in its id is answered with the
    batch of two other messages *)
Definition comma_ops (e : encoder) : list pop :=
  [p_op UpdateWorkerSet (penv_of e 10 set1 false) None;
   p_op (ConstructProof comma_ids) (penv_of e 11 set1 false) (Some 1);
   p_op (ConstructProof comma_id) (penv_of e 12 set1 false) (Some 2)].
Definition ex_pending : multisig := {| mu_state := MPending; mu_quorum := 2; mu_signers := [] |}.
Lemma c49_wrong_batch : exists keccak wshash sec1 recover c ops op out bid id requested f mu r,
  (op, out) ∈ plog keccak wshash sec1 c ops /\ po_call op = ConstructProof requested /\
  gateway_by_id c (po_env op) f requested /\ px_event out = Some (bid, id) /\
  Forall wf_message (f <$> requested) /\
  get_proof keccak sec1 recover c (prun keccak wshash sec1 c ops) mu id = Ok r /\ ~ pr_ids r ≡ₚ requested.
Proof.
  exists ex_keccak, ex_wshash, ex_sec1, ex_recover, (pcfg Bcs), (comma_ops Bcs),
    (p_op (ConstructProof comma_id) (penv_of Bcs 12 set1 false) (Some 2)).
  assert (exists out bid, (p_op (ConstructProof comma_id) (penv_of Bcs 12 set1 false) (Some 2), out) ∈ ex_plog Bcs (comma_ops Bcs) /\
    px_event out = Some (bid, 2)) as (out & bid & Hin & Hev).
  { exists {| px_msg := MsgStart "multisig"
                 (to_hex (ex_wshash {| ws_signers := ∅; ws_threshold := 2; ws_created := 10 |}))
                 (match ex_plog Bcs (comma_ops Bcs) with
                  | [_; _; (_, {| px_msg := MsgStart _ _ d _ |})] => d
                  | _ => ""
                  end) "sui";
              px_event := Some (batch_id ex_keccak ex_wshash comma_id None, 2) |}.
    eexists. split; [|reflexivity].
    apply elem_of_list_In. vm_compute. right. right. left. reflexivity. }
  exists out, bid, 2, comma_id, (ex_msg_of Bcs), (fun _ => Some ex_pending).
  eexists. split; [exact Hin|]. split; [reflexivity|]. split; [apply ex_gateway|]. split; [exact Hev|].
  split; [|split; [vm_compute; reflexivity|]].
  - repeat constructor; try discriminate.
  - cbn. intros H%Permutation_length. discriminate H.
Qed.
