(** The hypotheses of C93 and C94 in the history of SystemExamples. *)
From stdpp Require Import sorting.
From Verif Require Import Base BaseLemmas Text StdModel RouterTypes RegistryTypes OperatorsModel MultisigTypes
  RouterModel RouterSpec GatewayModel GatewaySpec NexusModel RewardsModel RewardsSpec RegistryModel VerifierModel VerifierSpec
  MultisigModel MultisigSpec MultisigExamples EncodingModel EncodingSpec EncodingExamples ProverModel ProverSpec ProverProofs2 ProverExamples
  SigningModel SigningSpec SigningProofs SigningExamples SystemModel SystemSpec SystemProofs6 SystemExamples DeliverySpec DeliveryProofs3 DeliveryProofs7.

(** ** Checking the definitions on a list of calls *)
Fixpoint sortedb (l : list N) : bool :=
  match l with x :: (y :: _) as l' => (x <=? y) && sortedb l' | _ => true end.
Lemma sortedb_sorted l : sortedb l = true -> StronglySorted N.le l.
Proof.
  intros H. apply Sorted_StronglySorted; [intros x y z; apply N.le_trans|].
  induction l as [|x [|y l] IH]; [constructor|repeat constructor|]. cbn in H. apply andb_prop in H as [H1%N.leb_le H2].
  constructor; [by apply IH|by constructor].
Qed.
Definition blocks_check (h0 : N) (txs : list tx) : bool :=
  sortedb ((fun t => en_height (tx_env t)) <$> txs) &&
  forallb (fun t => (h0 <=? en_height (tx_env t)) && (en_height (tx_env t) <? U64)) txs.
Lemma blocks_checked h0 txs : blocks_check h0 txs = true -> in_blocks_from h0 txs.
Proof.
  intros [H1 H2]%andb_prop. split; [by apply sortedb_sorted|]. apply Forall_forall. intros t Ht. rewrite forallb_forall in H2.
  apply elem_of_list_In, H2, andb_prop in Ht as [?%N.leb_le ?%N.ltb_lt]. done.
Qed.

Definition workers_named (vc : vconfig) (k : call) : option (list worker) :=
  match k_chain k !! vc_registry vc with
  | Some (CRegistry s) => ask (get_active_workers s (vc_service vc) (vc_chain vc))
  | _ => None
  end.
Lemma workers_named_named vc k ws : workers_named vc k = Some ws -> named vc k ws.
Proof. unfold workers_named, named. destruct (k_chain k !! vc_registry vc) as [[]|]; try done. apply asked_ok. Qed.

Definition vote_check (v : addr) (l : list call) (id expires : N) (idx : nat) (a : addr) : bool :=
  existsb (fun k => String.eqb (k_to k) v && String.eqb (k_sender k) a && (en_height (k_env k) <? expires) &&
    match sb_body (k_sub k) with BVote j b => (j =? id) && bool_decide (b !! idx = Some SucceededOnChain) | _ => false end) l.
Definition voted_check (v : addr) (t : threshold) (l : list call) (id expires : N) (workers : list worker) (idx : nat) (voters : list addr) : bool :=
  bool_decide (NoDup voters) &&
  forallb (fun a => bool_decide (a ∈ w_addr <$> workers) && vote_check v l id expires idx a) voters &&
  (N.of_nat (length workers) * t_num t <=? N.of_nat (length voters) * t_den t).
Lemma voted_checked v t l id expires workers idx voters :
  voted_check v t l id expires workers idx voters = true -> voted v t l id expires workers idx.
Proof.
  unfold voted_check. intros [[H1%bool_decide_eq_true H2]%andb_prop H3%N.leb_le]%andb_prop.
  exists voters. split; [done|]. split; [|done]. intros a Ha. rewrite forallb_forall in H2.
  apply elem_of_list_In, H2, andb_prop in Ha as [Hw%bool_decide_eq_true Hv]. split; [done|].
  unfold vote_check in Hv. apply existsb_exists in Hv as (k & Hk & Hv). apply elem_of_list_In in Hk.
  apply andb_prop in Hv as [Hv Hb]. apply andb_prop in Hv as [Hv Hh%N.ltb_lt]. apply andb_prop in Hv as [Ht%String.eqb_eq Hs%String.eqb_eq].
  destruct (sb_body (k_sub k)) eqn:Eb; try done. apply andb_prop in Hb as [->%N.eqb_eq Hb%bool_decide_eq_true]. exists k. eexists. eauto 6.
Qed.

Definition vouch_check (v : addr) (vc : vconfig) (l : list call) (i idx : nat) (m : message) (voters : list addr) : bool :=
  match l !! i with
  | Some k =>
      match k_chain k !! v, sb_body (k_sub k), workers_named vc k with
      | Some (CVerifier vs), BVerify ms, Some workers =>
          match verify_messages ex_keccak vs (en_height (k_env k)) (q_active (k_env k) (k_index k) (k_chain k)) ms with
          | Ok (_, OutVerify _ (Some (_, meta))) =>
              let asked := List.filter (wants_poll ex_keccak vs) ms in
              String.eqb (k_to k) v && bool_decide (asked !! idx = Some m) &&
              forallb (fun m' => negb (String.eqb (message_key ex_keccak m') (message_key ex_keccak m))) (drop (S idx) asked) &&
              voted_check v (vc_threshold vc) (drop (S i) l) (pm_poll_id meta) (en_height (k_env k) + vc_expiry vc) workers idx voters
          | _ => false
          end
      | _, _, _ => false
      end
  | None => false
  end.
Lemma vouch_checked v vc l i idx m voters : vouch_check v vc l i idx m voters = true -> message_vouched ex_keccak v vc l m.
Proof.
  unfold vouch_check. destruct (l !! i) as [k|] eqn:Ek; [|done].
  destruct (k_chain k !! v) as [[| | |vs| | | |]|] eqn:Ev; try done. destruct (sb_body (k_sub k)) as [| | | | | | | | | | | | | | | | | | | | | | | | | | |] eqn:Eb; try done.
  all: destruct (workers_named vc k) as [workers|] eqn:Ew; try done.
  all: match goal with |- context [verify_messages ?a ?b ?c ?d ?e] => destruct (verify_messages a b c d e) as [[vs' [sts [[es meta]|]| | |]]| |] eqn:Es; try done end.
  all: intros H; apply andb_prop in H as [H Hv%voted_checked]; apply andb_prop in H as [H Hl]; apply andb_prop in H as [Ht%String.eqb_eq Hi%bool_decide_eq_true].
  all: exists (take i l), k, (drop (S i) l), vs, vs'; eexists _, sts, es, meta, workers, idx.
  all: split; [by rewrite take_drop_middle|]; split; [done|]; split; [done|]; split; [done|]; split; [done|]; split; [|split; [by apply workers_named_named|done]].
  all: split; [done|]; intros j m' Hj He; destruct (decide (j <= idx)%nat); [done|]; exfalso; rewrite forallb_forall in Hl.
  all: assert (In m' (drop (S idx) (List.filter (wants_poll ex_keccak vs) ms))) as Hin by
    (apply elem_of_list_In, elem_of_list_lookup; exists (j - S idx)%nat; rewrite lookup_drop; replace (S idx + (j - S idx))%nat with j by lia; done).
  all: apply Hl in Hin; rewrite He, String.eqb_refl in Hin; done.
Qed.

Definition opened_check (v : addr) (vc : vconfig) (l : list call) (i : nat) : option (N * N * list addr * nat) :=
  match l !! i with
  | Some k =>
      match k_chain k !! v, sb_body (k_sub k), workers_named vc k with
      | Some (CVerifier vs), BVerify ms, Some workers =>
          match verify_messages ex_keccak vs (en_height (k_env k)) (q_active (k_env k) (k_index k) (k_chain k)) ms with
          | Ok (_, OutVerify _ (Some (es, meta))) =>
              if String.eqb (k_to k) v then Some (pm_poll_id meta, en_height (k_env k) + vc_expiry vc, w_addr <$> workers, length es) else None
          | _ => None
          end
      | _, _, _ => None
      end
  | None => None
  end.
Lemma opened_checked v vc l i id expires ws items : opened_check v vc l i = Some (id, expires, ws, items) ->
  exists l1 k l2 workers, l = l1 ++ k :: l2 /\ l2 = drop (S i) l /\ w_addr <$> workers = ws /\
    poll_opened ex_keccak v vc k id expires workers items.
Proof.
  unfold opened_check. destruct (l !! i) as [k|] eqn:Ek; [|done].
  destruct (k_chain k !! v) as [[| | |vs| | | |]|] eqn:Ev; try done. destruct (sb_body (k_sub k)) as [| | | | | | |ms| | | | | | | | | | | | | | | | | | | |] eqn:Eb; try done.
  destruct (workers_named vc k) as [workers|] eqn:Ew; try done.
  destruct (verify_messages _ _ _ _ _) as [[vs' [sts [[es meta]|]| | |]]| |] eqn:Es; try done.
  destruct (String.eqb_spec (k_to k) v) as [Ht|]; [|done]. intros [= <- <- <- <-].
  exists (take i l), k, (drop (S i) l), workers. split; [by rewrite take_drop_middle|]. split; [done|]. split; [done|].
  split; [done|]. split; [by apply workers_named_named|]. split; [done|]. exists vs, vs', meta. split; [done|]. split; [done|]. left. eauto 6.
Qed.

Definition set_vouch_check (v : addr) (vc : vconfig) (l : list call) (i : nat) (o : operators) (voters : list addr) : bool :=
  match l !! i with
  | Some k =>
      match k_chain k !! v, sb_body (k_sub k), workers_named vc k with
      | Some (CVerifier vs), BVerifyWorkerSet mid o', Some workers =>
          match verify_worker_set ex_keccak vs (en_height (k_env k)) (q_active (k_env k) (k_index k) (k_chain k)) mid o' with
          | Ok (_, OutWorkerSet _ _ o'' meta) =>
              String.eqb (k_to k) v && bool_decide (o' = o) && bool_decide (o'' = o) &&
              voted_check v (vc_threshold vc) (drop (S i) l) (pm_poll_id meta) (en_height (k_env k) + vc_expiry vc) workers 0 voters &&
              forallb (fun k' => match sb_body (k_sub k') with BVerifyWorkerSet _ _ => false | _ => true end) (drop (S i) l)
          | _ => false
          end
      | _, _, _ => false
      end
  | None => false
  end.
Lemma set_vouch_checked v vc l i o voters : set_vouch_check v vc l i o voters = true -> operators_vouched ex_keccak v vc l o.
Proof.
  unfold set_vouch_check. destruct (l !! i) as [k|] eqn:Ek; [|done].
  destruct (k_chain k !! v) as [[| | |vs| | | |]|] eqn:Ev; try done. destruct (sb_body (k_sub k)) as [| | | | | | | |mid o'| | | | | | | | | | | | | | | | | | |] eqn:Eb; try done.
  destruct (workers_named vc k) as [workers|] eqn:Ew; try done.
  destruct (verify_worker_set _ _ _ _ _ _) as [[vs' [|tx n o'' meta| |]]| |] eqn:Es; try done.
  intros H. apply andb_prop in H as [H Hno]. apply andb_prop in H as [H Hv%voted_checked]. apply andb_prop in H as [H ->%bool_decide_eq_true].
  apply andb_prop in H as [Ht%String.eqb_eq ->%bool_decide_eq_true].
  exists (take i l), k, (drop (S i) l), vs, vs', mid, tx, n, meta, workers. split; [by rewrite take_drop_middle|].
  split; [done|]. split; [done|]. split; [done|]. split; [done|]. split; [by apply workers_named_named|]. split; [done|].
  intros k' mid' o' Hk _ Hb. rewrite forallb_forall in Hno. apply elem_of_list_In, Hno in Hk. by rewrite Hb in Hk.
Qed.

Definition begun_check (p m : addr) (l : list call) (i : nat) (id : N) (signed : list addr) : bool :=
  match l !! i with
  | Some k =>
      match k_chain k !! p, sb_body (k_sub k) with
      | Some (CProver c ps), BProver pc =>
          match query_worker_set ps, prover_execute ex_keccak ex_wshash ex_sec1 c (prover_env ex_keccak (k_env k) (k_index k) (k_chain k)) ps pc with
          | Ok cur, Ok (_, MsgStart _ _ _ _) =>
              String.eqb (k_to k) p && String.eqb (pc_multisig c) m &&
              (id =? N.of_nat (length (sessions_started m (take i l))) + 1) &&
              bool_decide (submitters m l id = signed) &&
              bool_decide (signed <> []) && (ws_threshold cur <=? lsum (weight_in cur) signed) &&
              (lsum sg_weight (members cur) <? U256) &&
              forallb (fun sg => bool_decide (is_Some (ex_sec1 (pk_bytes (sg_key sg))))) (members cur)
          | _, _ => false
          end
      | _, _ => false
      end
  | None => false
  end.
Definition config_of (l : list call) (p : addr) (i : nat) : option pconfig :=
  match l !! i with
  | Some k => match k_chain k !! p with Some (CProver c _) => Some c | _ => None end
  | None => None
  end.
Lemma begun_checked p m l i id who c : begun_check p m l i id who = true -> config_of l p i = Some c ->
  exists cur dg, session_begun ex_keccak ex_wshash ex_sec1 p c l id cur dg /\ pc_multisig c = m /\
    submitters m l id = who /\ reached cur who /\ lsum sg_weight (members cur) < U256 /\
    Forall (fun sg => is_Some (ex_sec1 (pk_bytes (sg_key sg)))) (members cur).
Proof.
  unfold begun_check, config_of. destruct (l !! i) as [k|] eqn:Ek; [|done].
  destruct (k_chain k !! p) as [[| | | | | | |c' ps]|] eqn:Ev; try done.
  destruct (sb_body (k_sub k)) as [| | | | | | | | | | | | | | | | | | | | | | | | | | |pc] eqn:Eb; try done.
  destruct (query_worker_set ps) as [cur| |] eqn:Eq; try done.
  destruct (prover_execute _ _ _ _ _ _ _) as [[ps' [to w dg ch|]]| |] eqn:Ex; try done.
  intros H [= <-]. apply andb_prop in H as [H H8]. apply andb_prop in H as [H H7%N.ltb_lt]. apply andb_prop in H as [H H6%N.leb_le].
  apply andb_prop in H as [H H5%bool_decide_eq_true]. apply andb_prop in H as [H H4%bool_decide_eq_true]. apply andb_prop in H as [H H3%N.eqb_eq].
  apply andb_prop in H as [H1%String.eqb_eq H2%String.eqb_eq].
  exists cur, dg. split.
  { exists (take i l), k, (drop (S i) l), ps, ps', pc, to, w, ch. split; [by rewrite take_drop_middle|].
    split; [done|]. split; [done|]. split; [done|]. split; [done|]. split; [done|]. by rewrite H2. }
  split; [done|]. split; [done|]. split; [done|]. split; [done|]. apply Forall_forall. intros sg Hsg. rewrite forallb_forall in H8.
  apply elem_of_list_In, H8 in Hsg. by apply bool_decide_eq_true in Hsg.
Qed.

(** ** The history of SystemExamples *)
Notation dx_step txs t := (is_ok (system_step ex_keccak ex_wshash ex_sec1 ex_crypto (sys_run txs) t)).
Notation dx_vouched := (message_vouched ex_keccak).

Lemma dx_blocks : in_blocks_from 1 sys_all.
Proof. apply blocks_checked. vm_compute. reflexivity. Qed.

(** the votes of alice and bob for the first message *)
Lemma dx_message : dx_vouched "ver-eth" (sys_vc "ethereum") (sys_history (sys_setup ++ sys_voting)) (sys_m 1) /\
  in_blocks (sys_setup ++ sys_voting) /\ valid_vconfig (sys_vc "ethereum").
Proof.
  split; [|split].
  - apply (vouch_checked _ _ _ 17 0 _ ["alice"; "bob"]). vm_compute. reflexivity.
  - apply (blocks_checked 1). vm_compute. reflexivity.
  - exists 2, 3, {| t_num := 2; t_den := 3 |}. split; by vm_compute.
Qed.

(** it can be sent, as routing_check computes *)
Lemma dx_route : routing_check (sys_setup ++ sys_voting) [sys_m 1] = true.
Proof. vm_compute. reflexivity. Qed.

(** the worker set with dave, confirmed by alice and dave *)
Definition dx_next : operators := match sys_next with Some o => o | None => {| o_weights := []; o_threshold := 0 |} end.
Definition dx_confirm : list tx := sys_txs ++ take 4 (sys_confirm dx_next).
Lemma dx_operators : operators_vouched ex_keccak "verifier" (sys_vc "sui") (sys_history dx_confirm) dx_next /\ sys_next = Some dx_next.
Proof.
  split; [apply (set_vouch_checked _ _ _ 46 _ ["alice"; "dave"])|]; vm_compute; reflexivity.
Qed.

(** the poll at ethereum: opened by the 18th call *)
Lemma dx_opened_check :
  opened_check "ver-eth" (sys_vc "ethereum") (sys_history (take 16 sys_all)) 17 = Some (1, 14, ["alice"; "bob"; "carol"], 2%nat).
Proof. vm_compute. reflexivity. Qed.
Lemma dx_opened_last : length (sys_history (take 16 sys_all)) = 18%nat.
Proof. vm_compute. reflexivity. Qed.
Lemma dx_opened : exists l1 k l2 workers, sys_history (take 16 sys_all) = l1 ++ k :: l2 /\ l2 = [] /\
  w_addr <$> workers = ["alice"; "bob"; "carol"] /\
  poll_opened ex_keccak "ver-eth" (sys_vc "ethereum") k 1 14 workers 2.
Proof.
  pose proof dx_opened_check as C. pose proof dx_opened_last as L. revert C L.
  generalize (sys_history (take 16 sys_all)) as l. intros l C L.
  destruct (opened_checked _ _ _ _ _ _ _ _ C) as (l1 & k & l2 & ws & H1 & H2 & H3 & H4).
  exists l1, k, l2, ws. split; [done|]. split; [|done]. rewrite H2. apply drop_ge. lia.
Qed.
Lemma dx_votes :
  dx_step (take 16 sys_all) (send 13 "carol" "ver-eth" (BVote 1 [NotFound; NotFound])) = true /\
  dx_step (take 16 sys_all) (send 14 "carol" "ver-eth" (BVote 1 [NotFound; NotFound])) = false /\
  dx_step (take 16 sys_all) (send 13 "carol" "ver-eth" (BVote 1 [NotFound])) = false /\
  dx_step (take 16 sys_all) (send 13 "dave" "ver-eth" (BVote 1 [NotFound; NotFound])) = false /\
  dx_step (take 17 sys_all) (send 13 "alice" "ver-eth" (BVote 1 [NotFound; NotFound])) = false /\
  dx_step (take 16 sys_all) (send 13 "anyone" "ver-eth" (BEndPoll 1)) = false /\
  dx_step (take 16 sys_all) (send 14 "anyone" "ver-eth" (BEndPoll 1)) = true /\
  dx_step (take 20 sys_all) (send 24 "anyone" "ver-eth" (BEndPoll 1)) = false.
Proof. vm_compute. auto 10. Qed.

(** session 1: begun by the request for a proof; two of three signed *)
Lemma dx_begun_check : begun_check "prover" "multisig" (sys_history (take 26 sys_all)) 30 1 ["alice"; "bob"] = true.
Proof. vm_compute. reflexivity. Qed.
Lemma dx_begun_config : config_of (sys_history (take 26 sys_all)) "prover" 30 = Some (pcfg Abi).
Proof. vm_compute. reflexivity. Qed.
Lemma dx_begun : exists cur dg,
  session_begun ex_keccak ex_wshash ex_sec1 "prover" (pcfg Abi) (sys_history (take 26 sys_all)) 1 cur dg /\
  submitters "multisig" (sys_history (take 26 sys_all)) 1 = ["alice"; "bob"] /\ reached cur ["alice"; "bob"] /\
  lsum sg_weight (members cur) < U256 /\ Forall (fun sg => is_Some (ex_sec1 (pk_bytes (sg_key sg)))) (members cur).
Proof.
  pose proof dx_begun_check as C. pose proof dx_begun_config as L. revert C L.
  generalize (sys_history (take 26 sys_all)) as l. intros l C L.
  destruct (begun_checked _ _ _ _ _ _ _ C L) as (cur & dg & H1 & _ & H2). by exists cur, dg.
Qed.
Lemma dx_signatures :
  dx_step (take 23 sys_all) (send 23 "alice" "multisig" (BSubmitSignature 1 (repeat_char 64 "s"))) = true /\
  dx_step (take 23 sys_all) (send 23 "carol" "multisig" (BSubmitSignature 1 (repeat_char 64 "x"))) = false /\
  dx_step (take 23 sys_all) (send 23 "dave" "multisig" (BSubmitSignature 1 (repeat_char 64 "s"))) = false /\
  dx_step (take 24 sys_all) (send 23 "alice" "multisig" (BSubmitSignature 1 (repeat_char 64 "s"))) = false /\
  dx_step (take 26 sys_all) (send 34 "carol" "multisig" (BSubmitSignature 1 (repeat_char 64 "s"))) = true /\
  dx_step (take 26 sys_all) (send 35 "carol" "multisig" (BSubmitSignature 1 (repeat_char 64 "s"))) = false.
Proof. vm_compute. auto 10. Qed.
Definition dx_proof (txs : list tx) (id : N) : option bool :=
  match system_proof ex_keccak ex_sec1 sys_recover (pcfg Abi) (sys_pair (sys_run txs)) id with
  | Ok resp => Some (match pr_status resp with PfCompleted _ => true | PfPending => false end)
  | _ => None
  end.
Lemma dx_proofs : dx_proof (take 23 sys_all) 1 = Some false /\ dx_proof (take 25 sys_all) 1 = Some false /\
  dx_proof (take 26 sys_all) 1 = Some true.
Proof. vm_compute. auto. Qed.

(** the set with dave waits at the prover; its operators are [dx_next] *)
Definition next_ok (s : pstate) : bool :=
  match pv_next s with
  | Some ws => bool_decide (ask (make_operators ex_keccak ex_sec1 Abi ws) = Some dx_next)
  | None => false
  end.
Lemma dx_next_ok : next_ok (sy_prover (sys_pair (sys_run dx_confirm))) = true.
Proof. vm_compute. reflexivity. Qed.
Definition dx_waiting : Prop := exists s cur ws, pair_state (sys_run dx_confirm) "prover" (pcfg Abi) s /\
  sets_after ex_keccak ex_wshash ex_sec1 (pcfg Abi)
    (prover_trace (slog ex_keccak ex_wshash ex_sec1 ex_crypto (pcfg Abi) "prover" "gov" "rewards" 10
       (signing_ops ex_keccak "prover" (pcfg Abi) (sys_history dx_confirm)))) cur (Some ws) /\
  make_operators ex_keccak ex_sec1 Abi ws = Ok dx_next /\
  dx_step dx_confirm (send 37 "relayer" "prover" (BProver ConfirmWorkerSet)) = true.
Lemma dx_confirm_ok : dx_step dx_confirm (send 37 "relayer" "prover" (BProver ConfirmWorkerSet)) = true.
Proof. vm_compute. reflexivity. Qed.
Lemma waits_generic dep txs P c g r n :
  dep !! P = Some (DProver c) -> dep !! pc_multisig c = Some (DMultisig g r n) ->
  forall s, pair_state (sysrun ex_keccak ex_wshash ex_sec1 ex_crypto dep txs) P c s ->
  sets_after ex_keccak ex_wshash ex_sec1 c
    (prover_trace (slog ex_keccak ex_wshash ex_sec1 ex_crypto c P g r n
       (signing_ops ex_keccak P c (history ex_keccak ex_wshash ex_sec1 ex_crypto dep txs)))) (pv_current (sy_prover s)) (pv_next (sy_prover s)).
Proof.
  intros HP HM s Hs. rewrite (pair_unique _ _ _ _ _ _ _ _ _ _ _ HP HM s Hs). eapply pi_sets, the_pinv.
Qed.
Lemma dx_waits : dx_waiting.
Proof.
  pose proof (waits_generic sys_dep dx_confirm "prover" (pcfg Abi) "gov" "rewards" 10 eq_refl eq_refl _ (sys_pair_state dx_confirm)) as W.
  pose proof (sys_pair_state dx_confirm) as Hp. pose proof dx_next_ok as N. pose proof dx_confirm_ok as O. unfold dx_waiting.
  revert W Hp N O. generalize (sys_pair (sys_run dx_confirm)) as s.
  generalize (sys_run dx_confirm) as st. generalize (sys_history dx_confirm) as l. intros l st s W Hp N O.
  unfold next_ok in N. destruct (pv_next (sy_prover s)) as [ws|]; [|done]. apply bool_decide_eq_true, asked_ok in N.
  exists s, (pv_current (sy_prover s)), ws. done.
Qed.
