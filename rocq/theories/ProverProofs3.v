(** C46 and C47. *)
From stdpp Require Import sorting.
From Verif Require Import Base BaseLemmas MapLemmas Text StdModel StdSpec StdProofs RegistryTypes RouterTypes
  MultisigTypes OperatorsModel MultisigModel EncodingModel EncodingSpec ProverModel ProverSpec ProverProofs
  ProverProofs2.

Section C46.
  Context (keccak : string -> string) (wshash : worker_set -> string)
          (sec1 : string -> option string).
  Notation step := (prover_step keccak wshash sec1).
  Notation run_ := (prun keccak wshash sec1).
  Notation log_ := (plog keccak wshash sec1).
  Notation after := (sets_after keccak wshash sec1).

  Lemma c46_history c ops : after c (log_ c ops) (pv_current (run_ c ops)) (pv_next (run_ c ops)).
  Proof. apply pinv_run. Qed.

  Lemma sets_after_inv c l op out cur next : after c (l ++ [(op, out)]) cur next ->
    (exists ws, after c l None next /\ po_call op = UpdateWorkerSet /\ is_active_set c (po_env op) ws /\
       px_msg out = MsgRegister (pc_multisig c) ws /\ cur = Some ws) \/
    (exists k n ws, after c l (Some k) n /\ may_propose keccak wshash l (po_call op) /\
       is_active_set c (po_env op) ws /\ pc_diff c < differing ws k /\ admits n ws /\ cur = Some k /\ next = Some ws) \/
    (exists k ids, after c l (Some k) next /\ po_call op = ConstructProof ids /\
       (announced l (batch_id keccak wshash ids None) \/
        exists ws, is_active_set c (po_env op) ws /\ differing ws k <= pc_diff c) /\ cur = Some k) \/
    (exists k ws o, after c l k (Some ws) /\ po_call op = ConfirmWorkerSet /\
       make_operators keccak sec1 (pc_encoder c) ws = Ok o /\
       pe_verified (po_env op) (pc_verifier c) o = Some true /\
       px_msg out = MsgRegister (pc_multisig c) ws /\ cur = Some ws /\ next = None).
  Proof.
    intros H. remember (l ++ [(op, out)]) as l' eqn:Hl. destruct H;
      [by destruct l|apply app_inj_tail in Hl as [<- Heq]; injection Heq as -> ->..].
    - left. eauto 10.
    - right; left. eauto 12.
    - right; right; left. eauto 12.
    - right; right; right. eauto 12.
  Qed.

  Lemma sets_after_functional c l cur next : after c l cur next ->
    forall cur' next', after c l cur' next' -> cur' = cur /\ next' = next.
  Proof.
    intros H. induction H as [|l op out next ws H IH Hc Ha Hm|l op out cur next ws H IH Hc Ha Hd Had
      |l op out cur next ids H IH Hc Hk|l op out cur ws o H IH Hc Ho Hv Hm]; intros cur' next' H'.
    - inversion H' as [|l0 ? ? ? ? ? ? ? ? Hl|l0 ? ? ? ? ? ? ? ? ? ? Hl|l0 ? ? ? ? ? ? ? ? Hl|l0 ? ? ? ? ? ? ? ? ? ? Hl];
        try done; exfalso; by destruct l0.
    - apply sets_after_inv in H' as [(w & H' & _ & Ha' & _ & ->)|[(k & n & w & H' & _)|[(k & i & H' & Hc' & _)|(k & w & o & _ & Hc' & _)]]].
      + apply IH in H' as [_ ->]. by rewrite (active_set_unique _ _ _ _ Ha Ha').
      + by apply IH in H' as [? _].
      + congruence.
      + congruence.
    - apply sets_after_inv in H' as [(w & H' & _)|[(k & n & w & H' & _ & Ha' & _ & _ & -> & ->)|[(k & i & H' & Hc' & Hk & ->)|(k & w & o & _ & Hc' & _)]]].
      + by apply IH in H' as [? _].
      + apply IH in H' as [-> _]. by rewrite (active_set_unique _ _ _ _ Ha Ha').
      + apply IH in H' as [[= ->] ->]. rewrite Hc' in Hc. cbn in Hc. destruct Hk as [Hk|(w & Ha' & Hd')]; [done|].
        rewrite (active_set_unique _ _ _ _ Ha' Ha) in Hd'. lia.
      + rewrite Hc' in Hc. done.
    - apply sets_after_inv in H' as [(w & _ & Hc' & _)|[(k & n & w & H' & Hc' & Ha' & Hd' & _ & -> & ->)|[(k & i & H' & Hc' & _ & ->)|(k & w & o & _ & Hc' & _)]]].
      + congruence.
      + apply IH in H' as [[= ->] ->]. rewrite Hc in Hc'. cbn in Hc'. destruct Hk as [Hk|(w' & Ha & Hd)]; [done|].
        rewrite (active_set_unique _ _ _ _ Ha' Ha) in Hd'. lia.
      + by apply IH in H' as [-> ->].
      + congruence.
    - apply sets_after_inv in H' as [(w & _ & Hc' & _)|[(k & n & w & H' & Hc' & _)|[(k & i & H' & Hc' & _ & ->)|(k & w & o' & H' & _ & _ & _ & _ & -> & ->)]]].
      + congruence.
      + rewrite Hc in Hc'. done.
      + congruence.
      + by apply IH in H' as [_ [= ->]].
  Qed.

  (** Only the first [UpdateWorkerSet] and [ConfirmWorkerSet] change the
      current set. *)
  Lemma c46_changes c ops op s' out :
    step c (run_ c ops) op = Ok (s', out) -> query_worker_set s' <> query_worker_set (run_ c ops) ->
    exists ws, query_worker_set s' = Ok ws /\ px_msg out = MsgRegister (pc_multisig c) ws /\
      ((query_worker_set (run_ c ops) = Err PStd /\ po_call op = UpdateWorkerSet /\ is_active_set c (po_env op) ws) \/
       (exists cur o, after c (log_ c ops) cur (Some ws) /\ po_call op = ConfirmWorkerSet /\
          make_operators keccak sec1 (pc_encoder c) ws = Ok o /\
          pe_verified (po_env op) (pc_verifier c) o = Some true)).
  Proof.
    intros H. apply step_effect in H. pose proof (c46_history c ops) as Hh. unfold query_worker_set.
    destruct H as [ws Hcall Hcur Hws|ws o Hcall Hnext Ho Hver|ids cur ms b id out Hcall Hcur Hms Hbb Hask
                   |ids cur ms ws b id s' out Hcall Hcur Hms Hbb Hws Hbuild [Hadm ->] Hask
                   |cur ws b id s' out Hcall Hcur Hws Hsu Hbuild [Hadm ->] Hask]; cbn; intros Hne; try done.
    - exists ws. split; [done|]. split; [done|]. left. rewrite Hcur. split; [done|]. split; [done|].
      by apply make_worker_set_active.
    - exists ws. split; [done|]. split; [done|]. right. rewrite Hnext in Hh. eauto 10.
  Qed.

  Lemma c46_confirm c ops env cur next :
    after c (log_ c ops) cur next ->
    (is_ok (prover_execute keccak wshash sec1 c env (run_ c ops) ConfirmWorkerSet) = true <->
     exists ws o, next = Some ws /\ make_operators keccak sec1 (pc_encoder c) ws = Ok o /\
       pe_verified env (pc_verifier c) o = Some true) /\
    (forall s' m, prover_execute keccak wshash sec1 c env (run_ c ops) ConfirmWorkerSet = Ok (s', m) ->
       query_worker_set s' = of_option PStd next /\
       is_ok (prover_execute keccak wshash sec1 c env s' ConfirmWorkerSet) = false).
  Proof.
    intros H. destruct (sets_after_functional _ _ _ _ H _ _ (c46_history c ops)) as [_ Hn].
    cbn [prover_execute]. unfold confirm_worker_set. rewrite Hn. split; [split|].
    - destruct next as [ws|]; [|done]. cbn [of_option rbind].
      destruct (make_operators keccak sec1 (pc_encoder c) ws) as [o| |] eqn:Ho; [|done..]. cbn.
      destruct (pe_verified env (pc_verifier c) o) as [[]|] eqn:Hv; [|done..]. intros _. eauto.
    - intros (ws & o & -> & Ho & Hv). cbn. rewrite Ho. cbn. rewrite Hv. done.
    - intros s' m Hs. res_inv. rewrite Hv in *. subst. split; reflexivity.
  Qed.

  (** ** A set that waits was proposed *)
  Notation proposal := (proposal keccak wshash sec1).
  Lemma build_transfer c ws ms b :
    build_batch keccak wshash sec1 (pc_chain_id c) (pc_encoder c) (Some ws) ms = Ok b ->
    exists t rest, make_transfer keccak wshash sec1 (pc_encoder c) ws = Ok t /\
      d_commands (b_data b) = t :: rest /\ d_chain (b_data b) = pc_chain_id c /\
      b_encoder b = pc_encoder c /\ b_ids b = m_cc <$> ms /\
      b_id b = batch_id keccak wshash (m_cc <$> ms) (Some ws).
  Proof.
    unfold build_batch. intros H. apply rbind_ok in H as (cs & Hcs & H). apply rbind_ok in Hcs as (t & Ht & Hcs).
    injection Hcs as <-. apply rbind_ok in H as (r & Hr & H). injection H as <-. cbn.
    exists t, r. done.
  Qed.

  Lemma waiting_proposed c ops ws : pv_next (run_ c ops) = Some ws ->
    exists l1 e l2, log_ c ops = l1 ++ e :: l2 /\ proposal c l1 e ws /\
      Forall (fun x => po_call x.1 <> ConfirmWorkerSet) l2.
  Proof.
    enough (pinv keccak wshash sec1 c (run_ c ops) (log_ c ops) /\
      forall ws, pv_next (run_ c ops) = Some ws ->
      exists l1 e l2, log_ c ops = l1 ++ e :: l2 /\ proposal c l1 e ws /\
        Forall (fun x => po_call x.1 <> ConfirmWorkerSet) l2) as [_ ?] by auto.
    unfold prun, plog.
    apply (run_log_inv (step c) (fun s l => pinv keccak wshash sec1 c s l /\ forall ws, pv_next s = Some ws ->
      exists l1 e l2, l = l1 ++ e :: l2 /\ proposal c l1 e ws /\
        Forall (fun x => po_call x.1 <> ConfirmWorkerSet) l2)).
    - split; [apply (pinv_run keccak wshash sec1 c [])|done].
    - clear ops ws. intros s l op s' out [Hi IH] Hs. apply step_effect in Hs.
      split; [by eapply effect_inv|]. destruct Hi as [Hsets [Hkc Hkn] Hb Hm].
      assert (forall ws, pv_next s = Some ws -> po_call op <> ConfirmWorkerSet ->
        exists l1 e l2, l ++ [(op, out)] = l1 ++ e :: l2 /\ proposal c l1 e ws /\
        Forall (fun x => po_call x.1 <> ConfirmWorkerSet) l2) as Hold.
      { intros ws Hw Hne. destruct (IH ws Hw) as (l1 & e & l2 & -> & Hp & Hf).
        exists l1, e, (l2 ++ [(op, out)]). rewrite <- app_assoc. split; [done|]. split; [done|].
        apply Forall_app. split; [done|]. by constructor. }
      destruct Hs as [ws Hcall Hcur Hws|ws o Hcall Hnext Ho Hver|ids cur ms b id out Hcall Hcur Hms Hbb Hask
                   |ids cur ms ws b id s' out Hcall Hcur Hms Hbb Hws Hbuild [Hadm ->] Hask
                   |cur ws b id s' out Hcall Hcur Hws Hsu Hbuild [Hadm ->] Hask]; cbn.
      + intros w Hw. apply Hold; [done|]. by rewrite Hcall.
      + done.
      + intros w Hw. apply Hold; [done|]. by rewrite Hcall.
      + intros w Hw. destruct (proposed c ws cur) as [w'|] eqn:Hp.
        * injection Hw as ->. apply proposed_some in Hp as [-> Hsu].
          exists l, (op, out), []. split; [done|]. split; [|constructor].
          pose proof (make_worker_set_active _ _ _ Hws) as Ha.
          apply should_update_iff in Hsu; [|by eapply active_keyed|by apply Hkc].
          destruct (build_transfer _ _ _ _ Hbuild) as (t & rest & Ht & Hd & Hch & _).
          exists cur, (pv_next s), b, id, t, rest. rewrite Hcur in Hsets. split_and!; try done. by apply Hadm.
        * apply Hold; [done|]. by rewrite Hcall.
      + intros w [= <-]. exists l, (op, out), []. split; [done|]. split; [|constructor].
        pose proof (make_worker_set_active _ _ _ Hws) as Ha.
        apply should_update_iff in Hsu; [|by eapply active_keyed|by apply Hkc].
        destruct (build_transfer _ _ _ _ Hbuild) as (t & rest & Ht & Hd & Hch & _).
        exists cur, (pv_next s), b, id, t, rest. rewrite Hcur in Hsets. split_and!; try done. by apply Hadm.
  Qed.

  (** A confirmed set was proposed by an earlier call, no other set was
      confirmed since, and the then current set was asked to sign the
      transfer to it. *)
  Lemma c46_proposed c ops l1 op out l2 :
    log_ c ops = l1 ++ (op, out) :: l2 -> po_call op = ConfirmWorkerSet ->
    exists ws la e lb, px_msg out = MsgRegister (pc_multisig c) ws /\
      l1 = la ++ e :: lb /\ proposal c la e ws /\
      Forall (fun x => po_call x.1 <> ConfirmWorkerSet) lb.
  Proof.
    intros Hl Hc. apply log_split in Hl as (ops1 & ops2 & s' & -> & <- & Hs & _).
    apply step_effect in Hs. inversion Hs; try congruence; subst. cbn.
    destruct (waiting_proposed c ops1 ws) as (la & e & lb & Hl & Hp & Hf); [done|].
    exists ws, la, e, lb. done.
  Qed.

  (** ** C47 *)
  Lemma after_keyed c ops : (forall ws, pv_current (run_ c ops) = Some ws -> keyed ws).
  Proof. apply (pinv_run keccak wshash sec1 c ops). Qed.

  Lemma announced_iff c ops bid : announced (log_ c ops) bid <-> is_Some (pv_batches (run_ c ops) !! bid).
  Proof. symmetry. apply (pi_batches _ _ _ _ _ _ (pinv_run keccak wshash sec1 c ops)). Qed.

  Lemma c47_update c ops env cur next ws :
    sensible c env -> after c (log_ c ops) (Some cur) next -> is_active_set c env ws ->
    let r := prover_execute keccak wshash sec1 c env (run_ c ops) UpdateWorkerSet in
    (differing ws cur <= pc_diff c -> r = Err WorkerSetUnchanged) /\
    (pc_diff c < differing ws cur -> ~ admits next ws -> r = Err WorkerSetConfirmationInProgress) /\
    (pc_diff c < differing ws cur -> admits next ws ->
     forall b digest, build_batch keccak wshash sec1 (pc_chain_id c) (pc_encoder c) (Some ws) [] = Ok b ->
       msg_digest keccak b = Ok digest ->
       r = Ok (with_batch (run_ c ops) (Some ws) b,
               MsgStart (pc_multisig c) (to_hex (wshash cur)) digest (pc_chain c))).
  Proof.
    intros Hs H Ha r. destruct (sets_after_functional _ _ _ _ H _ _ (c46_history c ops)) as [Hc Hn].
    assert (keyed ws) as Hkw by (by eapply active_keyed).
    pose proof (after_keyed c ops _ Hc) as Hkc.
    apply (make_worker_set_iff _ _ _ Hs) in Ha.
    unfold r. cbn [prover_execute]. unfold update_worker_set, get_next_worker_set. rewrite Hc.
    rewrite Ha. cbn [rbind]. split; [|split].
    - intros Hd. apply should_update_false in Hd; [|done..]. by rewrite Hd.
    - intros Hd Hna. apply should_update_iff in Hd; [|done..]. rewrite Hd. cbn [of_option rbind].
      unfold save_next. destruct (different_in_progress (run_ c ops) ws) eqn:He; [done|].
      apply different_iff in He. by rewrite Hn in He.
    - intros Hd Hna b digest Hb Hdg. apply should_update_iff in Hd; [|done..]. rewrite Hd. cbn [of_option rbind].
      unfold save_next. rewrite <- Hn in Hna. apply different_iff in Hna. rewrite Hna. cbn [rbind].
      rewrite Hb. cbn [rbind]. rewrite Hdg. cbn [rbind]. unfold with_batch, set_reply, set_batches. cbn. done.
  Qed.

  Lemma c47_construct c ops env cur next ws ids ms :
    sensible c env -> after c (log_ c ops) (Some cur) next -> is_active_set c env ws ->
    pe_messages env (pc_gateway c) ids = Some ms -> length ms = length ids ->
    Forall (fun m => m_dchain m = pc_chain c) ms ->
    ~ announced (log_ c ops) (batch_id keccak wshash ids None) ->
    let r := prover_execute keccak wshash sec1 c env (run_ c ops) (ConstructProof ids) in
    (pc_diff c < differing ws cur -> ~ admits next ws -> r = Err WorkerSetConfirmationInProgress) /\
    (forall new, (differing ws cur <= pc_diff c /\ new = None) \/
       (pc_diff c < differing ws cur /\ admits next ws /\ new = Some ws) ->
     forall b digest, build_batch keccak wshash sec1 (pc_chain_id c) (pc_encoder c) new ms = Ok b ->
       msg_digest keccak b = Ok digest ->
       r = Ok (with_batch (run_ c ops) new b,
               MsgStart (pc_multisig c) (to_hex (wshash cur)) digest (pc_chain c))).
  Proof.
    intros Hs H Ha Hq Hlen Hch Hann r. destruct (sets_after_functional _ _ _ _ H _ _ (c46_history c ops)) as [Hc Hn].
    assert (keyed ws) as Hkw by (by eapply active_keyed).
    pose proof (after_keyed c ops _ Hc) as Hkc.
    apply (make_worker_set_iff _ _ _ Hs) in Ha.
    assert (get_messages c env ids = Ok ms) as Hg by (by apply get_messages_ok).
    assert (pv_batches (run_ c ops) !! batch_id keccak wshash ids None = None) as Hnone.
    { destruct (pv_batches (run_ c ops) !! _) eqn:E; [|done]. destruct Hann. apply announced_iff. by eexists. }
    unfold r. cbn [prover_execute]. unfold construct_proof, find_batch, get_next_worker_set. rewrite Hc, Hg, Hnone, Ha.
    cbn [rbind]. split.
    - intros Hd Hna. apply should_update_iff in Hd; [|done..]. rewrite Hd. cbn [rbind].
      unfold save_next. destruct (different_in_progress (run_ c ops) ws) eqn:He; [done|].
      apply different_iff in He. by rewrite Hn in He.
    - intros new [[Hd ->]|(Hd & Hna & ->)] b digest Hb Hdg.
      + apply should_update_false in Hd; [|done..]. rewrite Hd. cbn [rbind]. rewrite Hb. cbn [rbind].
        cbn. rewrite Hc. cbn. rewrite Hdg. cbn. unfold with_batch, set_reply, set_batches. cbn. by rewrite Hc.
      + apply should_update_iff in Hd; [|done..]. rewrite Hd. cbn [of_option rbind].
        unfold save_next. rewrite <- Hn in Hna. apply different_iff in Hna. rewrite Hna. cbn [rbind].
        rewrite Hb. cbn [rbind]. cbn. rewrite Hc. cbn. rewrite Hdg. cbn. unfold with_batch, set_reply, set_batches. cbn. by rewrite Hc.
  Qed.

  (** A waiting set stays the waiting one until it is confirmed. *)
  Lemma c47_waits c l l' cur ws cur' next' :
    after c l cur (Some ws) -> after c (l ++ l') cur' next' ->
    Forall (fun x => po_call x.1 <> ConfirmWorkerSet) l' ->
    exists ws', next' = Some ws' /\ same_set ws ws'.
  Proof.
    intros H. revert cur' next'. induction l' as [|[op out] l' IH] using rev_ind; intros cur' next' H' Hf.
    - rewrite app_nil_r in H'. destruct (sets_after_functional _ _ _ _ H _ _ H') as [_ ->]. by eexists.
    - rewrite app_assoc in H'. apply Forall_app in Hf as [Hf Hc]. apply Forall_inv in Hc. cbn in Hc.
      apply sets_after_inv in H' as [(w & H' & _)|[(k & n & w & H' & _ & _ & _ & Had & -> & ->)|[(k & i & H' & _)|(k & w & o & _ & Hc' & _)]]].
      + by eapply IH.
      + destruct (IH _ _ H' Hf) as (w' & -> & [H1 H2]). cbn in Had. destruct Had as [H3 H4].
        exists w. split; [done|]. split; congruence.
      + by eapply IH.
      + congruence.
  Qed.

End C46.

  Lemma c47_same_zero a b : differing a b = 0 <-> ws_signers a = ws_signers b.
  Proof.
    unfold differing. split.
    - intros H. apply map_eq. intros k.
      destruct (decide (k ∈ elements (dom (ws_signers a) ∪ dom (ws_signers b)))) as [Hk|Hk].
      + pose proof (lsum_elem_le (fun k => if bool_decide (ws_signers a !! k = ws_signers b !! k) then 0
           else side (ws_signers a !! k) + side (ws_signers b !! k)) _ _ Hk) as Hz.
        rewrite H in Hz. cbv beta in Hz.
        case_bool_decide; [done|]. destruct (ws_signers a !! k), (ws_signers b !! k); cbn in *; try lia; done.
      + rewrite elem_of_elements, elem_of_union, !elem_of_dom in Hk.
        destruct (ws_signers a !! k); [exfalso; apply Hk; left; by eexists|].
        destruct (ws_signers b !! k); [exfalso; apply Hk; right; by eexists|]. done.
    - intros ->. rewrite (lsum_ext _ (fun _ => 0)); [rewrite lsum_const; lia|].
      intros k _. by rewrite bool_decide_eq_true_2.
  Qed.

  (** When nobody's entry changed, the number of addresses on exactly one
      side. *)
  Lemma c47_members a b :
    (forall k x y, ws_signers a !! k = Some x -> ws_signers b !! k = Some y -> x = y) ->
    differing a b = N.of_nat (size ((dom (ws_signers a) ∖ dom (ws_signers b)) ∪ (dom (ws_signers b) ∖ dom (ws_signers a)))).
  Proof.
    intros Heq. unfold differing.
    set (X := dom (ws_signers a) ∪ dom (ws_signers b)).
    set (Y := _ ∪ _ : gset addr).
    assert (Y ⊆ X) as HYX by set_solver.
    rewrite (lsum_perm _ (elements X) (elements Y ++ elements (X ∖ Y))).
    2:{ rewrite <- elements_disj_union by set_solver. f_equiv. intros k. destruct (decide (k ∈ Y)); set_solver. }
    rewrite lsum_app, (lsum_ext _ (fun _ => 1)), lsum_const, (lsum_ext _ (fun _ => 0)), lsum_const.
    - change (length (elements Y)) with (size Y). lia.
    - intros k Hk%elem_of_elements. case_bool_decide as Hn; [done|]. exfalso. apply Hn.
      assert (k ∈ dom (ws_signers a) /\ k ∈ dom (ws_signers b)) as [[x Hx]%elem_of_dom [y Hy]%elem_of_dom].
      { unfold Y, X in Hk. destruct (decide (k ∈ dom (ws_signers a))), (decide (k ∈ dom (ws_signers b))); set_solver. }
      rewrite Hx, Hy. f_equal. by eapply Heq.
    - intros k Hk%elem_of_elements. unfold Y in Hk.
      assert ((is_Some (ws_signers a !! k) /\ ws_signers b !! k = None) \/
              (is_Some (ws_signers b !! k) /\ ws_signers a !! k = None)) as [[[x Hx] Hy]|[[y Hy] Hx]].
      { rewrite <- !not_elem_of_dom, <- !elem_of_dom. set_solver. }
      + rewrite Hx, Hy. by rewrite bool_decide_eq_false_2.
      + rewrite Hx, Hy. by rewrite bool_decide_eq_false_2.
  Qed.
