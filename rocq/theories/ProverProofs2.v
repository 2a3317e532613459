(** What an accepted call does, and the invariants of a history. *)
From stdpp Require Import sorting.
From Verif Require Import Base BaseLemmas MapLemmas Text StdModel StdSpec StdProofs RegistryTypes RouterTypes
  MultisigTypes OperatorsModel MultisigModel EncodingModel EncodingSpec ProverModel ProverSpec ProverProofs.

Section Effects.
  Context (keccak : string -> string) (wshash : worker_set -> string)
          (sec1 : string -> option string).
  Notation step := (prover_step keccak wshash sec1).

  Definition proposed (c : pconfig) (ws cur : worker_set) : option worker_set :=
    if should_update ws cur (pc_diff c) then Some ws else None.

  (** A batch is made and stored; [new] is the set it proposes, if any. *)
  Definition stores (c : pconfig) (s : pstate) (new : option worker_set) (b : batch) (id : N) (s' : pstate) : Prop :=
    (forall ws, new = Some ws -> admits (pv_next s) ws) /\
    s' = {| pv_batches := <[b_id b := b]> (pv_batches s); pv_sessions := <[id := b_id b]> (pv_sessions s);
            pv_reply := Some (b_id b); pv_current := pv_current s;
            pv_next := match new with Some ws => Some ws | None => pv_next s end |}.

  Inductive effect (c : pconfig) (s : pstate) (op : pop) : pstate -> pout -> Prop :=
  | eff_first ws :
      po_call op = UpdateWorkerSet -> pv_current s = None -> make_worker_set c (po_env op) = Ok ws ->
      effect c s op (set_sets s (Some ws) (pv_next s))
        {| px_msg := MsgRegister (pc_multisig c) ws; px_event := None |}
  | eff_confirm ws o :
      po_call op = ConfirmWorkerSet -> pv_next s = Some ws ->
      make_operators keccak sec1 (pc_encoder c) ws = Ok o ->
      pe_verified (po_env op) (pc_verifier c) o = Some true ->
      effect c s op (set_sets s (Some ws) None)
        {| px_msg := MsgRegister (pc_multisig c) ws; px_event := None |}
  | eff_cached ids cur ms b id out :
      po_call op = ConstructProof ids -> pv_current s = Some cur ->
      get_messages c (po_env op) ids = Ok ms ->
      pv_batches s !! batch_id keccak wshash ids None = Some b ->
      asks_to_sign keccak wshash c out cur b id ->
      effect c s op (set_session (set_reply s (b_id b)) id (b_id b)) out
  | eff_fresh ids cur ms ws b id s' out :
      po_call op = ConstructProof ids -> pv_current s = Some cur ->
      get_messages c (po_env op) ids = Ok ms ->
      pv_batches s !! batch_id keccak wshash ids None = None ->
      make_worker_set c (po_env op) = Ok ws ->
      build_batch keccak wshash sec1 (pc_chain_id c) (pc_encoder c) (proposed c ws cur) ms = Ok b ->
      stores c s (proposed c ws cur) b id s' -> asks_to_sign keccak wshash c out cur b id ->
      effect c s op s' out
  | eff_update cur ws b id s' out :
      po_call op = UpdateWorkerSet -> pv_current s = Some cur ->
      make_worker_set c (po_env op) = Ok ws -> should_update ws cur (pc_diff c) = true ->
      build_batch keccak wshash sec1 (pc_chain_id c) (pc_encoder c) (Some ws) [] = Ok b ->
      stores c s (Some ws) b id s' -> asks_to_sign keccak wshash c out cur b id ->
      effect c s op s' out.

  Lemma save_next_ok s ws s' : save_next s ws = Ok s' <->
    admits (pv_next s) ws /\ s' = set_sets s (pv_current s) (Some ws).
  Proof.
    unfold save_next. rewrite <- different_iff. destruct (different_in_progress s ws); [naive_solver|].
    split; [intros [= <-]; done|]. by intros [_ ->].
  Qed.

  Lemma step_effect c s op s' out : step c s op = Ok (s', out) -> effect c s op s' out.
  Proof.
    destruct op as [call env ans]. unfold prover_step. cbn [po_call po_env po_multisig]. intros H.
    apply rbind_ok in H as ([s1 m] & He & H). apply rbind_ok in H as (d & Hd & H). apply of_option_ok in Hd.
    destruct call as [ids| |]; cbn [prover_execute] in He.
    - unfold construct_proof in He. apply rbind_ok in He as (ms & Hms & He).
      apply rbind_ok in He as ([s2 b] & Hf & He). res_inv. cbn in Hv.
      subst. unfold prover_reply in H. cbn [set_reply pv_reply of_option rbind] in H.
      destruct d as [id|]; [|done]. cbn in H. injection H as <- <-.
      unfold find_batch in Hf. destruct (pv_batches s !! _) as [b'|] eqn:Hb.
      + injection Hf as <- <-. eapply eff_cached; try done.
        exists v0. done.
      + apply rbind_ok in Hf as (new & Hn & Hf). unfold get_next_worker_set in Hn.
        apply rbind_ok in Hn as (ws & Hws & Hn). destruct (pv_current s) as [cur|] eqn:Hcur; [|done].
        injection Hn as <-. apply rbind_ok in Hf as (s3 & Hs3 & Hf). apply rbind_ok in Hf as (b1 & Hb1 & Hf).
        injection Hf as <- <-.
        assert (pv_current s3 = Some cur /\ pv_batches s3 = pv_batches s /\ pv_sessions s3 = pv_sessions s) as (Hc3 & Hb3 & Hss3).
        { destruct (should_update ws cur (pc_diff c)).
          - apply save_next_ok in Hs3 as [_ ->]. done.
          - injection Hs3 as <-. done. }
        cbn in Hv. rewrite Hc3 in Hv. injection Hv as <-.
        eapply (eff_fresh c s _ ids cur ms ws b1 id); try done.
        * split.
          -- intros w Hw. unfold proposed in Hw. destruct (should_update ws cur (pc_diff c)); [|done].
             injection Hw as <-. by apply save_next_ok in Hs3 as [? _].
          -- unfold set_session, set_reply, set_batches. cbn. rewrite Hb3, Hss3, Hc3, Hcur.
             f_equal. unfold proposed. destruct (should_update ws cur (pc_diff c)).
             ++ apply save_next_ok in Hs3 as [_ ->]. done.
             ++ by injection Hs3 as <-.
        * exists v0. done.
    - unfold update_worker_set in He. destruct (pv_current s) as [cur|] eqn:Hcur.
      + unfold get_next_worker_set in He. rewrite Hcur in He. res_inv. rewrite Hv0 in Hv. clear Hv0.
        destruct (should_update v4 cur (pc_diff c)) eqn:Hsu; [|done]. injection Hv as <-.
        subst. unfold prover_reply in H. cbn [set_reply pv_reply of_option rbind] in H.
        destruct d as [id|]; [|done]. cbn in H. injection H as <- <-.
        apply save_next_ok in Hv1 as [Ha ->].
        eapply eff_update; try done.
        * split; [intros w [= <-]; done|]. unfold set_session, set_reply, set_batches. cbn.
          by rewrite Hcur.
        * exists v3. done.
      + res_inv. subst. cbn in H. injection H as <- <-.
        by apply eff_first.
    - unfold confirm_worker_set in He. res_inv. subst. injection H as <- <-.
      by eapply eff_confirm.
  Qed.

  (** ** Invariants *)
  Definition made (c : pconfig) (b : batch) : Prop :=
    exists new ms, build_batch keccak wshash sec1 (pc_chain_id c) (pc_encoder c) new ms = Ok b /\
      Forall (fun m => m_dchain m = pc_chain c) ms.

  Record pinv (c : pconfig) (s : pstate) (l : list (pop * pout)) : Prop := {
    pi_sets : sets_after keccak wshash sec1 c l (pv_current s) (pv_next s);
    pi_keyed : (forall ws, pv_current s = Some ws -> keyed ws) /\ (forall ws, pv_next s = Some ws -> keyed ws);
    pi_batches : forall bid, is_Some (pv_batches s !! bid) <-> announced l bid;
    pi_made : forall bid b, pv_batches s !! bid = Some b -> b_id b = bid /\ made c b;
  }.

  Lemma announced_app l e bid : announced (l ++ [e]) bid <-> announced l bid \/ exists id, px_event e.2 = Some (bid, id).
  Proof.
    unfold announced. split.
    - intros (x & id & [Hx| ->%elem_of_list_singleton]%elem_of_app & Hid); [left; eauto|right; eauto].
    - intros [(x & id & Hx & Hid)|[id Hid]].
      + exists x, id. split; [apply elem_of_app; by left|done].
      + exists e, id. split; [apply elem_of_app; right; by left|done].
  Qed.

  Lemma get_messages_ok c env ids ms : get_messages c env ids = Ok ms <->
    pe_messages env (pc_gateway c) ids = Some ms /\ length ms = length ids /\
    Forall (fun m => m_dchain m = pc_chain c) ms.
  Proof.
    unfold get_messages. split.
    - intros H. res_inv. destruct (length v =? length ids)%nat eqn:Hl; [|done]. cbn in H.
      destruct (existsb _ v) eqn:He; [done|]. injection H as <-. split; [done|]. split; [lia|].
      apply Forall_forall. intros m Hm. apply elem_of_list_In in Hm.
      destruct (m_dchain m =? pc_chain c)%string eqn:E; [by apply String.eqb_eq|].
      exfalso. assert (existsb (fun m => negb (m_dchain m =? pc_chain c)%string) v = true); [|congruence].
      apply existsb_exists. exists m. by rewrite E.
    - intros (Hm & Hl & Hf). rewrite Hm. cbn. rewrite Hl, Nat.eqb_refl. cbn.
      destruct (existsb _ ms) eqn:He; [exfalso|done]. apply existsb_exists in He as (m & Hin & Hne).
      rewrite Forall_forall in Hf. apply elem_of_list_In, Hf in Hin. rewrite Hin, String.eqb_refl in Hne. done.
  Qed.

  Lemma proposed_some c ws cur w : proposed c ws cur = Some w -> w = ws /\ should_update ws cur (pc_diff c) = true.
  Proof. unfold proposed. destruct (should_update ws cur (pc_diff c)); [|done]. by intros [= ->]. Qed.

  Lemma effect_inv c s op s' out l : pinv c s l -> effect c s op s' out -> pinv c s' (l ++ [(op, out)]).
  Proof.
    intros [Hsets [Hkc Hkn] Hb Hm] He.
    destruct He as [ws Hcall Hcur Hws|ws o Hcall Hnext Ho Hver|ids cur ms b id out Hcall Hcur Hms Hbb Hask
                   |ids cur ms ws b id s' out Hcall Hcur Hms Hbb Hws Hbuild [Hadm ->] Hask
                   |cur ws b id s' out Hcall Hcur Hws Hsu Hbuild [Hadm ->] Hask].
    - pose proof (make_worker_set_active _ _ _ Hws) as Ha. split; cbn.
      + rewrite Hcur in Hsets. eapply sets_first; try done.
      + split; [|done]. intros w [= <-]. by eapply active_keyed.
      + intros bid. rewrite announced_app, Hb. split; [by left|]. intros [?|[? ?]]; done.
      + done.
    - split; cbn.
      + rewrite Hnext in Hsets. eapply sets_confirm; try done.
      + split; [|done]. intros w [= <-]. by apply Hkn.
      + intros bid. rewrite announced_app, Hb. split; [by left|]. intros [?|[? ?]]; done.
      + done.
    - destruct (Hm _ _ Hbb) as [Hid _]. destruct Hask as (dg & _ & _ & Hev). split; cbn.
      + rewrite Hcur in *. eapply sets_keep; try done. left. apply Hb. by eexists.
      + done.
      + intros bid. rewrite announced_app, Hb. split; [by left|]. intros [?|[i Hi]]; [done|].
        cbn in Hi. rewrite Hev in Hi. injection Hi as <- <-. apply Hb. rewrite Hid. by eexists.
      + done.
    - pose proof (make_worker_set_active _ _ _ Hws) as Ha. pose proof (active_keyed _ _ _ Ha) as Hkw.
      destruct Hask as (dg & _ & _ & Hev). pose proof (Hkc _ Hcur) as Hkcur.
      assert (~ announced l (batch_id keccak wshash ids None)) as Hna.
      { rewrite <- Hb, Hbb. by intros [? ?]. }
      split; cbn.
      + rewrite Hcur in *. destruct (proposed c ws cur) as [w|] eqn:Hp.
        * apply proposed_some in Hp as [-> Hsu]. apply should_update_iff in Hsu; [|done..].
          eapply sets_propose; try done; [by rewrite Hcall|by apply Hadm].
        * unfold proposed in Hp. destruct (should_update ws cur (pc_diff c)) eqn:Hsu; [done|].
          apply should_update_false in Hsu; [|done..].
          eapply sets_keep; try done. right. eauto.
      + split; [done|]. destruct (proposed c ws cur) as [w|] eqn:Hp; [|done].
        apply proposed_some in Hp as [-> Hsu]. intros w [= <-]. done.
      + intros bid. rewrite announced_app, <- Hb. cbn. rewrite Hev. destruct (decide (b_id b = bid)) as [<-|Hne].
        * rewrite lookup_insert. split; [intros _; right; by eexists|intros _; by eexists].
        * rewrite lookup_insert_ne by done. split; [by left|]. intros [?|[? Heq]]; [done|congruence].
      + intros bid b'. destruct (decide (b_id b = bid)) as [<-|Hne].
        * rewrite lookup_insert. intros [= <-]. split; [done|]. exists (proposed c ws cur), ms.
          split; [done|]. by apply get_messages_ok in Hms as (_ & _ & ?).
        * rewrite lookup_insert_ne by done. apply Hm.
    - pose proof (make_worker_set_active _ _ _ Hws) as Ha. pose proof (active_keyed _ _ _ Ha) as Hkw.
      destruct Hask as (dg & _ & _ & Hev). pose proof (Hkc _ Hcur) as Hkcur.
      apply should_update_iff in Hsu; [|done..]. split; cbn.
      + rewrite Hcur in *. eapply sets_propose; try done; [by rewrite Hcall|by apply Hadm].
      + split; [done|]. intros w [= <-]. done.
      + intros bid. rewrite announced_app, <- Hb. cbn. rewrite Hev. destruct (decide (b_id b = bid)) as [<-|Hne].
        * rewrite lookup_insert. split; [intros _; right; by eexists|intros _; by eexists].
        * rewrite lookup_insert_ne by done. split; [by left|]. intros [?|[? Heq]]; [done|congruence].
      + intros bid b'. destruct (decide (b_id b = bid)) as [<-|Hne].
        * rewrite lookup_insert. intros [= <-]. split; [done|]. exists (Some ws), []. done.
        * rewrite lookup_insert_ne by done. apply Hm.
  Qed.

  Lemma pinv_run c ops : pinv c (prun keccak wshash sec1 c ops) (plog keccak wshash sec1 c ops).
  Proof.
    unfold prun, plog. apply (run_log_inv (step c) (pinv c)).
    - split; cbn; try done; [constructor|].
      intros bid. rewrite lookup_empty. split; [by intros [? ?]|]. intros (? & ? & H & _). by apply elem_of_nil in H.
    - intros s l op s' out Hi Hs. eapply effect_inv; [done|]. by apply step_effect.
  Qed.
End Effects.
