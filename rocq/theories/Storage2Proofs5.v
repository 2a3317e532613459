(** The prover over bytes. *)
From Verif Require Import Base BaseLemmas Text TextLemmas StdModel StdProofs EncodingModel EncodingProofs.
From Verif Require Import RouterTypes RegistryTypes MultisigTypes OperatorsModel MultisigModel ProverModel.
From Verif Require Import StorageModel StorageSpec StorageProofs StorageProofs2 StorageProofs3 StorageProofs4 StorageProofs5.
From Verif Require Import Storage2Model Storage2Spec Storage2Proofs Storage2Proofs2.

Section Prover.
  Context (keccak : string -> string) (wshash : worker_set -> string)
          (sec1 : string -> option string) (recover : string -> string -> string -> option N) (c : pconfig).
  Notation pr_holds := (holds pr_ok pr_place (pr_cell c)).

  Lemma prover_keeps op : keeps prover_layout (prover_prog keccak wshash sec1 op).
  Proof.
    unfold prover_prog, x_construct, x_update, x_confirm, x_reply, x_find, x_next_set, x_save_next, x_batch, x_need,
      x_current, x_config, no_std. keep.
  Qed.

  Section Read.
    Context (t : gmap skey prval) (s : pstate) (Hh : pr_holds t s).
    Lemma xr_config : ideal x_config t = Ok (t, c).
    Proof using Hh.
      unfold x_config. rewrite ideal_get by done.
      by rewrite (h_at _ _ _ _ _ Hh PrConfig I : t !! PR_CONFIG = Some (QvConfig c)).
    Qed.
    Lemma xr_current : ideal x_current t = Ok (t, pv_current s).
    Proof using Hh.
      unfold x_current. rewrite ideal_get by done.
      rewrite (h_at _ _ _ _ _ Hh PrCurrent I : t !! PR_CURRENT = QvSet <$> pv_current s). by destruct (pv_current s).
    Qed.
    Lemma xr_batch id : ideal (x_batch id) t = Ok (t, pv_batches s !! id).
    Proof using Hh.
      unfold x_batch. rewrite ideal_get by constructor.
      rewrite (h_at _ _ _ _ _ Hh (PrBatch id) I : t !! pr_batch_key id = QvBatch <$> pv_batches s !! id).
      by destruct (pv_batches s !! id).
    Qed.
    Lemma xr_next_set env :
      ideal (x_next_set c env) t = let? o := map_err SOwn (get_next_worker_set c env s) in Ok (t, o).
    Proof using Hh.
      unfold x_next_set, get_next_worker_set. rewrite ideal_bind, xr_current. cbn [rbind fst snd].
      rewrite ideal_bind, ideal_own. destruct (make_worker_set c env) as [new|e|]; cbn [map_err rbind fst snd]; [|done..].
      by destruct (pv_current s).
    Qed.
    Lemma xr_put_next new : pr_holds (<[PR_NEXT := QvSet new]> t) (set_sets s (pv_current s) (Some new)).
    Proof using Hh.
      apply (holds_put _ _ _ pr_inj t s _ PrNext); [done|done|done|]. by intros [] Hne.
    Qed.
    Lemma xr_save_next new :
      match save_next s new with
      | Ok s' => exists t', ideal (x_save_next new) t = Ok (t', tt) /\ pr_holds t' s'
      | Err e => ideal (x_save_next new) t = Err (SOwn e)
      | Panic => ideal (x_save_next new) t = Panic
      end.
    Proof using Hh.
      unfold save_next, x_save_next, different_in_progress. rewrite ideal_get by done. cbv zeta.
      rewrite (h_at _ _ _ _ _ Hh PrNext I : t !! PR_NEXT = QvSet <$> pv_next s).
      destruct (pv_next s) as [next|]; cbn [fmap option_fmap option_map].
      - destruct (_ || _); [done|]. rewrite ideal_put by done. cbn [ideal]. eexists. split; [done|]. apply xr_put_next.
      - rewrite ideal_put by done. cbn [ideal]. eexists. split; [done|]. apply xr_put_next.
    Qed.
    Lemma xr_put_batch b :
      pr_holds (<[pr_batch_key (b_id b) := QvBatch b]> t) (set_batches s (<[b_id b := b]> (pv_batches s))).
    Proof using Hh.
      apply (holds_put _ _ _ pr_inj t s _ (PrBatch (b_id b))); [done|done| |].
      - cbn [pr_cell set_batches pv_batches]. by rewrite lookup_insert.
      - intros [] Hne; cbn [pr_cell set_batches pv_batches pv_sessions pv_reply pv_current pv_next]; try done.
        rewrite lookup_insert_ne; [done|congruence].
    Qed.
    Lemma xr_put_reply b : pr_holds (<[PR_REPLY := QvReply b]> t) (set_reply s b).
    Proof using Hh. apply (holds_put _ _ _ pr_inj t s _ PrReply); [done|done|done|]. by intros [] Hne. Qed.
    Lemma xr_put_current ws : pr_holds (<[PR_CURRENT := QvSet ws]> t) (set_sets s (Some ws) (pv_next s)).
    Proof using Hh. apply (holds_put _ _ _ pr_inj t s _ PrCurrent); [done|done|done|]. by intros [] Hne. Qed.
    Lemma xr_del_next : pr_holds (delete PR_NEXT t) (set_sets s (pv_current s) None).
    Proof using Hh. apply (holds_del _ _ _ pr_inj t s _ PrNext); [done|done|done|]. by intros [] Hne. Qed.
    Lemma xr_put_session id b :
      id < 2 ^ 64 -> pr_holds (<[pr_session_key id := QvSession b]> t) (set_session s id b).
    Proof using Hh.
      intros Hid. apply (holds_put _ _ _ pr_inj t s _ (PrSession id)); [done|done| |].
      - cbn [pr_cell set_session pv_sessions]. by rewrite lookup_insert.
      - intros [] Hne; cbn [pr_cell set_session pv_batches pv_sessions pv_reply pv_current pv_next]; try done.
        rewrite lookup_insert_ne; [done|congruence].
    Qed.
  End Read.

  Lemma xr_find t s env ids ms :
    pr_holds t s ->
    match find_batch keccak wshash sec1 c env s ids ms with
    | Ok (s', b) => exists t', ideal (x_find keccak wshash sec1 c env ids ms) t = Ok (t', b) /\ pr_holds t' s'
    | Err e => ideal (x_find keccak wshash sec1 c env ids ms) t = Err (SOwn e)
    | Panic => ideal (x_find keccak wshash sec1 c env ids ms) t = Panic
    end.
  Proof.
    intros Hh. unfold find_batch, x_find. rewrite ideal_bind, (xr_batch t s Hh). cbn [rbind fst snd].
    destruct (pv_batches s !! _) as [b|]; [by exists t|].
    rewrite ideal_bind, (xr_next_set t s Hh).
    destruct (get_next_worker_set c env s) as [new|e|]; cbn [map_err rbind fst snd]; [|done..].
    rewrite ideal_bind. destruct new as [ws|]; cbn [rbind fst snd].
    - pose proof (xr_save_next t s Hh ws) as H. destruct (save_next s ws) as [s1|e|]; cbn [rbind]; [|by rewrite H..].
      destruct H as (t1 & -> & Hh1). cbn [rbind fst snd]. rewrite ideal_bind, ideal_own.
      destruct (build_batch _ _ _ _ _ _ _) as [b|e|]; cbn [map_err rbind fst snd]; [|done..].
      rewrite ideal_put by constructor. cbn [ideal]. eexists. split; [done|]. by apply xr_put_batch.
    - cbn [ideal rbind fst snd]. rewrite ideal_bind, ideal_own.
      destruct (build_batch _ _ _ _ _ _ _) as [b|e|]; cbn [map_err rbind fst snd]; [|done..].
      rewrite ideal_put by constructor. cbn [ideal]. eexists. split; [done|]. by apply xr_put_batch.
  Qed.
  Lemma xr_execute t s env call :
    pr_holds t s ->
    match prover_execute keccak wshash sec1 c env s call with
    | Ok (s', m) => exists t', ideal (match call with
                                      | ConstructProof ids => x_construct keccak wshash sec1 env ids
                                      | UpdateWorkerSet => x_update keccak wshash sec1 env
                                      | ConfirmWorkerSet => x_confirm keccak sec1 env
                                      end) t = Ok (t', m) /\ pr_holds t' s'
    | Err e => ideal (match call with
                      | ConstructProof ids => x_construct keccak wshash sec1 env ids
                      | UpdateWorkerSet => x_update keccak wshash sec1 env
                      | ConfirmWorkerSet => x_confirm keccak sec1 env
                      end) t = Err (SOwn e)
    | Panic => ideal (match call with
                      | ConstructProof ids => x_construct keccak wshash sec1 env ids
                      | UpdateWorkerSet => x_update keccak wshash sec1 env
                      | ConfirmWorkerSet => x_confirm keccak sec1 env
                      end) t = Panic
    end.
  Proof.
    intros Hh. destruct call as [ids| |]; cbn [prover_execute].
    - unfold construct_proof, x_construct. rewrite ideal_bind, (xr_config t s Hh). cbn [rbind fst snd].
      rewrite ideal_bind, ideal_own. destruct (ProverModel.get_messages c env ids) as [ms|e|]; cbn [map_err rbind fst snd]; [|done..].
      rewrite ideal_bind. pose proof (xr_find t s env ids ms Hh) as H.
      destruct (find_batch keccak wshash sec1 c env s ids ms) as [[s1 b]|e|]; cbn [rbind]; [|by rewrite H..].
      destruct H as (t1 & -> & Hh1). cbn [rbind fst snd]. cbv zeta. rewrite ideal_put by done.
      pose proof (xr_put_reply t1 s1 Hh1 (b_id b)) as Hh2.
      rewrite ideal_bind. unfold x_need. rewrite ideal_bind, (xr_current _ _ Hh2). cbn [rbind fst snd].
      rewrite ideal_own. destruct (pv_current (set_reply s1 (b_id b))) as [cur|]; cbn [of_option map_err rbind fst snd]; [|done].
      rewrite ideal_bind, ideal_own. destruct (msg_digest keccak b) as [d|e|]; cbn [map_err rbind fst snd]; [|done..].
      cbn [ideal]. eauto.
    - unfold update_worker_set, x_update. rewrite ideal_bind, (xr_config t s Hh). cbn [rbind fst snd].
      rewrite ideal_bind, (xr_current t s Hh). cbn [rbind fst snd].
      destruct (pv_current s) as [cur|] eqn:Ecur.
      + rewrite ideal_bind, (xr_next_set t s Hh).
        destruct (get_next_worker_set c env s) as [o|e|]; cbn [map_err rbind fst snd]; [|done..].
        rewrite ideal_bind, ideal_own. destruct o as [new|]; cbn [of_option map_err rbind fst snd]; [|done].
        rewrite ideal_bind. pose proof (xr_save_next t s Hh new) as H.
        destruct (save_next s new) as [s1|e|]; cbn [rbind]; [|by rewrite H..].
        destruct H as (t1 & -> & Hh1). cbn [rbind fst snd]. rewrite ideal_bind, ideal_own.
        destruct (build_batch _ _ _ _ _ _ _) as [b|e|]; cbn [map_err rbind fst snd]; [|done..].
        cbv zeta. rewrite ideal_put by constructor. rewrite ideal_put by done. rewrite ideal_bind, ideal_own.
        destruct (msg_digest keccak b) as [d|e|]; cbn [map_err rbind fst snd]; [|done..].
        cbn [ideal]. eexists. split; [done|]. apply xr_put_reply. by apply xr_put_batch.
      + rewrite ideal_bind, ideal_own. destruct (make_worker_set c env) as [new|e|]; cbn [map_err rbind fst snd]; [|done..].
        rewrite ideal_put by done. cbn [ideal]. eexists. split; [done|]. by apply xr_put_current.
    - unfold confirm_worker_set, x_confirm. rewrite ideal_bind, (xr_config t s Hh). cbn [rbind fst snd].
      rewrite ideal_get by done. rewrite (h_at _ _ _ _ _ Hh PrNext I : t !! PR_NEXT = QvSet <$> pv_next s).
      destruct (pv_next s) as [ws|]; cbn [fmap option_fmap option_map of_option rbind]; [|done].
      rewrite ideal_bind, ideal_own. destruct (make_operators _ _ _ ws) as [x|e|]; cbn [map_err rbind fst snd]; [|done..].
      rewrite ideal_bind, ideal_own. destruct (of_option _ _) as [ok|e|]; cbn [map_err rbind fst snd]; [|done..].
      rewrite ideal_bind, ideal_own. destruct (ensure _ _) as [[]|e|]; cbn [map_err rbind fst snd]; [|done..].
      rewrite ideal_put by done. rewrite ideal_del by done. cbn [ideal]. eexists. split; [done|].
      exact (xr_del_next _ _ (xr_put_current t s Hh ws)).
  Qed.
  Lemma prover_like t s op :
    pr_holds t s -> True -> prover_call_ok op ->
    agree pr_holds (ideal (prover_prog keccak wshash sec1 op) t) (map_err SOwn (prover_step keccak wshash sec1 c s op)).
  Proof.
    intros Hh _ Hop. unfold prover_prog, prover_step. rewrite ideal_bind.
    pose proof (xr_execute t s (po_env op) (po_call op) Hh) as H.
    destruct (prover_execute _ _ _ c (po_env op) s (po_call op)) as [[s1 m]|e|]; cbn [rbind map_err]; [|by rewrite H..].
    destruct H as (t1 & -> & Hh1). cbn [rbind fst snd]. rewrite ideal_bind, ideal_own.
    unfold prover_call_ok in Hop.
    destruct (po_multisig op) as [d|]; cbn [of_option map_err rbind fst snd]; [|done].
    destruct m as [to id dg ch|to ws]; [|by split].
    rewrite ideal_bind. unfold x_reply, prover_reply. rewrite ideal_get by done.
    rewrite (h_at _ _ _ _ _ Hh1 PrReply I : t1 !! PR_REPLY = QvReply <$> pv_reply s1).
    destruct (pv_reply s1) as [b|]; cbn [fmap option_fmap option_map of_option rbind]; [|done].
    rewrite ideal_bind, ideal_own. destruct d as [n|]; cbn [of_option map_err rbind fst snd]; [|done].
    rewrite ideal_put by constructor. cbn [ideal rbind fst snd map_err agree]. split; [done|]. by apply xr_put_session.
  Qed.
  Lemma prover_sim_init :
    cells_sim prover_layout pr_ok pr_place (pr_cell c) (fun _ => True) (prover_bytes_init c) prover_init.
  Proof.
    split; [done|]. exists {[PR_CONFIG := QvConfig c]}. split; [apply stored_single; in_layout|].
    apply (holds_single _ _ _ pr_inj _ PrConfig); [done|done|].
    intros [] Hne; cbn [pr_cell prover_init pv_batches pv_sessions pv_reply pv_current pv_next]; rewrite ?lookup_empty; done.
  Qed.
  Lemma prover_query t s mu id :
    pr_holds t s -> id < 2 ^ 64 ->
    ideal (x_get_proof keccak sec1 recover mu id) t =
    let? a := map_err SOwn (get_proof keccak sec1 recover c s mu id) in Ok (t, a).
  Proof.
    intros Hh Hid. unfold x_get_proof, get_proof. rewrite ideal_bind, (xr_config t s Hh). cbn [rbind fst snd].
    rewrite ideal_get by constructor.
    rewrite (h_at _ _ _ _ _ Hh (PrSession id) Hid : t !! pr_session_key id = QvSession <$> pv_sessions s !! id).
    destruct (pv_sessions s !! id) as [bid|]; cbn [fmap option_fmap option_map of_option rbind]; [|done].
    rewrite ideal_bind. unfold x_need. rewrite ideal_bind, (xr_batch t s Hh). cbn [rbind fst snd]. rewrite ideal_own.
    destruct (pv_batches s !! bid) as [b|]; cbn [of_option map_err rbind fst snd]; [|done]. apply ideal_own.
  Qed.
  Lemma c98_prover ops :
    Forall prover_call_ok ops ->
    let m := run (prover_bytes_step keccak wshash sec1) (prover_bytes_init c) ops in
    let s := run (prover_step keccak wshash sec1 c) prover_init ops in
    log (prover_bytes_step keccak wshash sec1) (prover_bytes_init c) ops = log (prover_step keccak wshash sec1 c) prover_init ops /\
    prover_stored c m s /\
    (forall op, prover_call_ok op ->
       agree (prover_stored c) (prover_bytes_step keccak wshash sec1 m op) (map_err SOwn (prover_step keccak wshash sec1 c s op))) /\
    (forall mu id, id < 2 ^ 64 ->
       raw (x_get_proof keccak sec1 recover mu id) m = let? a := map_err SOwn (get_proof keccak sec1 recover c s mu id) in Ok (m, a)) /\
    raw x_get_worker_set m = let? a := map_err SOwn (query_worker_set s) in Ok (m, a).
  Proof.
    intros Hops m s.
    destruct (cells_history prover_layout pr_ok pr_place (pr_cell c) ltac:(by vm_compute) (prover_prog keccak wshash sec1)
                (prover_step keccak wshash sec1 c) (fun _ => True) prover_call_ok (fun op _ => prover_keeps op) prover_like
                (fun _ _ _ _ _ _ _ => I) _ _ ops prover_sim_init Hops) as (H1 & H2 & H3 & H4).
    split; [exact H1|]. split; [exact H2|]. split; [exact H3|]. split.
    - intros mu id Hid. apply (cells_query prover_layout pr_ok pr_place (pr_cell c) ltac:(by vm_compute) (fun _ => True) _ m s _ H4).
      + unfold x_get_proof, x_config, x_need, x_batch, no_std. keep.
      + unfold x_get_proof, x_config, x_need, x_batch, no_std. just_reads.
      + intros t Hh _. by apply prover_query.
    - apply (cells_query prover_layout pr_ok pr_place (pr_cell c) ltac:(by vm_compute) (fun _ => True) _ m s _ H4).
      + unfold x_get_worker_set, x_need, x_current, no_std. keep.
      + unfold x_get_worker_set, x_need, x_current, no_std. just_reads.
      + intros t Hh _. unfold x_get_worker_set, x_need. rewrite ideal_bind, (xr_current t s Hh). cbn [rbind fst snd].
        by rewrite ideal_own.
  Qed.
End Prover.
