(** The prover over texts. *)
From Verif Require Import Base BaseLemmas MapLemmas StdProofs Text TextLemmas StdModel RouterTypes RegistryTypes OperatorsModel MultisigTypes.
From Verif Require Import EncodingModel VerifierModel RewardsModel RegistryModel RouterModel GatewayModel NexusModel MultisigModel ProverModel.
From Verif Require Import StorageModel StorageSpec StorageProofs2 StorageProofs3 StorageProofs4 StorageProofs5 StorageProofs6.
From Verif Require Import Storage2Model Storage2Spec Storage2Proofs Storage2Proofs2 Storage2Proofs3 Storage2Proofs4 Storage2Proofs5.
From Verif Require Import EventsModel JsonModel JsonSpec WireModel WireSpec WireProofs WireProofs2 WireProofs3.
From Verif Require Import Storage3Model Storage3Spec Storage3Proofs Storage3Proofs2 Storage3Proofs3 Storage3Proofs4 Storage3Proofs5.

Lemma try_map_Forall {E A B} (f : A -> res E B) (Q : B -> Prop) l r :
  try_map f l = Ok r -> (forall a b, f a = Ok b -> Q b) -> Forall Q r.
Proof.
  intros H HQ. revert r H. induction l as [|a l IH]; intros r H; cbn in H; [injection H as <-; constructor|].
  apply rbind_ok in H as (b & Hb & H). apply rbind_ok in H as (r' & Hr & H). injection H as <-. constructor; [by eapply HQ|by apply IH].
Qed.
Lemma worker_set_new_proper l t h :
  t < 2 ^ 256 -> h < 2 ^ 64 -> Forall (fun x : participant * public_key => p_weight x.1 < 2 ^ 256 /\ proper_key x.2) l ->
  proper_set (worker_set_new l t h).
Proof.
  intros Ht Hh Hl. split; [done|]. split; [done|]. cbn [worker_set_new ws_signers].
  assert (H : forall m : gmap addr signer, (forall a s, m !! a = Some s -> sg_weight s < 2 ^ 256 /\ proper_key (sg_key s)) ->
    forall a s, fold_left (fun m '(p, k) =>
      <[p_addr p := {| sg_addr := p_addr p; sg_weight := p_weight p; sg_key := k |}]> m) l m !! a = Some s ->
      sg_weight s < 2 ^ 256 /\ proper_key (sg_key s)).
  { induction Hl as [|[p k] l [Hp Hk] Hl IH]; intros m Hm; [exact Hm|]. cbn [fold_left]. apply IH. intros a s Ha.
    apply lookup_insert_Some in Ha as [[_ <-]|[_ Ha]]; [by split|by eapply Hm]. }
  apply H. intros a s. by rewrite lookup_empty.
Qed.
Lemma make_worker_set_proper c env w : proper_env env -> make_worker_set c env = Ok w -> proper_set w.
Proof.
  intros (Hh & _ & Hk) H. unfold make_worker_set in H. apply rbind_ok in H as (ws & _ & H). apply rbind_ok in H as (ps & Hps & H).
  apply rbind_ok in H as (? & _ & H). apply rbind_ok in H as (snap & Hsnap & H). apply rbind_ok in H as (keys & Hkeys & H).
  injection H as <-. apply snapshot_new_proper in Hsnap as [Hq _]. apply worker_set_new_proper; [done|done|].
  assert (H1 : Forall (fun p => p_weight p < 2 ^ 256) ps).
  { eapply try_map_Forall; [exact Hps|]. intros y p Hp. unfold worker_participant in Hp. destruct (w_bond y); try done.
    injection Hp as <-. cbn [p_weight]. lia. }
  assert (H2 : Forall proper_key keys).
  { eapply try_map_Forall; [exact Hkeys|]. intros y k Hy. apply of_option_ok in Hy. by eapply Hk. }
  clear -H1 H2. revert keys H2. induction H1 as [|p ps Hp Hps IH]; intros keys H2; [constructor|].
  destruct H2 as [|k keys Hk H2]; [constructor|]. cbn [zip zip_with]. constructor; [by split|by apply IH].
Qed.
Definition pr_good (ns : string) (v : prval) : Prop :=
  match v with
  | QvConfig c => ns = "config" /\ proper_pconfig c
  | QvReply _ => ns = "reply_tracker"
  | QvSet w => (ns = "current_worker_set" \/ ns = "next_worker_set") /\ proper_set w
  | QvBatch b => ns = "command_batch" /\ proper_batch b
  | QvSession _ => ns = "multisig_session_batch"
  end.
Lemma pr_codec admin ns v : pr_good ns v -> (j ← of_wire (to_json (e_prval admin v)); d_prval ns j) = Some v.
Proof.
  destruct v as [c|b|w|b|b]; cbn [pr_good e_prval].
  - intros (-> & H). apply (text_map (e_pconfig admin) d_pconfig QvConfig). apply (fwd_text _ _ _ 2 c (fwd_pconfig admin)); [lia|done].
  - intros ->. apply (text_hex QvReply).
  - intros ([->| ->] & H); apply (text_map e_worker_set d_worker_set QvSet);
      exact (fwd_text _ _ _ 4 w (proj1 codec_worker_set) ltac:(lia) H).
  - intros (-> & H). apply (text_map e_batch d_batch QvBatch). apply (fwd_text _ _ _ 4 b fwd_batch); [lia|done].
  - intros ->. apply (text_hex QvSession).
Qed.
Section Prover.
  Context (admin : addr) (keccak : string -> string) (wshash : worker_set -> string)
          (sec1 : string -> option string) (recover : string -> string -> string -> option N) (c : pconfig).
  Lemma wp_x_config : wp pr_good x_config proper_pconfig.
  Proof using. intros [v|] Ho; [|done]. specialize (Ho v eq_refl). destruct v; cbn [wp]; try done. by destruct Ho. Qed.
  Lemma wp_x_current : wp pr_good x_current (fun o => True).
  Proof using. by intros [[]|] Ho. Qed.
  Lemma wp_x_batch id : wp pr_good (x_batch id) (fun _ => True).
  Proof using. by intros [[]|] Ho. Qed.
  Lemma wp_x_next_set c' env : proper_env env -> wp pr_good (x_next_set c' env) (fun o => forall w, o = Some w -> proper_set w).
  Proof using.
    intros He. eapply wp_bind; [apply wp_x_current|]. intros o _.
    eapply wp_bind; [apply (wp_own _ _ proper_set); intros w; by apply make_worker_set_proper|]. intros new Hnew.
    destruct o; [|done]. cbn [wp]. destruct (should_update _ _ _); [|done]. by intros w' [= <-].
  Qed.
  Lemma wp_x_save_next w : proper_set w -> wp pr_good (x_save_next w) (fun _ => True).
  Proof using. intros Hw o Ho. destruct (match o with Some (QvSet _) => _ | _ => _ end); [done|]. split; [|done]. split; [by right|done]. Qed.
  Lemma build_batch_proper n e w ms b :
    n < 2 ^ 256 -> Forall (fun m => proper_id (m_cc m)) ms -> build_batch keccak wshash sec1 n e w ms = Ok b -> proper_batch b.
  Proof using.
    intros Hn Hms H. unfold build_batch in H. apply rbind_ok in H as (cs & _ & H). apply rbind_ok in H as (cmds & _ & H). injection H as <-.
    split; [|done]. cbn [b_ids]. by apply Forall_fmap.
  Qed.
  Lemma wp_x_find c' env ids ms :
    proper_pconfig c' -> proper_env env -> Forall (fun m => proper_id (m_cc m)) ms ->
    wp pr_good (x_find keccak wshash sec1 c' env ids ms) (fun _ => True).
  Proof using.
    intros Hc He Hms. eapply wp_bind; [apply wp_x_batch|]. intros [b|] _; [done|].
    eapply wp_bind; [by apply wp_x_next_set|]. intros new Hnew.
    eapply wp_bind; [instantiate (1 := fun _ => True); destruct new as [w|]; [exact (wp_x_save_next w (Hnew w eq_refl))|done]|]. intros _ _.
    eapply wp_bind; [apply (wp_own _ _ proper_batch); intros b; apply build_batch_proper; [apply Hc|done]|]. intros b Hb.
    split; [by split|done].
  Qed.
  Lemma wp_x_reply d : wp pr_good (x_reply d) (fun _ => True).
  Proof using. intros [[]|] Ho; try done. any. intros id _. by split. Qed.
  Lemma wp_prover op : prover_text_ok op -> wp pr_good (prover_prog keccak wshash sec1 op) (fun _ => True).
  Proof using.
    intros (Hcall & He & Hids). unfold prover_prog. eapply wp_bind; [instantiate (1 := fun _ => True)|].
    - destruct (po_call op) as [ids| |].
      + unfold x_construct. eapply wp_bind; [apply wp_x_config|]. intros c' Hc.
        eapply wp_bind; [apply (wp_own _ _ (Forall (fun m => proper_id (m_cc m))))|].
        { intros ms H. unfold ProverModel.get_messages in H. apply rbind_ok in H as (ms' & Hms & H). apply of_option_ok in Hms.
          destruct (negb _); [done|]. destruct (existsb _ _); [done|]. injection H as <-. destruct He as (_ & He & _). exact (He _ _ _ Hids Hms). }
        intros ms Hms. eapply wp_bind; [by apply wp_x_find|]. intros b _. split; [done|].
        eapply wp_bind; [instantiate (1 := fun _ => True); unfold x_need; eapply wp_bind; [apply wp_x_current|]; intros o _; by apply wp_own|].
        intros cur _. any. done.
      + unfold x_update. eapply wp_bind; [apply wp_x_config|]. intros c' Hc. eapply wp_bind; [apply wp_x_current|]. intros [cur|] _.
        * eapply wp_bind; [by apply wp_x_next_set|]. intros o Ho.
          eapply wp_bind; [apply (wp_own _ _ proper_set); intros w Hw; apply of_option_ok in Hw; by apply Ho|]. intros new Hnew.
          eapply wp_bind; [by apply wp_x_save_next|]. intros _ _.
          eapply wp_bind; [apply (wp_own _ _ proper_batch); intros b; apply build_batch_proper; [apply Hc|constructor]|]. intros b Hb.
          split; [by split|]. split; [done|]. any. done.
        * eapply wp_bind; [apply (wp_own _ _ proper_set); intros w; by apply make_worker_set_proper|]. intros new Hnew.
          split; [|done]. split; [by left|done].
      + unfold x_confirm. eapply wp_bind; [apply wp_x_config|]. intros c' Hc. intros [v|] Ho; [|done]. specialize (Ho v eq_refl).
        destruct v as [| |w| |]; try done. destruct Ho as [_ Hw]. any. intros x _. any. intros ok _. any. intros _ _.
        split; [|done]. split; [by left|done].
    - intros m _. any. intros d _. destruct m; [|done]. eapply wp_bind; [apply wp_x_reply|]. done.
  Qed.
  Lemma wp_x_get_proof mu id : wp pr_good (x_get_proof keccak sec1 recover mu id) (fun _ => True).
  Proof using.
    eapply wp_bind; [apply wp_x_config|]. intros c' _. intros [[]|] Ho; try done.
    eapply wp_bind; [instantiate (1 := fun _ => True); unfold x_need; eapply wp_bind; [apply wp_x_batch|]; intros o _; by apply wp_own|].
    intros b _. by apply wp_own.
  Qed.
  Lemma wp_x_get_worker_set : wp pr_good x_get_worker_set (fun _ => True).
  Proof using. unfold x_get_worker_set, x_need. eapply wp_bind; [apply wp_x_current|]. intros o _. by apply wp_own. Qed.
  Lemma c104_prover ops :
    proper_pconfig c -> Forall prover_text_ok ops ->
    let mt := run (prover_text_step admin keccak wshash sec1) (prover_text_init admin c) ops in
    let s := run (prover_step keccak wshash sec1 c) prover_init ops in
    log (prover_text_step admin keccak wshash sec1) (prover_text_init admin c) ops = log (prover_step keccak wshash sec1 c) prover_init ops /\
    texts_of prover_layout (e_prval admin) d_prval (prover_stored c) mt s /\
    (forall op, prover_text_ok op ->
       agree (texts_of prover_layout (e_prval admin) d_prval (prover_stored c)) (prover_text_step admin keccak wshash sec1 mt op)
         (map_err (fun e => TOwn (SOwn e)) (prover_step keccak wshash sec1 c s op))) /\
    (forall mu id, id < 2 ^ 64 ->
       raw (in_texts (e_prval admin) d_prval (x_get_proof keccak sec1 recover mu id)) mt =
         let? a := map_err (fun e => TOwn (SOwn e)) (get_proof keccak sec1 recover c s mu id) in Ok (mt, a)) /\
    raw (in_texts (e_prval admin) d_prval x_get_worker_set) mt =
      let? a := map_err (fun e => TOwn (SOwn e)) (query_worker_set s) in Ok (mt, a).
  Proof using.
    intros Hc Hops mt s.
    assert (Hcall : Forall prover_call_ok ops) by (eapply Forall_impl; [exact Hops|]; by intros op []).
    destruct (c98_prover keccak wshash sec1 recover c ops Hcall) as (H1 & H2 & H3 & H4 & H5).
    destruct (texts_history pr_good prover_layout (e_prval admin) d_prval ltac:(by vm_compute) (pr_codec admin) (prover_prog keccak wshash sec1)
                (prover_step keccak wshash sec1 c) prover_text_ok (prover_stored c) (fun op _ => prover_keeps keccak wshash sec1 op) wp_prover
                (prover_text_init admin c) (prover_bytes_init c) prover_init ops) as (G1 & G2 & G3 & G4); [|done|done|done| |].
    - apply tsim_single; [cbn; set_solver|by split].
    - intros op [Hop _]. by apply H3.
    - split; [done|]. split; [done|]. split; [done|]. split.
      + intros mu id Hid.
        refine (texts_query pr_good prover_layout (e_prval admin) d_prval ltac:(by vm_compute) (pr_codec admin)
                  (x_get_proof keccak sec1 recover mu id) (fun _ => True) mt _ _ _ (wp_x_get_proof mu id) G4 (H4 mu id Hid)).
        unfold x_get_proof, x_config, x_need, x_batch, no_std. keep.
      + refine (texts_query pr_good prover_layout (e_prval admin) d_prval ltac:(by vm_compute) (pr_codec admin)
                  x_get_worker_set (fun _ => True) mt _ _ _ wp_x_get_worker_set G4 H5).
        unfold x_get_worker_set, x_need, x_current, no_std. keep.
  Qed.
End Prover.
