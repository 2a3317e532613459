(** A history whose questions are texts is the history whose questions are
    asked and answered without texts. *)
From Verif Require Import Base BaseLemmas MapLemmas StdProofs Text TextLemmas StdModel RouterTypes RegistryTypes OperatorsModel MultisigTypes
  EncodingModel VerifierModel RewardsModel RegistryModel RouterModel GatewayModel NexusModel MultisigModel ProverModel
  SystemModel EventsModel JsonModel JsonSpec WireModel WireSpec WireProofs WireProofs2 WireProofs3 WireSystemModel WireSystemSpec WireProofs4 WireProofs5 WireProofs6 WireProofs7
  QueryModel QuerySpec QueryProofs QueryProofs2 QueryProofs3.

(** ** What a contract does depends on the answers to its questions alone *)

Lemma gateway_ext s a b ans1 ans2 op1 op2 :
  proper_body b -> (forall ms, Forall proper_message ms -> ans1 ms = ans2 ms) ->
  gateway_op ans1 a b = Some op1 -> gateway_op ans2 a b = Some op2 -> gateway_step s op1 = gateway_step s op2.
Proof.
  intros Hb He H1 H2. destruct b; try discriminate H1; injection H1 as <-; injection H2 as <-; cbn [proper_body gateway_step] in *.
  - destruct (bool_decide _); [reflexivity|]. unfold route_incoming_messages, partition_by_verified. by rewrite (He _ Hb).
  - unfold gw_verify_messages, partition_by_verified. by rewrite (He _ Hb).
Qed.
Lemma snapshot_ext c reg1 reg2 ch : reg1 (vc_registry c) (vc_service c) ch = reg2 (vc_registry c) (vc_service c) ch ->
  take_snapshot c reg1 ch = take_snapshot c reg2 ch.
Proof. intros H. unfold take_snapshot. by rewrite H. Qed.
Lemma todo_in keccak s ms l : try_map (fun m => let? st := message_status keccak s m in Ok (st, m)) ms = Ok l ->
  forall m, m ∈ omap (M:=list) (fun '(st, m) => if needs_poll st then Some m else None) l -> m ∈ ms.
Proof.
  intros H%try_map_ok m Hm. apply elem_of_list_omap in Hm as ([st m'] & Hin & Hm). destruct (needs_poll st); [|discriminate Hm]. injection Hm as ->.
  induction H as [|x p xs ps Hx _ IH]; [by apply elem_of_nil in Hin|]. apply elem_of_cons in Hin as [<-|Hin].
  - apply rbind_ok in Hx as (? & _ & Hx). simplify_eq. left.
  - right. by apply IH.
Qed.
Lemma verifier_ext keccak s h a b reg1 reg2 op1 op2 : proper_chain (vc_chain (v_config s)) ->
  proper_body b -> (forall r svc ch, proper_chain ch -> reg1 r svc ch = reg2 r svc ch) ->
  verifier_op h reg1 a b = Some op1 -> verifier_op h reg2 a b = Some op2 -> verifier_step keccak s op1 = verifier_step keccak s op2.
Proof.
  intros Hc Hb He H1 H2. destruct b; try discriminate H1; injection H1 as <-; injection H2 as <-; cbn [proper_body verifier_step] in *.
  - unfold verify_messages. cbv zeta. destruct (ensure _ EmptyMessages); cbn [rbind]; [|done..].
    destruct (ensure _ SourceChainMismatch); cbn [rbind]; [|done..].
    destruct (is_verified keccak s ms); cbn [rbind]; [|done..].
    destruct (try_map _ _) as [l| |] eqn:El; cbn [rbind]; [|done..]. pose proof (todo_in _ _ _ _ El) as Hin.
    destruct (omap _ l) as [|m0 ms']; [done|]. rewrite (snapshot_ext _ reg1 reg2); [done|]. apply He.
    specialize (Hin m0 ltac:(left)). rewrite Forall_forall in Hb. apply (Hb _ Hin).
  - unfold verify_worker_set. cbv zeta. rewrite (snapshot_ext _ reg1 reg2); [done|]. by apply He.
  - done.
  - done.
Qed.
Lemma try_map_ext {A B E} (f g : A -> res E B) l : (forall x, f x = g x) -> try_map f l = try_map g l.
Proof. intros H. induction l as [|x l IH]; [done|]. cbn. by rewrite H, IH. Qed.
Lemma set_ext c e1 e2 : pe_height e1 = pe_height e2 ->
  (forall a svc, pe_active e1 a svc (pc_chain c) = pe_active e2 a svc (pc_chain c)) ->
  (forall a w t, pe_key e1 a w t = pe_key e2 a w t) -> make_worker_set c e1 = make_worker_set c e2.
Proof.
  intros H1 H2 H3. unfold make_worker_set. rewrite H1, H2.
  destruct (of_option _ _) as [ws| |]; cbn [rbind]; [|done..].
  destruct (try_map _ ws) as [ps| |]; cbn [rbind]; [|done..].
  destruct (ensure _ _); cbn [rbind]; [|done..].
  destruct (snapshot_new _ _); cbn [rbind]; [|done..].
  by rewrite (try_map_ext _ (fun w => of_option PStd (pe_key e2 (pc_multisig c) (w_addr w) (pc_key_type c)))) by (intros w; by rewrite H3).
Qed.
Lemma operators_proper keccak sec1 e w o : proper_set w -> make_operators keccak sec1 e w = Ok o -> proper_operators o.
Proof.
  intros (Ht & _ & Hs) H.
  assert (forall sg, sg ∈ signers_of w -> sg_weight sg < 2 ^ 256) as Hw.
  { intros sg ([a sg'] & -> & Hin)%elem_of_list_fmap. apply elem_of_btree_iter in Hin. apply (Hs _ _ Hin). }
  assert (exists l, o = operators_new l (ws_threshold w) /\ forall b n, (b, n) ∈ l -> n < 2 ^ 256) as (l & -> & Hl).
  { destruct e; cbn [make_operators] in H.
    - apply rbind_ok in H as (l & Hl & H). injection H as <-. exists l. split; [done|]. unfold abi_operator_list in Hl. apply try_map_ok in Hl.
      intros b n Hin. revert Hw. induction Hl as [|sg p sgs l Hp _ IH]; [by apply elem_of_nil in Hin|]. intros Hw.
      apply elem_of_cons in Hin as [<-|Hin]; [|apply IH; [done|]; intros x Hx; apply Hw; by right].
      apply rbind_ok in Hp as (? & _ & Hp). simplify_eq. apply Hw. left.
    - injection H as <-. eexists. split; [reflexivity|]. intros b n (sg & [= -> ->] & Hin)%elem_of_list_fmap. by apply Hw. }
  split; [exact Ht|]. intros b n Hin. apply (Hl b). unfold operators_new in Hin. cbn [o_weights] in Hin. by rewrite isort_perm in Hin.
Qed.
Lemma prover_ext keccak wshash sec1 c e1 e2 s pc : proper_pr pc -> proper_chain (pc_chain c) -> sets_proper s ->
  pe_height e1 = pe_height e2 ->
  (forall a ids, Forall proper_id ids -> pe_messages e1 a ids = pe_messages e2 a ids) ->
  (forall a svc ch, proper_chain ch -> pe_active e1 a svc ch = pe_active e2 a svc ch) ->
  (forall a w t, pe_key e1 a w t = pe_key e2 a w t) ->
  (forall a o, proper_operators o -> pe_verified e1 a o = pe_verified e2 a o) ->
  prover_execute keccak wshash sec1 c e1 s pc = prover_execute keccak wshash sec1 c e2 s pc.
Proof.
  intros Hp Hc Hs H1 H2 H3 H4 H5.
  assert (make_worker_set c e1 = make_worker_set c e2) as Hm by (apply set_ext; auto).
  assert (get_next_worker_set c e1 s = get_next_worker_set c e2 s) as Hn by (unfold get_next_worker_set; by rewrite Hm).
  destruct pc; cbn [prover_execute proper_pr] in *.
  - unfold construct_proof.
    assert (ProverModel.get_messages c e1 ids = ProverModel.get_messages c e2 ids) as ->.
    { unfold ProverModel.get_messages. by rewrite (H2 _ _ Hp). }
    destruct (ProverModel.get_messages c e2 ids) as [ms| |]; cbn [rbind]; [|done..]. unfold find_batch. by rewrite Hn.
  - unfold update_worker_set. by rewrite Hm, Hn.
  - unfold confirm_worker_set. destruct (pv_next s) as [w|] eqn:Ew; [|done]. cbn [of_option rbind].
    destruct (make_operators keccak sec1 (pc_encoder c) w) as [o| |] eqn:Eo; cbn [rbind]; [|done..].
    rewrite (H5 _ o); [done|]. eapply operators_proper; [|exact Eo]. by apply Hs.
Qed.

(** ** One call *)
Lemma fine_insert (st : gmap addr contract) a c : all_fine st -> fine c -> all_fine (<[a := c]> st).
Proof. intros Hst Hc b x. by apply (all_insert fine). Qed.
Lemma typed_write l : Forall (fun m => sb_funds m = []) l -> Forall typed_funds (write <$> l).
Proof. intros H. apply Forall_fmap. eapply Forall_impl; [exact H|]. intros m Hm. cbn. unfold typed_funds. cbn. rewrite Hm. constructor. Qed.
Lemma plain_funds {A} (f : A -> addr) (g : A -> body) l : Forall (fun m => sb_funds m = []) ((fun x => plain (f x) (g x)) <$> l).
Proof. apply Forall_fmap, Forall_forall. done. Qed.
Lemma asked_inv qr a q r : asked qr a q = Some r -> exists v, d_answer q v = Some r.
Proof. unfold asked. intros H. apply bind_Some in H as (t & _ & H). apply bind_Some in H as (v & _ & H). exists v. exact H. Qed.
Lemma key_inv qr a w t k : tq_key qr a w t = Some k -> proper_key k.
Proof.
  unfold tq_key. destruct (asked qr a (QKey w t)) as [r|] eqn:E; [|discriminate]. apply asked_inv in E as [v E]. cbn [d_answer] in E.
  apply fmap_Some in E as (k' & Hk & ->). intros [= <-]. by eapply codec_key.
Qed.
Lemma messages_inv qr a ids ms : tq_messages qr a ids = Some ms -> Forall proper_message ms.
Proof.
  unfold tq_messages. destruct (asked qr a (QMessages ids)) as [r|] eqn:E; [|discriminate]. apply asked_inv in E as [v E]. cbn [d_answer] in E.
  apply fmap_Some in E as (k' & Hk & ->). intros [= <-]. by eapply codec_messages.
Qed.
Lemma typed_answers e : typed_env e -> proper_env (we_env (read_answers e)).
Proof. intros (Hh & _ & _). split; [exact Hh|]. intros n a w t k H. exact (key_inv _ _ _ _ _ H). Qed.

Section Sim.
  Context (keccak : string -> string) (wshash : worker_set -> string)
          (sec1 : string -> option string) (recover : string -> string -> string -> option N)
          (crypto : key_type -> string -> string -> string -> option bool).
  Notation wsid := (worker_set_id wshash).
  Notation wreceive := (wreceive keccak wshash sec1 crypto).
  Notation qreceive := (qreceive keccak wshash sec1 recover crypto).
  Notation wexec_call := (wexec_call keccak wshash sec1 crypto).
  Notation qexec_call := (qexec_call keccak wshash sec1 recover crypto).
  Notation wsystem_step := (wsystem_step keccak wshash sec1 crypto).
  Notation qsystem_step := (qsystem_step keccak wshash sec1 recover crypto).

  Lemma messages_proper e n (st : gmap addr contract) : all_fine st ->
    forall a ids ms, pe_messages (prover_env keccak (we_env (read_answers e)) n st) a ids = Some ms -> Forall proper_message ms.
  Proof.
    intros Hst a ids ms H. cbn [pe_messages prover_env] in H. unfold q_messages in H. unfold chain in H. destruct (st !! a) as [[]|] eqn:Ha; try discriminate H.
    - apply ask_some in H. unfold GatewayModel.get_messages in H. apply try_map_ok in H. specialize (Hst _ _ Ha). cbn [fine] in Hst.
      induction H as [|i m ids ms Hm _ IH]; constructor; [|exact IH]. apply of_option_ok in Hm. exact (Hst _ _ Hm).
    - exact (messages_inv _ _ _ _ H).
  Qed.

  Lemma receive_same e n (st : gmap addr contract) a m : all_fine st ->
    qreceive e n st a m = wreceive (read_answers e) n st a m.
  Proof.
    intros Hst. unfold QueryModel.qreceive, WireSystemModel.wreceive, chain. cbv zeta.
    destruct (st !! wb_to m) as [[s|s|s|s|s|s|s|c s]|] eqn:E; [reflexivity| |reflexivity| |reflexivity..| |reflexivity].
    - match goal with |- rbind (of_option _ (gw_call _ ?x _)) _ = rbind (of_option _ (gw_call _ ?y _)) _ =>
        set (ans1 := x); set (ans2 := y) end.
      assert (forall ms, Forall proper_message ms -> ans1 ms = ans2 ms) as He.
      { intros ms Hms. unfold ans1, ans2. by apply sees_verified. }
      clearbody ans1 ans2. rewrite !gw_reads. destruct (understood (wb_text m)) as [b|] eqn:Eu; [|reflexivity]. cbn [mbind option_bind].
      apply understood_proper in Eu. destruct (gateway_op ans1 a b) as [op1|] eqn:E1, (gateway_op ans2 a b) as [op2|] eqn:E2;
        [|destruct b; discriminate..|reflexivity]. cbn [of_option rbind]. by rewrite (gateway_ext s a b ans1 ans2 op1 op2).
    - match goal with |- rbind (of_option _ (vv_call ?h' _ ?x _)) _ = rbind (of_option _ (vv_call _ _ ?y _)) _ =>
        set (reg1 := x); set (reg2 := y); change (en_height (we_env (read_answers e))) with h'; set (h := h') end.
      assert (forall r svc ch, proper_chain ch -> reg1 r svc ch = reg2 r svc ch) as He.
      { intros r svc ch Hc. unfold reg1, reg2. by apply sees_active. }
      clearbody reg1 reg2. rewrite !vv_reads. destruct (understood (wb_text m)) as [b|] eqn:Eu; [|reflexivity]. cbn [mbind option_bind].
      apply understood_proper in Eu. destruct (verifier_op h reg1 a b) as [op1|] eqn:E1, (verifier_op h reg2 a b) as [op2|] eqn:E2;
        [|destruct b; discriminate..|reflexivity]. cbn [of_option rbind].
      by rewrite (verifier_ext keccak s h a b reg1 reg2 op1 op2 (Hst _ _ E)).
    - rewrite !pr_reads. destruct (understood (wb_text m)) as [b|] eqn:Eu; [|reflexivity]. cbn [mbind option_bind].
      apply understood_proper in Eu. destruct b; try reflexivity. cbn [of_option rbind proper_body] in *.
      destruct (Hst _ _ E) as ((Hc & _) & Hs & _).
      rewrite (prover_ext keccak wshash sec1 c _ (prover_env keccak (we_env (read_answers e)) n st)); try done.
      + intros x ids Hx. by apply sees_messages.
      + intros x svc ch Hx. by apply sees_active.
      + intros x w t. by apply sees_key.
      + intros x o Hx. by apply sees_set_verified.
  Qed.
  Lemma receive_fine e n (st : gmap addr contract) a m c subs data : all_fine st -> typed_env e -> typed_funds m ->
    wreceive (read_answers e) n st a m = Ok (c, subs, data) -> all_fine (settle st (wb_to m) c) /\ Forall typed_funds subs.
  Proof.
    intros Hst He Hm H. unfold WireSystemModel.wreceive, chain in H. cbv zeta in H.
    destruct (st !! wb_to m) as [[s|s|s|s|s|s|s|k s]|] eqn:E; apply rbind_ok in H as (op & Hop & H).
    - rewrite rt_reads in Hop. apply rbind_ok in H as ([s' o] & Hs & H). apply map_err_ok in Hs. apply of_option_ok in Hop. injection H as <- <- _.
      destruct (understood _) as [b|] eqn:Eu; [|discriminate Hop]. apply understood_proper in Eu. split.
      + apply fine_insert; [done|]. eapply router_fine; [exact (Hst _ _ E)|exact Eu|exact Hop|exact Hs].
      + apply typed_write. destruct o; try constructor. apply plain_funds.
    - rewrite gw_reads in Hop. apply rbind_ok in H as ([s' o] & Hs & H). apply map_err_ok in Hs. apply of_option_ok in Hop. injection H as <- <- _.
      destruct (understood _) as [b|] eqn:Eu; [|discriminate Hop]. apply understood_proper in Eu. split.
      + apply fine_insert; [done|]. eapply gateway_fine; [exact (Hst _ _ E)|exact Eu|exact Hop|exact Hs].
      + apply typed_write. unfold gateway_subs. apply Forall_app. split; apply plain_funds.
    - apply rbind_ok in H as ([s' o] & Hs & H). injection H as <- <- _. split; [by apply fine_insert|].
      apply typed_write. destruct o; [apply plain_funds|constructor].
    - apply rbind_ok in H as ([s' o] & Hs & H). apply map_err_ok in Hs. injection H as <- <- _. split.
      + apply fine_insert; [done|]. cbn [fine]. rewrite (verifier_config _ _ _ _ _ Hs). exact (Hst _ _ E).
      + apply typed_write. destruct o; try constructor. apply plain_funds.
    - apply rbind_ok in H as ([s' o] & Hs & H). injection H as <- <- _. split; [by apply fine_insert|constructor].
    - rewrite sr_reads in Hop. apply rbind_ok in H as ([s' o] & Hs & H). apply map_err_ok in Hs. apply of_option_ok in Hop. injection H as <- <- _.
      destruct (understood _) as [b|] eqn:Eu; [|discriminate Hop]. apply understood_proper in Eu. split; [|constructor].
      apply fine_insert; [done|]. eapply registry_fine; [exact (Hst _ _ E)|exact (proj1 (proj2 He))|exact Hm|exact Eu|exact Hop|exact Hs].
    - rewrite ms_reads in Hop. apply rbind_ok in H as ([s' o] & Hs & H). apply map_err_ok in Hs. apply of_option_ok in Hop. injection H as <- <- _.
      destruct (understood _) as [b|] eqn:Eu; [|discriminate Hop]. apply understood_proper in Eu. split.
      + apply fine_insert; [done|]. eapply multisig_fine; [exact (Hst _ _ E)|exact (proj1 He)|exact Eu|exact Hop|exact Hs].
      + apply typed_write. destruct o; repeat constructor.
    - apply rbind_ok in H as ([s' o] & Hs & H). apply map_err_ok in Hs. injection H as <- <- _. split.
      + apply fine_insert; [done|]. eapply prover_fine; [| | |exact (Hst _ _ E)|exact Hs].
        * apply answers_proper. by apply typed_answers.
        * by apply messages_proper.
        * exact (proj1 He).
      + apply typed_write. destruct o; repeat constructor.
    - destruct op as [l d]. injection H as <- <- _. split; [exact Hst|]. apply of_option_ok in Hop. cbn in Hop. by eapply He.
  Qed.
  Lemma reply_fine (st : gmap addr contract) me data st' : all_fine st -> reply st me data = Ok st' -> all_fine st'.
  Proof.
    intros Hg H. unfold reply, chain in H. destruct (st !! me) as [[]|] eqn:E; try (injection H as <-; exact Hg).
    apply rbind_ok in H as ([s' ?] & Hr & H). injection H as <-. apply map_err_ok in Hr. unfold prover_reply in Hr.
    apply rbind_ok in Hr as (b & _ & Hr). apply rbind_ok in Hr as (i & _ & Hr). injection Hr as <- _.
    apply fine_insert; [done|]. exact (Hg _ _ E).
  Qed.

  Definition read_qres (r : chain * list qcall * option N) : chain * list wcall * option N :=
    (r.1.1, read_qcall <$> r.1.2, r.2).
  Lemma qsubs_sim me wcall1 qcall1 :
    (forall st tr m, all_fine st -> typed_funds m ->
       wcall1 st (read_qcall <$> tr) m = map_ok read_qres (qcall1 st tr m) /\
       forall r, qcall1 st tr m = Ok r -> all_fine r.1.1) ->
    forall (subs : list wsub) st tr, all_fine st -> Forall typed_funds subs ->
    wrun_subs wcall1 me st (read_qcall <$> tr) subs = map_ok (fun r => (r.1, read_qcall <$> r.2)) (qrun_subs qcall1 me st tr subs) /\
    forall r, qrun_subs qcall1 me st tr subs = Ok r -> all_fine r.1.
  Proof.
    intros Hcall subs. induction subs as [|m subs IH]; intros st tr Hg Hf.
    - cbn. split; [reflexivity|]. by intros r [= <-].
    - inversion Hf; subst. cbn [wrun_subs qrun_subs]. destruct (Hcall st tr m Hg) as [-> Hg']; [done|].
      destruct (qcall1 st tr m) as [[[st1 tr1] data]|e|]; cbn [map_ok rbind read_qres fst snd]; [|fails..].
      specialize (Hg' _ eq_refl). cbn in Hg'.
      assert (forall st2, (if wb_reply m then reply st1 me data else Ok st1) = Ok st2 -> all_fine st2) as Hst2.
      { intros st2. destruct (wb_reply m); [by apply reply_fine|]. by intros [= <-]. }
      destruct (if wb_reply m then reply st1 me data else Ok st1) as [st2|e|]; cbn [rbind map_ok]; [|fails..].
      apply IH; [by apply Hst2|done].
  Qed.
  Lemma qexec_sim e : typed_env e -> forall gas a st tr m, all_fine st -> typed_funds m ->
    wexec_call gas (read_answers e) a st (read_qcall <$> tr) m = map_ok read_qres (qexec_call gas e a st tr m) /\
    forall r, qexec_call gas e a st tr m = Ok r -> all_fine r.1.1.
  Proof.
    intros He gas. induction gas as [|g IH]; intros a st tr m Hg Hm; [fails|].
    cbn [QueryModel.qexec_call WireSystemModel.wexec_call]. rewrite fmap_length. rewrite (receive_same e (length tr) st a m Hg).
    destruct (wreceive (read_answers e) (length tr) st a m) as [[[c subs] data]|x|] eqn:Er; cbn [map_ok rbind fst snd]; [|fails..].
    destruct (receive_fine _ _ _ _ _ _ _ _ Hg He Hm Er) as [Hg1 Hf].
    set (qk := {| qk_chain := st; qk_env := e; qk_index := length tr; qk_sender := a; qk_sub := m |}).
    match goal with |- context [(read_qcall <$> tr) ++ [?k]] => change k with (read_qcall qk) end.
    replace ((read_qcall <$> tr) ++ [read_qcall qk]) with (read_qcall <$> (tr ++ [qk])) by (by rewrite fmap_app).
    destruct (qsubs_sim (wb_to m) (wexec_call g (read_answers e) (wb_to m)) (qexec_call g e (wb_to m))
      (IH (wb_to m)) subs _ (tr ++ [qk]) Hg1 Hf) as [-> Hg2].
    destruct (qrun_subs _ _ _ _ subs) as [[st2 tr2]|x|]; cbn [map_ok rbind fst snd read_qres]; [|fails..].
    split; [reflexivity|]. intros r [= <-]. exact (Hg2 _ eq_refl).
  Qed.
  Lemma qstep_sim t st : all_fine st -> typed_tx t ->
    wsystem_step st (read_qtx t) = map_ok (fun r => (r.1, read_qcall <$> r.2)) (qsystem_step st t) /\
    all_fine (exec qsystem_step st t).
  Proof.
    intros Hg [He Hm]. unfold WireSystemModel.wsystem_step, exec, QueryModel.qsystem_step. cbn [read_qtx wx_sender wx_gas wx_env wx_sub].
    destruct (ensure _ _) as [u|e|]; cbn [rbind map_ok]; [|(split; [reflexivity|exact Hg])..].
    destruct (qexec_sim (qx_env t) He (qx_gas t) (qx_sender t) st [] (qx_sub t) Hg Hm) as [H1 H2]. cbn [fmap list_fmap] in H1. rewrite H1.
    destruct (qexec_call (qx_gas t) (qx_env t) (qx_sender t) st [] (qx_sub t)) as [[[st' tr] data]|e|]; cbn [map_ok rbind read_qres fst snd]; [|(split; [reflexivity|exact Hg])..].
    split; [reflexivity|]. exact (H2 _ eq_refl).
  Qed.
  Lemma qrun_sim (ts : list qtx) : Forall typed_tx ts -> forall st, all_fine st ->
    run wsystem_step st (read_qtx <$> ts) = run qsystem_step st ts /\
    log wsystem_step st (read_qtx <$> ts) = read_qentry <$> log qsystem_step st ts /\
    all_fine (run qsystem_step st ts).
  Proof.
    induction 1 as [|t ts Ht Hts IH]; intros st Hg; [done|].
    destruct (qstep_sim t st Hg Ht) as [Hs Hg']. cbn [fmap list_fmap run log]. change (list_fmap _ _ ?f ?l) with (f <$> l).
    assert (exec wsystem_step st (read_qtx t) = exec qsystem_step st t) as He.
    { unfold exec. rewrite Hs. by destruct (qsystem_step st t) as [[]| |]. }
    assert (log1 wsystem_step st (read_qtx t) = read_qentry <$> log1 qsystem_step st t) as Hl.
    { unfold log1. rewrite Hs. by destruct (qsystem_step st t) as [[]| |]. }
    rewrite He, Hl, fmap_app. destruct (IH _ Hg') as (-> & -> & ?). done.
  Qed.
End Sim.
