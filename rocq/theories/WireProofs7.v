(** The system of texts does what the system of messages does. *)
From Verif Require Import Base BaseLemmas MapLemmas Text TextLemmas StdModel StdSpec StdProofs RouterTypes RegistryTypes OperatorsModel MultisigTypes
  EncodingModel VerifierModel RewardsModel RegistryModel RouterModel GatewayModel NexusModel MultisigModel ProverModel
  SystemModel EventsModel JsonModel JsonSpec JsonProofs WireModel WireSpec WireProofs WireProofs2 WireProofs3
  WireSystemModel WireSystemSpec WireProofs4 WireProofs5 WireProofs6.

Definition map_ok {E A B} (f : A -> B) (r : res E A) : res E B :=
  match r with Ok a => Ok (f a) | Err e => Err e | Panic => Panic end.

Definition is_prover (c : option contract) : bool := match c with Some (CProver _ _) => true | _ => false end.
Definition good_contract (c : contract) : Prop :=
  match c with CProver c s => proper_chain (pc_chain c) /\ sets_proper s | _ => True end.
Definition good (d : gmap addr deployed) (st : gmap addr contract) : Prop :=
  (forall a, is_prover (st !! a) = match d !! a with Some (DProver _) => true | _ => false end) /\
  (forall a c, st !! a = Some c -> good_contract c).

Lemma good_insert d (st : gmap addr contract) a c c' : good d st -> st !! a = Some c -> is_prover (Some c') = is_prover (Some c) -> good_contract c' ->
  good d (<[a := c']> st).
Proof.
  intros [H1 H2] Ha Hp Hc. split.
  - intros b. destruct (decide (b = a)) as [->|Hne]; [|by rewrite lookup_insert_ne].
    rewrite lookup_insert, Hp, <- Ha. apply H1.
  - intros b x Hb. destruct (decide (b = a)) as [->|Hne].
    + rewrite lookup_insert in Hb. injection Hb as <-. exact Hc.
    + rewrite lookup_insert_ne in Hb by done. by eapply H2.
Qed.
Lemma good_init d : proper_deployment d -> good d (system_init d).
Proof.
  intros Hd. unfold system_init. split.
  - intros a. rewrite lookup_fmap. destruct (d !! a) as [[]|]; reflexivity.
  - intros a c. rewrite lookup_fmap. destruct (d !! a) as [x|] eqn:E; [|discriminate]. intros [= <-].
    destruct x; try exact I. split; [by eapply Hd|]. split; intros w Hw; discriminate Hw.
Qed.

(** the message a recipient hears *)
Lemma heard {Op} (g : body -> option Op) d to t : g (refused d to) = None ->
  (b ← understood t; g b) = g (default (refused d to) (understood t)) /\
  (forall op, g (default (refused d to) (understood t)) = Some op -> proper_body (default (refused d to) (understood t))).
Proof.
  intros Hr. destruct (understood t) as [b|] eqn:E; cbn.
  - split; [reflexivity|]. intros op _. by eapply understood_proper.
  - split; [by rewrite Hr|]. intros op Hop. congruence.
Qed.
Lemma refused_other {Op} (g : body -> option Op) d st a c : good d st -> st !! a = Some c -> is_prover (Some c) = false ->
  g (BProver UpdateWorkerSet) = None -> g (refused d a) = None.
Proof.
  intros [H1 _] Ha Hc Hg. unfold refused. specialize (H1 a). rewrite Ha, Hc in H1.
  destruct (d !! a) as [[]|]; try exact Hg. discriminate H1.
Qed.
Lemma read_all d l : all_proper l -> read_sub d <$> (write <$> l) = l.
Proof. induction 1 as [|m l Hm Hl IH]; [reflexivity|]. cbn. change (list_fmap _ _ ?f ?l) with (f <$> l). by rewrite IH, read_write. Qed.

Ltac fails := solve [split; [reflexivity|intros; discriminate]].
Section Sim.
  Context (keccak : string -> string) (wshash : worker_set -> string)
          (sec1 : string -> option string)
          (crypto : key_type -> string -> string -> string -> option bool).
  Notation wreceive := (wreceive keccak wshash sec1 crypto).
  Notation receive := (receive keccak wshash sec1 crypto).
  Notation wexec_call := (wexec_call keccak wshash sec1 crypto).
  Notation exec_call := (exec_call keccak wshash sec1 crypto).
  Notation wsystem_step := (wsystem_step keccak wshash sec1 crypto).
  Notation system_step := (system_step keccak wshash sec1 crypto).

  Lemma answers_proper w n st : proper_env (we_env w) -> answers_keys (prover_env keccak (we_env w) n st).
  Proof.
    intros [_ Hk] a x t k H. cbn in H. unfold q_key in H. destruct (st !! a) as [[]|]; try discriminate H; [|by eapply Hk].
    unfold ask in H. destruct (get_public_key s x t) as [k'| |] eqn:E; try discriminate H. injection H as <-.
    unfold get_public_key in E. apply rbind_ok in E as (raw & _ & E). apply expect_ok in E. by eapply try_from_proper.
  Qed.

  Lemma receive_sim d w n (st : gmap addr contract) a m : good d st -> proper_env (we_env w) ->
    receive (read_env d w) n st a (read_sub d m) =
      map_ok (fun r => (r.1.1, read_sub d <$> r.1.2, r.2)) (wreceive w n st a m) /\
    forall c subs data, wreceive w n st a m = Ok (c, subs, data) -> good d (settle st (wb_to m) c).
  Proof.
    intros Hg He. unfold SystemModel.receive, WireSystemModel.wreceive, chain. cbv zeta.
    change (sb_to (read_sub d m)) with (wb_to m). change (sb_funds (read_sub d m)) with (wb_funds m).
    change (sb_body (read_sub d m)) with (default (refused d (wb_to m)) (understood (wb_text m))).
    destruct (st !! wb_to m) as [[s|s|s|s|s|s|s|c s]|] eqn:E.
    - destruct (heard (router_op a) d (wb_to m) (wb_text m)) as [H1 H2]; [by eapply refused_other|].
      rewrite rt_reads, H1. set (b := default _ _) in *. destruct (router_op a b) as [op|] eqn:Eop; cbn [of_option rbind map_ok]; [|fails].
      specialize (H2 _ eq_refl). destruct (router_step s op) as [[s' o]|e|] eqn:Es; cbn [map_err rbind map_ok fst snd]; [|fails..].
      rewrite read_all by (by eapply router_sends). split; [reflexivity|]. intros ? ? ? [= <- <- <-]. by eapply good_insert.
    - match goal with |- context [gw_call a ?ans _] => set (answer := ans) end.
      change (q_is_verified keccak (read_env d w) n st (gc_verifier (gw_config s))) with answer.
      destruct (heard (gateway_op answer a) d (wb_to m) (wb_text m)) as [H1 H2]; [by eapply refused_other|].
      rewrite gw_reads, H1. set (b := default _ _) in *. destruct (gateway_op answer a b) as [op|] eqn:Eop; cbn [of_option rbind map_ok]; [|fails].
      specialize (H2 _ eq_refl). destruct (gateway_step s op) as [[s' o]|e|] eqn:Es; cbn [map_err rbind map_ok fst snd]; [|fails..].
      rewrite read_all by (by eapply gateway_sends). split; [reflexivity|]. intros ? ? ? [= <- <- <-]. by eapply good_insert.
    - destruct (heard (nexus_op a) d (wb_to m) (wb_text m)) as [H1 H2]; [by eapply refused_other|].
      rewrite nx_reads, H1. set (b := default _ _) in *. destruct (nexus_op a b) as [op|] eqn:Eop; cbn [of_option rbind map_ok]; [|fails].
      specialize (H2 _ eq_refl). destruct (nexus_step s op) as [[s' o]|e|] eqn:Es; cbn [map_err rbind map_ok fst snd]; [|fails..].
      rewrite read_all by (by eapply nexus_sends). split; [reflexivity|]. intros ? ? ? [= <- <- <-]. by eapply good_insert.
    - match goal with |- context [vv_call ?h' a ?r _] => set (h := h'); set (reg := r) end.
      change (en_height (read_env d w)) with h. change (q_active (read_env d w) n st) with reg.
      destruct (heard (verifier_op h reg a) d (wb_to m) (wb_text m)) as [H1 H2]; [by eapply refused_other|].
      rewrite vv_reads, H1. set (b := default _ _) in *. destruct (verifier_op h reg a b) as [op|] eqn:Eop; cbn [of_option rbind map_ok]; [|fails].
      destruct (verifier_step keccak s op) as [[s' o]|e|] eqn:Es; cbn [map_err rbind map_ok fst snd]; [|fails..].
      rewrite read_all by (by eapply verifier_sends). split; [reflexivity|]. intros ? ? ? [= <- <- <-]. by eapply good_insert.
    - change (en_height (read_env d w)) with (en_height (we_env w)). set (h := en_height (we_env w)).
      destruct (heard (rewards_op h a (wb_funds m)) d (wb_to m) (wb_text m)) as [H1 H2]; [by eapply refused_other|].
      rewrite rw_reads, H1. set (b := default _ _) in *. destruct (rewards_op h a (wb_funds m) b) as [op|] eqn:Eop; cbn [of_option rbind map_ok]; [|fails].
      destruct (rewards_step s op) as [[s' o]|e|] eqn:Es; cbn [map_err rbind map_ok fst snd]; [|fails..].
      split; [reflexivity|]. intros ? ? ? [= <- <- <-]. by eapply good_insert.
    - change (en_time (read_env d w)) with (en_time (we_env w)). set (h := en_time (we_env w)).
      destruct (heard (registry_op h a (wb_funds m)) d (wb_to m) (wb_text m)) as [H1 H2]; [by eapply refused_other|].
      rewrite sr_reads, H1. set (b := default _ _) in *. destruct (registry_op h a (wb_funds m) b) as [op|] eqn:Eop; cbn [of_option rbind map_ok]; [|fails].
      destruct (registry_step s op) as [[s' o]|e|] eqn:Es; cbn [map_err rbind map_ok fst snd]; [|fails..].
      split; [reflexivity|]. intros ? ? ? [= <- <- <-]. by eapply good_insert.
    - change (en_height (read_env d w)) with (en_height (we_env w)). set (h := en_height (we_env w)).
      destruct (heard (multisig_op h a) d (wb_to m) (wb_text m)) as [H1 H2]; [by eapply refused_other|].
      rewrite ms_reads, H1. set (b := default _ _) in *. destruct (multisig_op h a b) as [op|] eqn:Eop; cbn [of_option rbind map_ok]; [|fails].
      destruct (multisig_step _ crypto s op) as [[s' o]|e|] eqn:Es; cbn [map_err rbind map_ok fst snd]; [|fails..].
      rewrite read_all by (by eapply multisig_sends). split; [reflexivity|]. intros ? ? ? [= <- <- <-]. by eapply good_insert.
    - change (prover_env keccak (read_env d w) n st) with (prover_env keccak (we_env w) n st). set (env := prover_env keccak (we_env w) n st).
      destruct (heard (fun b => match b with BProver c => Some c | _ => None end) d (wb_to m) (wb_text m)) as [H1 H2].
      { unfold refused. destruct Hg as [Hg _]. specialize (Hg (wb_to m)). rewrite E in Hg. cbn in Hg. destruct (d !! wb_to m) as [[]|]; try discriminate Hg. done. }
      rewrite pr_reads, H1. set (b := default _ _) in *.
      destruct (match b with BProver c => Some c | _ => None end) as [pc|] eqn:Eop; cbn [of_option rbind map_ok]; [|fails].
      destruct (prover_execute keccak wshash sec1 c env s pc) as [[s' o]|e|] eqn:Es; cbn [map_err rbind map_ok fst snd]; [|fails..].
      destruct (proj2 Hg _ _ E) as [Hc Hsets].
      destruct (prover_sends _ _ _ _ _ _ _ _ _ (answers_proper w n st He) (proj1 He) Hc Hsets Es) as [Hs' Ho].
      rewrite read_all by exact Ho. split; [reflexivity|]. intros ? ? ? [= <- <- <-]. eapply good_insert; [exact Hg|exact E|reflexivity|by split].
    - change (en_other (read_env d w) n) with (match we_other w n with Some p => Some (read_sub d <$> p.1, p.2) | None => None end).
      destruct (we_other w n) as [[subs data]|]; cbn; [|fails]. split; [reflexivity|]. by intros ? ? ? [= <- <- <-].
  Qed.

  Lemma reply_good d (st : gmap addr contract) me data st' : good d st -> reply st me data = Ok st' -> good d st'.
  Proof.
    intros Hg H. unfold reply, chain in H. destruct (st !! me) as [[]|] eqn:E; try (injection H as <-; exact Hg).
    apply rbind_ok in H as ([s' ?] & Hr & H). injection H as <-. apply map_err_ok in Hr. unfold prover_reply in Hr.
    apply rbind_ok in Hr as (b & _ & Hr). apply rbind_ok in Hr as (i & _ & Hr). injection Hr as <- _.
    destruct (proj2 Hg _ _ E) as [Hc Hsets]. eapply good_insert; [exact Hg|exact E|reflexivity|]. split; [exact Hc|exact Hsets].
  Qed.

  Definition read_res (d : gmap addr deployed) (r : chain * list wcall * option N) : chain * list call * option N :=
    (r.1.1, read_call d <$> r.1.2, r.2).
  Lemma subs_sim d w me call1 wcall1 :
    (forall st tr m, good d st ->
       call1 st (read_call d <$> tr) (read_sub d m) = map_ok (read_res d) (wcall1 st tr m) /\
       forall r, wcall1 st tr m = Ok r -> good d r.1.1) ->
    forall (subs : list wsub) st tr, good d st -> proper_env (we_env w) ->
    run_subs call1 me st (read_call d <$> tr) (read_sub d <$> subs) =
      map_ok (fun r => (r.1, read_call d <$> r.2)) (wrun_subs wcall1 me st tr subs) /\
    forall r, wrun_subs wcall1 me st tr subs = Ok r -> good d r.1.
  Proof.
    intros Hcall subs. induction subs as [|m subs IH]; intros st tr Hg He.
    - cbn. split; [reflexivity|]. by intros r [= <-].
    - cbn [fmap list_fmap run_subs wrun_subs]. destruct (Hcall st tr m Hg) as [-> Hg'].
      destruct (wcall1 st tr m) as [[[st1 tr1] data]|e|]; cbn [map_ok rbind read_res fst snd]; [|fails..].
      specialize (Hg' _ eq_refl). cbn in Hg'. change (sb_reply (read_sub d m)) with (wb_reply m).
      assert (forall st2, (if wb_reply m then reply st1 me data else Ok st1) = Ok st2 -> good d st2) as Hst2.
      { intros st2. destruct (wb_reply m); [by apply reply_good|]. by intros [= <-]. }
      destruct (if wb_reply m then reply st1 me data else Ok st1) as [st2|e|]; cbn [rbind map_ok]; [|fails..].
      apply IH; [by apply Hst2|done].
  Qed.
  Lemma exec_sim d w : proper_env (we_env w) -> forall gas a st tr m, good d st ->
    exec_call gas (read_env d w) a st (read_call d <$> tr) (read_sub d m) =
      map_ok (read_res d) (wexec_call gas w a st tr m) /\
    forall r, wexec_call gas w a st tr m = Ok r -> good d r.1.1.
  Proof.
    intros He gas. induction gas as [|g IH]; intros a st tr m Hg; [fails|].
    cbn [SystemModel.exec_call WireSystemModel.wexec_call]. rewrite fmap_length.
    destruct (receive_sim d w (length tr) st a m Hg He) as [-> Hg1].
    destruct (wreceive w (length tr) st a m) as [[[c subs] data]|e|]; cbn [map_ok rbind fst snd]; [|fails..].
    specialize (Hg1 _ _ _ eq_refl). change (sb_to (read_sub d m)) with (wb_to m).
    set (wk := {| wk_chain := st; wk_env := w; wk_index := length tr; wk_sender := a; wk_sub := m |}).
    match goal with |- context [(read_call d <$> tr) ++ [?k]] => change k with (read_call d wk) end.
    replace ((read_call d <$> tr) ++ [read_call d wk]) with (read_call d <$> (tr ++ [wk])) by (by rewrite fmap_app).
    destruct (subs_sim d w (wb_to m) (exec_call g (read_env d w) (wb_to m)) (wexec_call g w (wb_to m))
      (IH (wb_to m)) subs _ (tr ++ [wk]) Hg1 He) as [-> Hg2].
    destruct (wrun_subs _ _ _ _ subs) as [[st2 tr2]|e|]; cbn [map_ok rbind fst snd read_res]; [|fails..].
    split; [reflexivity|]. intros r [= <-]. exact (Hg2 _ eq_refl).
  Qed.
  Lemma step_sim d t st : good d st -> proper_tx t ->
    system_step st (read_tx d t) = map_ok (fun r => (r.1, read_call d <$> r.2)) (wsystem_step st t) /\
    good d (exec wsystem_step st t).
  Proof.
    intros Hg He. unfold SystemModel.system_step, exec, WireSystemModel.wsystem_step. cbn [read_tx tx_sender tx_gas tx_env tx_sub].
    destruct (ensure _ _) as [u|e|]; cbn [rbind map_ok]; [|(split; [reflexivity|exact Hg])..].
    destruct (exec_sim d (wx_env t) He (wx_gas t) (wx_sender t) st [] (wx_sub t) Hg) as [H1 H2]. cbn [fmap list_fmap] in H1. rewrite H1.
    destruct (wexec_call (wx_gas t) (wx_env t) (wx_sender t) st [] (wx_sub t)) as [[[st' tr] data]|e|]; cbn [map_ok rbind read_res fst snd]; [|(split; [reflexivity|exact Hg])..].
    split; [reflexivity|]. exact (H2 _ eq_refl).
  Qed.
  Lemma run_sim d (ts : list wtx) : Forall proper_tx ts -> forall st, good d st ->
    run system_step st (read_tx d <$> ts) = run wsystem_step st ts /\
    log system_step st (read_tx d <$> ts) =
      read_entry d <$> log wsystem_step st ts.
  Proof.
    induction 1 as [|t ts Ht Hts IH]; intros st Hg; [done|].
    destruct (step_sim d t st Hg Ht) as [Hs Hg']. cbn [fmap list_fmap run log]. change (list_fmap _ _ ?f ?l) with (f <$> l).
    assert (exec system_step st (read_tx d t) = exec wsystem_step st t) as He.
    { unfold exec. rewrite Hs. by destruct (wsystem_step st t) as [[]| |]. }
    assert (log1 system_step st (read_tx d t) = read_entry d <$> log1 wsystem_step st t) as Hl.
    { unfold log1. rewrite Hs. by destruct (wsystem_step st t) as [[]| |]. }
    rewrite He, Hl, fmap_app. destruct (IH _ Hg') as [-> ->]. done.
  Qed.
End Sim.
