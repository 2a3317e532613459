(** A prover and its multisig, inside the whole system. *)
From Verif Require Import Base BaseLemmas Text StdModel RouterTypes RegistryTypes OperatorsModel MultisigTypes
  RouterModel GatewayModel NexusModel RewardsModel RegistryModel VerifierModel MultisigModel EncodingModel ProverModel
  SigningModel SystemModel SystemSpec SystemProofs SystemProofs2 SystemProofs3.

Section Pair.
  Context (keccak : string -> string) (wshash : worker_set -> string)
          (sec1 : string -> option string)
          (crypto : key_type -> string -> string -> string -> option bool).
  Notation received := (received keccak wshash sec1 crypto).
  Notation receive := (receive keccak wshash sec1 crypto).
  Notation exec_call := (exec_call keccak wshash sec1 crypto).
  Notation system_step := (system_step keccak wshash sec1 crypto).
  Notation execute := (prover_execute keccak wshash sec1).
  Notation mstep := (multisig_step (worker_set_id wshash) crypto).

  (** The prover asks its own multisig for keys, no other contract. *)
  Lemma try_map_ext {A B E} (f g : A -> res E B) l : (forall a, f a = g a) -> try_map f l = try_map g l.
  Proof. intros H. induction l as [|a l IH]; [done|]. cbn [try_map]. by rewrite H, IH. Qed.
  Lemma execute_env c env env' s pc :
    pe_height env = pe_height env' -> pe_messages env = pe_messages env' -> pe_active env = pe_active env' ->
    pe_verified env = pe_verified env' ->
    (forall w t, pe_key env (pc_multisig c) w t = pe_key env' (pc_multisig c) w t) ->
    execute c env s pc = execute c env' s pc.
  Proof.
    intros H1 H2 H3 H4 H5.
    assert (Hm : make_worker_set c env = make_worker_set c env').
    { unfold make_worker_set. rewrite H3. destruct (of_option _ _) as [ws| |]; try done. cbn [rbind].
      rewrite (try_map_ext (fun w => of_option PStd (pe_key env (pc_multisig c) (w_addr w) (pc_key_type c)))
                           (fun w => of_option PStd (pe_key env' (pc_multisig c) (w_addr w) (pc_key_type c)))) by (intros w; by rewrite H5).
      by rewrite H1. }
    assert (Hn : get_next_worker_set c env s = get_next_worker_set c env' s) by (unfold get_next_worker_set; by rewrite Hm).
    destruct pc as [ids| |]; cbn [prover_execute].
    - unfold construct_proof, ProverModel.get_messages, find_batch. by rewrite H2, Hn.
    - unfold update_worker_set. by rewrite Hm, Hn.
    - unfold confirm_worker_set. by rewrite H4.
  Qed.

  Section Run.
  Context (P : addr) (c : pconfig).
  Notation M := (pc_multisig c).
  Notation sstep := (signing_step keccak wshash sec1 crypto c P).
  Notation sops := (signing_ops keccak P c).
  Notation holds := (fun st s => pair_state st P c s).
  (** The calls [new] took the pair from [s] to what [st'] holds. *)
  Definition tracks (s : ssys) (new : list call) (st' : chain) : Prop :=
    holds st' (run sstep s (sops new)) /\ (log sstep s (sops new)).*1 = sops new /\
    (fun e => so_mop e.2) <$> log sstep s (sops new) = multisig_ops M new /\
    forall a k b, new = a ++ k :: b -> k_sender k <> P -> holds (k_chain k) (run sstep s (sops a)).

  Lemma tracks_app s l1 st1 l2 st2 : tracks s l1 st1 -> tracks (run sstep s (sops l1)) l2 st2 -> tracks s (l1 ++ l2) st2.
  Proof.
    intros (H1 & L1 & O1 & A1) (H2 & L2 & O2 & A2). unfold tracks. unfold signing_ops in *. rewrite omap_app, run_app. split; [done|]. split.
    { rewrite log_app, fmap_app. by rewrite L1, L2. }
    split.
    { rewrite log_app, fmap_app. unfold multisig_ops, calls_to in *. by rewrite omap_app, O1, O2. }
    intros a k b E Hk. apply app_split_at in E as [(b1 & E & ->)|(a1 & -> & E)].
    - by eapply A1.
    - rewrite omap_app, run_app. by eapply A2.
  Qed.

  Lemma subs_tracks (f : chain -> list call -> sub -> res syserror (chain * list call * option N)) me :
    me <> P ->
    (forall st tr m st' tr' d s, holds st s -> f st tr m = Ok (st', tr', d) -> exists new, tr' = tr ++ new /\ tracks s new st') ->
    forall subs st tr st' tr' s, holds st s -> run_subs f me st tr subs = Ok (st', tr') ->
      exists new, tr' = tr ++ new /\ tracks s new st'.
  Proof.
    intros Hme Hf. induction subs as [|m subs IH]; intros st tr st' tr' s Hs; cbn [run_subs].
    - intros [= <- <-]. exists []. rewrite app_nil_r. split; [done|]. split; [done|]. split; [done|]. split; [done|]. intros a k b E. by destruct a.
    - intros ([[st1 tr1] d] & H1 & (st2 & H2 & H3)%rbind_ok)%rbind_ok. cbn [fst snd] in *.
      destruct (Hf _ _ _ _ _ _ _ Hs H1) as (n1 & -> & T1).
      assert (Hs2 : holds st2 (run sstep s (sops n1))).
      { destruct (sb_reply m); [|injection H2 as <-; apply T1]. destruct T1 as [[E1 E2] _].
        unfold reply in H2. destruct (st1 !! me) as [[]|] eqn:Em; try (injection H2 as <-; done).
        apply rbind_ok in H2 as ([s' ?] & _ & [= <-]). split; (etrans; [apply lookup_insert_ne|]); try done.
        intros ->. rewrite Em in E2. discriminate E2. }
      destruct (IH _ _ _ _ _ Hs2 H3) as (n2 & -> & T2). exists (n1 ++ n2). split; [by rewrite app_assoc|].
      eapply tracks_app; [|exact T2]. exact T1.
  Qed.

  Lemma start_out ms a id digest ch ms' o : mstep ms (StartSession a id digest ch) = Ok (ms', o) ->
    multisig_subs o = [] /\ multisig_data o = response_data o.
  Proof.
    cbn [multisig_step]. intros H. destruct o; try done. exfalso.
    unfold start_session in H. repeat (apply rbind_ok in H as (? & _ & H)). discriminate H.
  Qed.
  Lemma register_out ms a ws ms' o : mstep ms (RegisterWorkerSet a ws) = Ok (ms', o) ->
    multisig_subs o = [] /\ multisig_data o = response_data o.
  Proof. cbn [multisig_step]. intros H. by destruct o. Qed.

  Lemma exec_tracks gas e : forall sender st tr m st' tr' d s, sender <> P -> holds st s ->
    exec_call gas e sender st tr m = Ok (st', tr', d) -> exists new, tr' = tr ++ new /\ tracks s new st'.
  Proof.
    induction gas as [|g IH]; intros sender st tr m st' tr' d s Hsd [HP HM]; cbn [SystemModel.exec_call]; [done|].
    intros ([[c' subs] data] & H1 & ([st1 tr1] & H2 & H3)%rbind_ok)%rbind_ok. injection H3 as -> -> _. cbn [fst snd] in H2.
    set (k := {| k_chain := st; k_env := e; k_index := length tr; k_sender := sender; k_sub := m |}) in *.
    destruct (decide (sb_to m = P)) as [HtP|HnP].
    - (* the prover itself *)
      unfold SystemModel.receive in H1. rewrite HtP, HP in H1.
      apply rbind_ok in H1 as (pc & Hpc%of_option_ok & ([p1 msg] & Hex%map_err_ok & [= <- <- <-])%rbind_ok).
      destruct (sb_body m) as [| | | | | | | | | | | | | | | | | | | | | | | | | | |pc0] eqn:Eb; try discriminate Hpc. injection Hpc as ->.
      assert (HMP : M <> P) by (intros E; rewrite E, HP in HM; discriminate HM).
      assert (Hex' : execute c (with_keys (prover_env keccak e (length tr) st) (sy_multisig s)) (sy_prover s) pc = Ok (p1, msg)).
      { rewrite <- Hex. symmetry. apply execute_env; try done. intros w t. cbn. unfold q_key. rewrite HM. done. }
      cbn [settle] in H2.
      assert (HM1 : (<[P := CProver c p1]> st : chain) !! M = Some (CMultisig (sy_multisig s))).
      { etrans; [by apply lookup_insert_ne|done]. }
      assert (Hto : match msg with MsgStart to _ _ _ | MsgRegister to _ => to = M end).
      { clear -Hex. destruct pc as [ids| |]; cbn [prover_execute] in Hex.
        - unfold construct_proof in Hex. repeat (apply rbind_ok in Hex as (? & _ & Hex)). 
          repeat match goal with x : _ * _ |- _ => destruct x end; cbn in Hex.
          repeat (apply rbind_ok in Hex as (? & _ & Hex)). by injection Hex as _ <-.
        - unfold update_worker_set in Hex. destruct (pv_current _); repeat (apply rbind_ok in Hex as (? & _ & Hex)); by injection Hex as _ <-.
        - unfold confirm_worker_set in Hex. repeat (apply rbind_ok in Hex as (? & _ & Hex)). by injection Hex as _ <-. }
      rewrite HtP in H2.
      destruct msg as [to id digest ch|to ws]; subst to; cbn [prover_subs run_subs] in H2; unfold plain in H2.
      + apply rbind_ok in H2 as ([[st2 tr2] d2] & H2 & (st3 & H4 & [= -> ->])%rbind_ok). cbn [fst snd sb_reply] in *.
        destruct g as [|g]; [discriminate H2|]. cbn [SystemModel.exec_call] in H2.
        apply rbind_ok in H2 as ([[c2 subs2] data2] & H5 & ([st4 tr4] & H6 & [= -> -> <-])%rbind_ok). cbn [fst snd] in *.
        unfold SystemModel.receive in H5. cbn [sb_to sb_body] in H5. rewrite HM1 in H5. cbn [multisig_op of_option rbind] in H5.
        apply rbind_ok in H5 as ([ms' o] & Hm%map_err_ok & [= <- <- <-]).
        destruct (start_out _ _ _ _ _ _ _ Hm) as [Eo Ed]. rewrite Eo in H6. cbn [run_subs] in H6. injection H6 as <- <-.
        cbn [settle sb_to] in H4. unfold reply in H4.
        assert (HP2 : (<[M := CMultisig ms']> (<[P := CProver c p1]> st) : chain) !! P = Some (CProver c p1)).
        { etrans; [by apply lookup_insert_ne|]. apply lookup_insert. }
        cbn [sb_to] in HP2. rewrite HP2 in H4. apply rbind_ok in H4 as ([p2 ev] & Hre%map_err_ok & [= <-]). rewrite Ed in Hre.
        exists [k; {| k_chain := <[P := CProver c p1]> st; k_env := e; k_index := length (tr ++ [k]); k_sender := P;
                      k_sub := {| sb_to := M; sb_body := BStartSession id digest ch; sb_funds := []; sb_reply := true |} |}].
        split; [by rewrite <- app_assoc|].
        assert (Eops : sops [k; {| k_chain := <[P := CProver c p1]> st; k_env := e; k_index := length (tr ++ [k]); k_sender := P;
                      k_sub := {| sb_to := M; sb_body := BStartSession id digest ch; sb_funds := []; sb_reply := true |} |}]
                       = [SProve pc (prover_env keccak e (length tr) st)]).
        { unfold signing_ops. cbn [omap list_omap]. unfold k_to. cbn [k_sub k sb_to sb_body k_env k_index k_chain k_sender]. rewrite HtP, Eb.
          rewrite (bool_decide_true (P = P)) by done. rewrite (bool_decide_false (M = P)) by done.
          rewrite (bool_decide_true (M = M)) by done. rewrite (bool_decide_false (P <> P)) by naive_solver. done. }
        unfold tracks. rewrite Eops. cbn [run log]. unfold log1, exec. cbn [signing_step]. rewrite Hex'. cbn [map_err rbind message_op].
        rewrite Hm. cbn [map_err rbind]. rewrite Hre. cbn [map_err rbind]. split; [|split; [|split]].
        * split; cbn [sy_prover sy_multisig]; [apply lookup_insert|]. etrans; [by apply lookup_insert_ne|]. apply lookup_insert.
        * done.
        * unfold multisig_ops, calls_to. cbn [omap list_omap fmap list_fmap app so_mop snd]. unfold k_to. cbn [k_sub k sb_to sb_body k_env k_index k_chain k_sender]. rewrite HtP.
          rewrite (bool_decide_false (P = M)) by done. by rewrite (bool_decide_true (M = M)) by done.
        * intros a k0 b E Hk0. destruct a as [|k1 a]; cbn [app] in E.
          -- injection E as <- _. split; done.
          -- injection E as <- E. destruct a as [|k2 a]; cbn [app] in E; [|by destruct a].
             injection E as <- _. by destruct Hk0.
      + apply rbind_ok in H2 as ([[st2 tr2] d2] & H2 & (st3 & H4 & [= -> ->])%rbind_ok). cbn [fst snd sb_reply plain] in *.
        injection H4 as <-.
        destruct g as [|g]; [discriminate H2|]. cbn [SystemModel.exec_call] in H2.
        apply rbind_ok in H2 as ([[c2 subs2] data2] & H5 & ([st4 tr4] & H6 & [= -> -> <-])%rbind_ok). cbn [fst snd] in *.
        unfold SystemModel.receive in H5. cbn [sb_to sb_body] in H5. rewrite HM1 in H5. cbn [multisig_op of_option rbind] in H5.
        apply rbind_ok in H5 as ([ms' o] & Hm%map_err_ok & [= <- <- <-]).
        destruct (register_out _ _ _ _ _ Hm) as [Eo Ed]. rewrite Eo in H6. cbn [run_subs] in H6. injection H6 as <- <-.
        cbn [settle sb_to].
        exists [k; {| k_chain := <[P := CProver c p1]> st; k_env := e; k_index := length (tr ++ [k]); k_sender := P;
                      k_sub := {| sb_to := M; sb_body := BRegisterWorkerSet ws; sb_funds := []; sb_reply := false |} |}].
        split; [by rewrite <- app_assoc|].
        assert (Eops : sops [k; {| k_chain := <[P := CProver c p1]> st; k_env := e; k_index := length (tr ++ [k]); k_sender := P;
                      k_sub := {| sb_to := M; sb_body := BRegisterWorkerSet ws; sb_funds := []; sb_reply := false |} |}]
                       = [SProve pc (prover_env keccak e (length tr) st)]).
        { unfold signing_ops. cbn [omap list_omap]. unfold k_to. cbn [k_sub k sb_to sb_body k_env k_index k_chain k_sender]. rewrite HtP, Eb.
          rewrite (bool_decide_true (P = P)) by done. rewrite (bool_decide_false (M = P)) by done.
          rewrite (bool_decide_true (M = M)) by done. rewrite (bool_decide_false (P <> P)) by naive_solver. done. }
        unfold tracks. rewrite Eops. cbn [run log]. unfold log1, exec. cbn [signing_step]. rewrite Hex'. cbn [map_err rbind message_op].
        rewrite Hm. cbn [map_err rbind]. split; [|split; [|split]].
        * split; cbn [sy_prover sy_multisig]; [|apply lookup_insert]. etrans; [by apply lookup_insert_ne|]. apply lookup_insert.
        * done.
        * unfold multisig_ops, calls_to. cbn [omap list_omap fmap list_fmap app so_mop snd]. unfold k_to. cbn [k_sub k sb_to sb_body k_env k_index k_chain k_sender]. rewrite HtP.
          rewrite (bool_decide_false (P = M)) by done. by rewrite (bool_decide_true (M = M)) by done.
        * intros a k0 b E Hk0. destruct a as [|k1 a]; cbn [app] in E.
          -- injection E as <- _. split; done.
          -- injection E as <- E. destruct a as [|k2 a]; cbn [app] in E; [|by destruct a].
             injection E as <- _. by destruct Hk0.
    - (* another contract *)
      assert (T1 : tracks s [k] (settle st (sb_to m) c')).
      { assert (Hk0 : forall a k0 b, [k] = a ++ k0 :: b -> k_sender k0 <> P -> holds (k_chain k0) (run sstep s (sops a))).
        { intros a k0 b E _. destruct a as [|k1 a]; cbn [app] in E; [|by destruct a]. injection E as <- _. split; done. }
        destruct (decide (sb_to m = M)) as [HtM|HnM].
        - unfold SystemModel.receive in H1. rewrite HtM, HM in H1.
          apply rbind_ok in H1 as (o & Ho%of_option_ok & ([ms' out] & Hm%map_err_ok & [= <- <- <-])%rbind_ok).
          assert (Eops : sops [k] = [SMultisig o]).
          { unfold signing_ops. cbn [omap list_omap]. unfold k_to. cbn [k_sub k sb_to sb_body k_env k_index k_chain k_sender].
            rewrite (bool_decide_false (sb_to m = P)) by done. rewrite HtM. rewrite (bool_decide_true (M = M)) by done.
            rewrite (bool_decide_true (sender <> P)) by done. cbn [andb]. by rewrite Ho. }
          unfold tracks. split; [|split; [|split; [|done]]]; rewrite Eops; cbn [run log]; unfold log1, exec; cbn [signing_step]; rewrite Hm; cbn [map_err rbind]; [|done|
            unfold multisig_ops, calls_to; cbn [omap list_omap fmap list_fmap app so_mop snd]; unfold k_to; cbn [k_sub k sb_to sb_body k_env k_index k_chain k_sender];
            rewrite HtM, (bool_decide_true (M = M)) by done; by rewrite Ho].
          rewrite HtM. cbn [settle]. split; cbn [sy_prover sy_multisig]; [|apply lookup_insert].
          etrans; [apply lookup_insert_ne|done]. intros E. apply HnP. by rewrite HtM.
        - assert (Eops : sops [k] = []).
          { unfold signing_ops. cbn [omap list_omap]. unfold k_to. cbn [k_sub k sb_to].
            rewrite (bool_decide_false (sb_to m = P)) by done. by rewrite (bool_decide_false (sb_to m = M)) by done. }
          unfold tracks. split; [|split; [|split; [|done]]]; rewrite Eops; cbn [run log]; [|done|
            unfold multisig_ops, calls_to; cbn [omap list_omap]; unfold k_to; cbn [k_sub k sb_to]; by rewrite (bool_decide_false (sb_to m = M)) by done].
          split; (etrans; [apply settle_ne|done]); done. }
      destruct (subs_tracks (exec_call g e (sb_to m)) (sb_to m) HnP
        (fun st0 tr0 m0 st0' tr0' d0 s0 Hs0 H0 => IH (sb_to m) st0 tr0 m0 st0' tr0' d0 s0 HnP Hs0 H0) _ _ _ _ _ _ (proj1 T1) H2)
        as (new & -> & T2).
      exists (k :: new). split; [by rewrite <- app_assoc|]. apply (tracks_app s [k] _ new _ T1 T2).
  Qed.

  Lemma step_tracks st t st' l s : holds st s -> system_step st t = Ok (st', l) -> tracks s l st'.
  Proof.
    intros Hs. unfold SystemModel.system_step. intros (u & Hu%ensure_ok%bool_decide_eq_true & ([[st1 tr1] d] & H2 & H3)%rbind_ok)%rbind_ok.
    injection H3 as -> ->. edestruct exec_tracks as (new & -> & T); [|exact Hs|exact H2|exact T].
    intros E. rewrite E in Hu. destruct Hs as [Hs _]. rewrite Hs in Hu. discriminate Hu.
  Qed.
  Lemma run_tracks txs : forall st s, holds st s -> tracks s (log system_step st txs ≫= snd) (run system_step st txs).
  Proof.
    induction txs as [|t txs IH]; intros st s Hs; cbn [run log].
    - split; [done|]. split; [done|]. split; [done|]. intros a k b E. by destruct a.
    - rewrite bind_app. unfold log1, exec. destruct (system_step st t) as [[st' l]| |] eqn:E; cbn; [|by apply IH..].
      rewrite app_nil_r. pose proof (step_tracks _ _ _ _ _ Hs E) as T. eapply tracks_app; [exact T|]. apply IH. apply T.
  Qed.
  End Run.
End Pair.
