(** Concrete histories of prover and multisig together. *)
From Verif Require Import Base BaseLemmas Text StdModel StdSpec RegistryTypes RouterTypes MultisigTypes OperatorsModel
  MultisigModel MultisigSpec MultisigExamples EncodingModel EncodingSpec EncodingExamples ProverModel ProverSpec
  ProverExamples SigningModel SigningSpec SigningProofs SigningProofs2 SigningProofs3.

Notation ex_srun e ops :=
  (srun ex_keccak ex_wshash ex_sec1 ex_crypto (pcfg e) "prover" "gov" "rewards" 10 ops).
Notation ex_slog e ops :=
  (slog ex_keccak ex_wshash ex_sec1 ex_crypto (pcfg e) "prover" "gov" "rewards" 10 ops).

(** the prover may start sessions, the workers have keys, and the first
    worker set is in place *)
Definition ex_setup (e : encoder) : list sop :=
  [SMultisig (SetCaller "gov" true "prover");
   SMultisig (RegisterPublicKey "alice" KEcdsa (repeat_char 33 "a"));
   SMultisig (RegisterPublicKey "bob" KEcdsa (repeat_char 33 "b"));
   SMultisig (RegisterPublicKey "carol" KEcdsa (repeat_char 33 "c"));
   SMultisig (RegisterPublicKey "dave" KEcdsa (repeat_char 33 "d"));
   SProve UpdateWorkerSet (penv_of e 10 set1 false)].
Definition ex_votes (id : N) : list sop :=
  [SMultisig (SubmitSignature 12 "alice" id (repeat_char 64 "s"));
   SMultisig (SubmitSignature 12 "dave" id (repeat_char 64 "s"));
   SMultisig (SubmitSignature 13 "bob" id (repeat_char 64 "x"));
   SMultisig (SubmitSignature 13 "bob" id (repeat_char 64 "t"))].
(** a proof of two messages, signed by two of three *)
Definition ex_signed (e : encoder) : list sop :=
  ex_setup e ++ [SProve (ConstructProof [ev 1; ev 2]) (penv_of e 11 set1 false)] ++ ex_votes 1 ++
  [SProve (ConstructProof [ev 2; ev 1]) (penv_of e 14 set2 false)].
(** two requests for the same messages, in different orders, in one block,
    while a new worker set is proposed *)
Definition ex_twice (e : encoder) : list sop :=
  ex_setup e ++ [SProve (ConstructProof [ev 1; ev 2]) (penv_of e 11 set2 false);
                 SProve (ConstructProof [ev 2; ev 1]) (penv_of e 11 set2 false)] ++ ex_votes 1.

Definition ex_first (e : encoder) : worker_set := set_of e 10 set1.
Definition registers_first (e : encoder) (op : mop) : bool :=
  match op with RegisterWorkerSet _ ws => bool_decide (ws = ex_first e) | _ => true end.
Lemma ex_distinct e ops : forallb (registers_first e) (multisig_trace (ex_slog e ops)).*1 = true ->
  distinct_sets ex_wshash (ex_slog e ops).
Proof.
  intros H a ws a' ws' H1 H2 _. rewrite forallb_forall in H.
  apply elem_of_list_In in H1, H2. apply H in H1, H2. cbn in H1, H2.
  apply bool_decide_eq_true in H1, H2. congruence.
Qed.

Definition sys_recover (d k s : string) : option N := Some 1.
Notation ex_proof e ops id := (system_proof ex_keccak ex_sec1 sys_recover (pcfg e) (ex_srun e ops) id).
Definition completed (r : res perror proof_response) : option string :=
  match r with Ok r => match pr_status r with PfCompleted d => Some d | PfPending => None end | _ => None end.
Definition signed_check (e : encoder) : bool :=
  forallb (registers_first e) (multisig_trace (ex_slog e (ex_signed e))).*1 &&
  match completed (ex_proof e (ex_signed e) 1), completed (ex_proof e (ex_signed e) 2) with
  | Some d, None => match decode_execute e d with
      | Some (x, p) => match decode_proof e p with
          | Some (addrs, ws, q, sigs) => bool_decide (length addrs = 3%nat) && (q =? 2) && bool_decide (length sigs = 2%nat)
          | None => false end
      | None => false end
  | _, _ => false
  end.
Example ex_signed_check : signed_check Abi = true /\ signed_check Bcs = true.
Proof. split; vm_compute; reflexivity. Qed.

Lemma sys_recoverable : recoverable ex_crypto sys_recover.
Proof. intros d x k _. by eexists. Qed.

(** the hypotheses of the theorem on batches without a worker set *)
Definition ex_entries (e : encoder) : list (pop * pout) := prover_trace (ex_slog e (ex_signed e)).
Definition new_sets (e : encoder) (op : pop) : list (option worker_set) :=
  [None; match make_worker_set (pcfg e) (po_env op) with Ok w => Some w | _ => None end].
Definition plain_check (e : encoder) (ids : list ccid) : bool :=
  forallb (fun x : pop * pout =>
    is_ok (make_worker_set (pcfg e) (po_env x.1)) &&
    forallb (fun new =>
      let a := batch_id_preimage ex_wshash ids None in let b := batch_id_preimage ex_wshash (asked x.1) new in
      implb (String.eqb (ex_keccak a) (ex_keccak b)) (String.eqb a b)) (new_sets e x.1)) (ex_entries e).
Lemma plain_checked e ids k : Forall event_id ids -> plain_check e ids = true ->
  (forall op out, (op, out) ∈ ex_entries e -> Forall event_id (asked op) /\
     forall l, pe_messages (po_env op) (pc_gateway (pcfg e)) (asked op) = Some l -> m_cc <$> l = asked op) ->
  k = ex_entries e -> plain_history ex_keccak ex_wshash (pcfg e) k ids.
Proof.
  intros Hids Hc He ->. split; [done|]. intros op out new Hin Hnew. destruct (He _ _ Hin) as [H1 H2].
  split; [done|]. split; [done|]. unfold plain_check in Hc. rewrite forallb_forall in Hc.
  apply elem_of_list_In, Hc in Hin. apply andb_prop in Hin as [Hok Hin]. rewrite forallb_forall in Hin.
  cbn [fst] in *.
  assert (In new (new_sets e op)) as Hn.
  { unfold new_sets. destruct new as [w|]; [|by left]. right. left.
    destruct (make_worker_set (pcfg e) (po_env op)) as [w'| |] eqn:E; [|done..]. f_equal.
    eapply ProverProofs.active_set_unique; [|exact Hnew]. by apply ProverProofs.make_worker_set_active. }
  apply Hin in Hn. cbn beta zeta in Hn.
  generalize dependent (batch_id_preimage ex_wshash (asked op) new).
  generalize (batch_id_preimage ex_wshash ids None). intros a b Hab x y Hx Hy Hxy.
  rewrite !elem_of_cons, elem_of_nil in Hx. rewrite !elem_of_cons, elem_of_nil in Hy.
  assert (ex_keccak a = ex_keccak b -> a = b) as Hab'.
  { intros E. rewrite E, String.eqb_refl in Hab. by apply String.eqb_eq in Hab. }
  destruct Hx as [->|[->|[]]], Hy as [->|[->|[]]]; try done; [by apply Hab'|symmetry; by apply Hab'].
Qed.

Definition starts (l : list (mop * mout)) (id : N) : list (addr * string * string * string * gmap addr public_key) :=
  omap (fun e => match e with
                 | (StartSession a w m ch, OutStarted i w' keys m' ch') =>
                     if (i =? id) && String.eqb w' w && String.eqb m' m && String.eqb ch' ch then Some (a, w, m, ch, keys) else None
                 | _ => None
                 end) l.
Definition registered (l : list (mop * mout)) : list (addr * worker_set) :=
  omap (fun e => match e with (RegisterWorkerSet b ws, OutNone) => Some (b, ws) | _ => None end) l.
Lemma starts_started wsid l id a w m ch keys b ws : (a, w, m, ch, keys) ∈ starts l id -> (b, ws) ∈ registered l ->
  wsid ws = w -> started_with wsid l id m ws.
Proof.
  intros ([o1 x1] & H1 & E1)%elem_of_list_omap ([o2 x2] & H2 & E2)%elem_of_list_omap <-.
  destruct o1; try done. destruct x1; try done. destruct (_ =? _) eqn:F1; [|done]. destruct (String.eqb _ _) eqn:F2 in E1; [|done].
  destruct (String.eqb _ _) eqn:F3 in E1; [|done]. destruct (String.eqb _ _) eqn:F4 in E1; [|done].
  apply N.eqb_eq in F1. apply String.eqb_eq in F2, F3, F4. cbn in E1. simplify_eq.
  destruct o2; try done. destruct x2; try done. simplify_eq. eexists _, _, _, _. eauto.
Qed.

Definition overwritten_check (e : encoder) : bool :=
  let l := multisig_trace (ex_slog e (ex_twice e)) in
  forallb (registers_first e) l.*1 &&
  match ex_proof e (ex_twice e) 1, starts l 1, registered l with
  | Ok resp, (_, w, m, _, _) :: _, (_, ws) :: _ =>
      match pr_status resp with PfCompleted _ => true | PfPending => false end && String.eqb (to_hex (ex_wshash ws)) w &&
      match msg_digest ex_keccak {| b_id := ""; b_ids := []; b_data := pr_data resp; b_encoder := e |} with
      | Ok m' => negb (String.eqb m' m)
      | _ => false
      end
  | _, _, _ => false
  end.
Lemma overwritten_checked : overwritten_check Bcs = true.
Proof. vm_compute. reflexivity. Qed.
Lemma overwritten e : overwritten_check e = true -> exists resp d digest digest' cur,
  distinct_sets ex_wshash (ex_slog e (ex_twice e)) /\
  ex_proof e (ex_twice e) 1 = Ok resp /\ pr_status resp = PfCompleted d /\
  started_with (worker_set_id ex_wshash) (multisig_trace (ex_slog e (ex_twice e))) 1 digest cur /\
  (forall b, b_encoder b = e -> b_data b = pr_data resp -> msg_digest ex_keccak b = Ok digest') /\
  digest' <> digest.
Proof.
  intros H. unfold overwritten_check in H. cbv zeta in H. apply andb_prop in H as [Hd H]. apply ex_distinct in Hd.
  destruct (ex_proof e (ex_twice e) 1) as [resp| |]; [|done..].
  pose proof (starts_started (worker_set_id ex_wshash) (multisig_trace (ex_slog e (ex_twice e))) 1) as Hst.
  destruct (starts _ _) as [|[[[[a w] m] ch] keys] rest]; [done|]. destruct (registered _) as [|[b ws] rest']; [done|].
  apply andb_prop in H as [H Hm]. apply andb_prop in H as [H Hw]. destruct (pr_status resp) as [|d] eqn:Ed; [done|].
  destruct (msg_digest _ _) as [m'| |] eqn:Em; [|done..]. exists resp, d, m, m', ws. split_and!; try done.
  - apply (Hst a w m ch keys b ws); [by left|by left|]. by apply String.eqb_eq in Hw.
  - intros b' Hb1 Hb2. rewrite <- Em. unfold msg_digest. cbn [b_encoder b_data]. by rewrite Hb1, Hb2.
  - intros ->. by rewrite String.eqb_refl in Hm.
Qed.

Lemma c62_overwritten : exists keccak wshash sec1 recover crypto c me g r p ops id resp d digest digest' cur,
  (forall x, String.length (keccak x) = 32%nat) /\ (forall w, String.length (wshash w) = 32%nat) /\
  pc_chain_id c < U256 /\ distinct_sets wshash (slog keccak wshash sec1 crypto c me g r p ops) /\
  system_proof keccak sec1 recover c (srun keccak wshash sec1 crypto c me g r p ops) id = Ok resp /\
  pr_status resp = PfCompleted d /\
  started_with (worker_set_id wshash) (multisig_trace (slog keccak wshash sec1 crypto c me g r p ops)) id digest cur /\
  (forall b, b_encoder b = pc_encoder c -> b_data b = pr_data resp -> msg_digest keccak b = Ok digest') /\
  digest' <> digest.
Proof.
  exists ex_keccak, ex_wshash, ex_sec1, sys_recover, ex_crypto, (pcfg Bcs), "prover", "gov", "rewards", 10, (ex_twice Bcs), 1.
  destruct (overwritten Bcs overwritten_checked) as (resp & d & digest & digest' & cur & H1 & H2 & H3 & H4 & H5 & H6).
  exists resp, d, digest, digest', cur.
  split; [exact ex_keccak_length|]. split; [exact ex_wshash_length|]. split; [reflexivity|].
  split; [exact H1|]. split; [exact H2|]. split; [exact H3|]. split; [exact H4|]. split; [exact H5|exact H6].
Qed.

Lemma entry_of keccak wshash sec1 crypto c me g r p ops op out :
  (op, out) ∈ prover_trace (slog keccak wshash sec1 crypto c me g r p ops) ->
  exists call env m, SProve call env ∈ ops /\ po_call op = call /\ po_env op = with_keys env m.
Proof.
  intros ([o x] & Hin & Ho)%elem_of_list_omap. cbn in Ho. apply log_elem in Hin as (ops1 & ops2 & s' & -> & Hs).
  destruct o as [call env|mo]; cbn [signing_step] in Hs.
  - exists call, env, (sy_multisig (srun keccak wshash sec1 crypto c me g r p ops1)).
    split; [apply elem_of_app; right; by left|].
    apply rbind_ok in Hs as ([p1 m] & _ & Hs). apply rbind_ok in Hs as ([ms o] & _ & Hs).
    destruct m; [apply rbind_ok in Hs as ([p2 ev] & _ & Hs)|]; injection Hs as <- <-; cbn in Ho; injection Ho as <- <-; done.
  - apply rbind_ok in Hs as ([ms o] & _ & Hs). injection Hs as <- <-. done.
Qed.
Lemma ex_plain e : plain_history ex_keccak ex_wshash (pcfg e) (ex_entries e) [ev 1; ev 2].
Proof.
  assert (forall n, event_id (ev n)) as Hev.
  { intros n. split; [done|]. by exists "0xabc", n. }
  assert (forall i j, Forall event_id [ev i; ev j]) as Hij.
  { intros i j. constructor; [done|]. constructor; [done|constructor]. }
  apply plain_checked; [done|destruct e; vm_compute; reflexivity| |done].
  intros op out (call & env & m & Hin & Hc & He)%entry_of. unfold asked. rewrite Hc, He. cbn [with_keys pe_messages].
  unfold ex_signed, ex_setup, ex_votes in Hin. cbn [app] in Hin.
  repeat (apply elem_of_cons in Hin as [Hin|Hin]; [try discriminate Hin; injection Hin as -> ->|]); [..|by apply elem_of_nil in Hin].
  - split; [constructor|]. by intros l [= <-].
  - split; [done|]. by intros l [= <-].
  - split; [done|]. by intros l [= <-].
Qed.

Lemma ex_signed_distinct e : distinct_sets ex_wshash (ex_slog e (ex_signed e)).
Proof. apply (ex_distinct e). destruct e; vm_compute; reflexivity. Qed.
Lemma ex_first_ok e : set_ok (ex_first e).
Proof.
  assert (forallb (fun sg => sg_weight sg <? U256) (members (ex_first e)) && (ws_threshold (ex_first e) <? U256) = true) as H
    by (destruct e; vm_compute; reflexivity).
  apply andb_prop in H as [H1 H2]. split; [by apply N.ltb_lt|]. apply Forall_forall. intros x Hx%elem_of_list_In.
  rewrite forallb_forall in H1. by apply N.ltb_lt, H1.
Qed.
