(** Multisig and prover: what their events say. *)
From Verif Require Import Base BaseLemmas Text TextLemmas StdModel RouterTypes MultisigTypes MultisigModel MultisigSpec
  MultisigProofs MultisigProofs2 EncodingModel ProverModel ProverSpec EventsModel JsonModel JsonSpec WireModel WireSpec WireProofs WireProofs2 WireProofs3
  EventLogModel EventLogSpec EventLogProofs.

Lemma read_codec {A} parse (e : A -> jval) d P n a : reads_json parse -> codec e d P n -> (n <= 127)%nat -> P a ->
  parse (to_json (e a)) = Some (e a) /\ d (e a) = Some a.
Proof.
  intros Hp [H _] Hn Ha. destruct (H a Ha) as [R D]. split; [|exact D]. apply Hp. by eapply readable_mono.
Qed.
Lemma read_id parse n : reads_json parse -> (v ← parse (to_json (e_uint n)); d_str v) = Some (dec n).
Proof. intros Hp. unfold e_uint. rewrite Hp by apply readable_str. done. Qed.
Lemma dec_decide n m : bool_decide (Some (dec n) = Some (dec m)) = bool_decide (n = m).
Proof. apply bool_decide_ext. split; [by intros [= H%dec_inj]|by intros ->]. Qed.
Lemma id_decide (o : option string) n m : o = Some (dec n) -> bool_decide (o = Some (dec m)) = bool_decide (n = m).
Proof. intros ->. apply dec_decide. Qed.
Lemma some_decide (a b : string) : bool_decide (Some a = Some b) = bool_decide (a = b).
Proof. apply bool_decide_ext. split; [by intros [=]|by intros ->]. Qed.

Section Multisig.
  Context (wsid : worker_set -> string) (crypto : key_type -> string -> string -> string -> option bool) (g r : addr) (p : N).
  Context (parse : string -> option jval) (Hparse : reads_json parse).
  Notation step := (multisig_step wsid crypto).
  Notation events l := (all_events multisig_events l).

  Definition multisig_said (s : mstate) (l : list (mop * mout)) : Prop :=
    (forall a, told (says_caller a) (events l) = Some true <-> a ∈ m_callers s) /\
    (forall a t, told (says_key parse a t) (events l) = m_keys s !! (a, t)) /\
    (forall id ss, m_sessions s !! id = Some ss -> ss_id ss = id /\ id <= m_counter s) /\
    (forall id, is_Some (m_sigs s !! id) -> is_Some (m_sessions s !! id)) /\
    (forall id, told (says_session id) (events l) = (fun ss => (ss_wsid ss, ss_msg ss)) <$> m_sessions s !! id) /\
    (forall id a, told (says_signature id a) (events l) = sig_bytes <$> session_sigs s id !! a) /\
    (forall id, told (says_completed id) (events l) = ss ← m_sessions s !! id; completed_text ss).

  Lemma says_caller_event a (auth : bool) c :
    says_caller a (if auth then "caller_authorized" else "caller_unauthorized", [("contract_address", c)]) =
    if bool_decide (c = a) then Some auth else None.
  Proof. unfold says_caller, ty, has. destruct auth; cbn; rewrite some_decide; by case_bool_decide. Qed.
  Lemma says_key_texts a t x y :
    says_key parse a t ("public_key_registered", [("worker", x); ("public_key", y)]) =
    (w ← parse x; w ← d_str w; k ← parse y; k ← d_public_key k;
     if bool_decide (w = a) && bool_decide (pk_type k = t) then Some (pk_bytes k) else None).
  Proof. reflexivity. Qed.
  Lemma says_key_event a t w k : proper_key k ->
    says_key parse a t ("public_key_registered", [("worker", to_json (JStr w)); ("public_key", to_json (e_public_key k))]) =
    if bool_decide (w = a) && bool_decide (pk_type k = t) then Some (pk_bytes k) else None.
  Proof.
    intros Hk. destruct (read_codec parse _ _ _ _ k Hparse codec_key ltac:(lia) Hk) as [H1 H2].
    rewrite says_key_texts. rewrite (Hparse (JStr w)) by apply readable_str.
    rewrite H1. cbn [mbind option_bind d_str]. rewrite H2. cbn [mbind option_bind]. reflexivity.
  Qed.
  Lemma says_session_event id n w keys msg chain :
    says_session id ("signing_started", [("session_id", dec n); ("worker_set_id", w); ("pub_keys", keys); ("msg", to_hex msg); ("chain", chain)]) =
    if bool_decide (n = id) then Some (w, msg) else None.
  Proof.
    unfold says_session, ty, has. cbn -[dec to_hex of_hex]. rewrite dec_decide. case_bool_decide; [|done].
    rewrite of_to_hex. done.
  Qed.
  Lemma says_signature_event id a n b sg :
    says_signature id a ("signature_submitted", [("session_id", dec n); ("participant", b); ("signature", to_hex sg)]) =
    if bool_decide (n = id) && bool_decide (b = a) then Some sg else None.
  Proof.
    unfold says_signature, ty, has. cbn -[dec to_hex of_hex]. rewrite dec_decide, some_decide. cbn -[to_hex of_hex].
    destruct (_ && _); [|done]. apply of_to_hex.
  Qed.
  Lemma says_completed_event id n h :
    says_completed id ("signing_completed", [("session_id", dec n); ("completed_at", dec h)]) =
    if bool_decide (n = id) then Some (dec h) else None.
  Proof. unfold says_completed, ty, has. cbn -[dec]. by rewrite dec_decide. Qed.

  Lemma signed_only id n a sg c :
    told (says_completed id) (multisig_events (OutSigned n id a sg c)) = dec <$> c.
  Proof.
    cbn [multisig_events]. change (?e :: ?l) with ([e] ++ l). rewrite told_app. destruct c as [h|]; [|done].
    rewrite told_one, says_completed_event, bool_decide_true by done. done.
  Qed.
  Lemma signed_other {A} (read : emitted -> option A) n id a sg c :
    (forall h, read ("signing_completed", [("session_id", dec id); ("completed_at", dec h)]) = None) ->
    told read (multisig_events (OutSigned n id a sg c)) =
    read ("signature_submitted", [("session_id", dec id); ("participant", a); ("signature", to_hex (sig_bytes sg))]).
  Proof.
    intros H. cbn [multisig_events]. change (?e :: ?l) with ([e] ++ l). rewrite told_app.
    destruct c as [h|]; rewrite told_one; [by rewrite told_one, H|]. done.
  Qed.

  Lemma multisig_said_step s l op s' out :
    multisig_said s l -> step s op = Ok (s', out) -> multisig_said s' (l ++ [(op, out)]).
  Proof.
    intros (H1 & H2 & H3 & H4 & H5 & H6 & H7) Hs. unfold multisig_said.
    setoid_rewrite all_events_snoc. setoid_rewrite told_app.
    destruct op as [a w msg chain|h a id b|a ws|a t b|a auth c]; cbn [multisig_step] in Hs.
    - apply start_ok in Hs as (ws & Ha & Hl & Hw & Hlt & -> & ->). cbn [m_callers m_keys m_sessions m_sigs m_counter multisig_events].
      set (n := m_counter s + 1).
      assert (Hn : m_sessions s !! n = None).
      { destruct (m_sessions s !! n) as [ss|] eqn:E; [|done]. destruct (H3 _ _ E). subst n. lia. }
      assert (Hns : m_sigs s !! n = None).
      { destruct (m_sigs s !! n) as [ss|] eqn:E; [|done]. destruct (H4 n) as [? H]; [by rewrite E|]. by rewrite Hn in H. }
      split_and!.
      + intros x. rewrite told_one. exact (H1 x).
      + intros x t. rewrite told_one. exact (H2 x t).
      + intros i ss. rewrite lookup_insert_Some. intros [[<- <-]|[Hne Hi]]; [cbn; lia|]. destruct (H3 _ _ Hi). lia.
      + intros i Hi. destruct (decide (n = i)) as [<-|Hne]; [rewrite lookup_insert; by eexists|]. rewrite lookup_insert_ne by done. by apply H4.
      + intros i. rewrite told_one, says_session_event. case_bool_decide as Hi; [subst i; by rewrite lookup_insert|].
        rewrite lookup_insert_ne by done. apply H5.
      + intros i x. rewrite told_one. exact (H6 i x).
      + intros i. rewrite told_one. change (says_completed i _) with (@None string). cbn beta iota. rewrite H7.
        destruct (decide (n = i)) as [<-|Hne]; [by rewrite lookup_insert, Hn|by rewrite lookup_insert_ne].
    - apply submit_ok in Hs as (ss & ws & sg & sig & Hss & _ & _ & _ & _ & _ & Hnone & _ & _ & -> & ->).
      destruct (H3 _ _ Hss) as [Hid Hle]. cbn [m_callers m_keys m_sessions m_sigs m_counter]. rewrite Hid.
      set (st := next_state _ _ _ _). set (c := match ss_state ss, st with MPending, MCompleted c => Some c | _, _ => None end).
      split_and!.
      + intros x. rewrite signed_other by done. exact (H1 x).
      + intros x t. rewrite signed_other by done. exact (H2 x t).
      + intros i ss'. rewrite lookup_insert_Some. intros [[<- <-]|[Hne Hi]]; [done|by apply H3].
      + intros i. rewrite !lookup_insert_is_Some'. naive_solver.
      + intros i. rewrite signed_other by done. change (says_session i _) with (@None (string * string)). cbn beta iota. rewrite H5.
        destruct (decide (id = i)) as [<-|Hne]; [by rewrite lookup_insert, Hss|by rewrite lookup_insert_ne].
      + intros i x. rewrite signed_other by done. rewrite says_signature_event. unfold session_sigs at 1. cbn [m_sigs].
        destruct (decide (id = i)) as [<-|Hne].
        * rewrite bool_decide_true by done. rewrite lookup_insert. cbn [from_option Datatypes.id andb].
          case_bool_decide as Hx; [subst; by rewrite lookup_insert|]. rewrite lookup_insert_ne by done. apply H6.
        * rewrite bool_decide_false by done. cbn [andb]. rewrite lookup_insert_ne by done. apply H6.
      + intros i. destruct (decide (id = i)) as [<-|Hne].
        * rewrite signed_only, lookup_insert. cbn [mbind option_bind]. unfold completed_text at 1. cbn [ss_state].
          rewrite H7, Hss. cbn [mbind option_bind]. unfold completed_text, c, st, next_state.
          destruct (ss_state ss); [|done]. by destruct (_ <=? _).
        * rewrite lookup_insert_ne by done. rewrite told_none; [apply H7|].
          intros e He. cbn [multisig_events] in He. apply elem_of_cons in He as [->|He]; [done|].
          destruct c; [|by apply elem_of_nil in He]. apply elem_of_list_singleton in He as ->.
          rewrite says_completed_event. by rewrite bool_decide_false.
    - unfold register_worker_set in Hs. injection Hs as <- <-. cbn [multisig_events m_callers m_keys m_sessions m_sigs m_counter].
      split_and!; done.
    - apply register_key_ok in Hs as (Hb & -> & ->). cbn [multisig_events m_callers m_keys m_sessions m_sigs m_counter].
      split_and!; try done; try (intros *; rewrite told_one; first [exact (H1 _)|exact (H5 _)|exact (H6 _ _)|exact (H7 _)]).
      intros x t'. rewrite told_one, says_key_event.
      + cbn [pk_type pk_bytes]. destruct (decide ((a, t) = (x, t'))) as [[= <- <-]|Hne].
        * rewrite !bool_decide_true by done. by rewrite lookup_insert.
        * rewrite lookup_insert_ne by done. replace (_ && _) with false; [apply H2|].
          symmetry. apply andb_false_iff. rewrite !bool_decide_eq_false. destruct (decide (a = x)) as [->|]; [right; congruence|by left].
      + unfold proper_key. cbn. unfold key_length_ok in Hb. destruct t; naive_solver.
    - apply set_caller_ok in Hs as (_ & -> & ->). cbn [multisig_events m_callers m_keys m_sessions m_sigs m_counter].
      split_and!; try done; try (intros *; rewrite told_one; destruct auth; first [exact (H2 _ _)|exact (H5 _)|exact (H6 _ _)|exact (H7 _)]).
      intros x. rewrite told_one, says_caller_event. case_bool_decide as Hc.
      + subst. destruct auth; set_solver.
      + rewrite H1. destruct auth; set_solver.
  Qed.

  Lemma multisig_said_run ops : multisig_said (mrun wsid crypto g r p ops) (mlog wsid crypto g r p ops).
  Proof.
    unfold mrun, mlog. apply (run_log_inv step multisig_said).
    - unfold multisig_said, multisig_init, session_sigs. cbn. split_and!; intros *; rewrite ?lookup_empty; cbn; rewrite ?lookup_empty; try done.
      by intros [].
    - intros. by eapply multisig_said_step.
  Qed.
End Multisig.

Lemma c105_multisig wsid crypto g r p parse ops :
  reads_json parse ->
  let s := mrun wsid crypto g r p ops in
  let es := all_events multisig_events (mlog wsid crypto g r p ops) in
  (forall a, told (says_caller a) es = Some true <-> a ∈ m_callers s) /\
  (forall a t, told (says_key parse a t) es = m_keys s !! (a, t)) /\
  (forall id, told (says_session id) es = (fun ss => (ss_wsid ss, ss_msg ss)) <$> m_sessions s !! id) /\
  (forall id a, told (says_signature id a) es = sig_bytes <$> session_sigs s id !! a) /\
  (forall id, told (says_completed id) es = ss ← m_sessions s !! id; completed_text ss).
Proof.
  intros Hp s es. destruct (multisig_said_run wsid crypto g r p parse Hp ops) as (H1 & H2 & _ & _ & H3 & H4 & H5). by split_and!.
Qed.

Section Prover.
  Context (keccak : string -> string) (wshash : worker_set -> string) (sec1 : string -> option string).
  Context (parse : string -> option jval) (Hparse : reads_json parse).

  Lemma execute_sessions c env s call s' m :
    prover_execute keccak wshash sec1 c env s call = Ok (s', m) -> pv_sessions s' = pv_sessions s.
  Proof.
    destruct call; cbn [prover_execute].
    - unfold construct_proof. intros H. apply rbind_ok in H as (ms & _ & H). apply rbind_ok in H as ([s1 b] & Hf & H).
      apply rbind_ok in H as (cur & _ & H). apply rbind_ok in H as (d & _ & H). injection H as <- _. cbn.
      unfold find_batch in Hf. destruct (pv_batches s !! _); [by injection Hf as <- _|].
      apply rbind_ok in Hf as (new & _ & Hf). apply rbind_ok in Hf as (s2 & Hs2 & Hf). apply rbind_ok in Hf as (b' & _ & Hf).
      injection Hf as <- _. cbn. destruct new; [|by injection Hs2 as <-].
      unfold save_next in Hs2. destruct (different_in_progress _ _); [done|]. by injection Hs2 as <-.
    - unfold update_worker_set. destruct (pv_current s).
      + intros H. apply rbind_ok in H as (o & _ & H). apply rbind_ok in H as (new & _ & H). apply rbind_ok in H as (s1 & Hs1 & H).
        apply rbind_ok in H as (b & _ & H). apply rbind_ok in H as (d & _ & H). injection H as <- _. cbn.
        unfold save_next in Hs1. destruct (different_in_progress _ _); [done|]. by injection Hs1 as <-.
      + intros H. apply rbind_ok in H as (new & _ & H). by injection H as <- _.
    - unfold confirm_worker_set. intros H. repeat (apply rbind_ok in H as (? & _ & H)). by injection H as <- _.
  Qed.

  Lemma says_batch_event id b n :
    says_batch parse id ("proof_under_construction", [("command_batch_id", to_json (e_hex b)); ("multisig_session_id", to_json (e_uint n))]) =
    if bool_decide (n = id) then Some b else None.
  Proof.
    unfold says_batch. rewrite (id_decide _ n id); [|exact (read_id parse n Hparse)].
    change (ty _ _) with true. cbn [andb]. case_bool_decide; [|done].
    destruct (read_codec parse _ _ _ _ b Hparse codec_hex ltac:(lia) I) as [H1 H2].
    change (attr _ _) with (Some (to_json (e_hex b))). cbn [mbind option_bind]. rewrite H1. exact H2.
  Qed.

  Lemma prover_said c ops id :
    told (says_batch parse id) (all_events prover_events (plog keccak wshash sec1 c ops)) =
    pv_sessions (prun keccak wshash sec1 c ops) !! id.
  Proof.
    unfold prun, plog.
    apply (run_log_inv (prover_step keccak wshash sec1 c)
      (fun s l => told (says_batch parse id) (all_events prover_events l) = pv_sessions s !! id)).
    - cbn. by rewrite lookup_empty.
    - intros s l op s' out Hl Hs. rewrite all_events_snoc, told_app, Hl. unfold prover_step in Hs.
      apply rbind_ok in Hs as ([s1 m] & He & Hs). apply rbind_ok in Hs as (d & _ & Hs). apply execute_sessions in He.
      destruct m; [|by injection Hs as <- <-; rewrite He].
      apply rbind_ok in Hs as ([s2 ev] & Hr & Hs). injection Hs as <- <-. unfold prover_reply in Hr.
      apply rbind_ok in Hr as (b & _ & Hr). apply rbind_ok in Hr as (n & _ & Hr). injection Hr as <- <-.
      cbn [prover_events px_event]. rewrite told_one, says_batch_event. cbn [set_session pv_sessions]. rewrite He.
      case_bool_decide as Hi; [subst; by rewrite lookup_insert|by rewrite lookup_insert_ne].
  Qed.
End Prover.
