(** C49: batch ids. *)
From stdpp Require Import sorting.
From Verif Require Import Base BaseLemmas MapLemmas Text StdModel StdSpec StdProofs RegistryTypes RouterTypes
  MultisigTypes OperatorsModel MultisigModel EncodingModel EncodingSpec EncodingProofs4 EncodingProofs5
  ProverModel ProverSpec ProverProofs ProverProofs2 ProverProofs3 ProverProofs4.

Section C49.
  Context (keccak : string -> string) (wshash : worker_set -> string)
          (sec1 : string -> option string).
  Notation step := (prover_step keccak wshash sec1).
  Notation run_ := (prun keccak wshash sec1).
  Notation log_ := (plog keccak wshash sec1).

  Lemma by_id_fmap f ids : Forall (fun i => m_cc (f i) = i) ids -> m_cc <$> (f <$> ids) = ids.
  Proof. induction 1 as [|i ids Hi Hf IH]; [done|]. rewrite !fmap_cons. by f_equal. Qed.

  (** An accepted request announces its batch under the id of its messages,
      with the proposed worker set if there is one. *)
  Lemma construct_id c ops op ids f s' out :
    step c (run_ c ops) op = Ok (s', out) -> po_call op = ConstructProof ids -> gateway_by_id c (po_env op) f ids ->
    exists new id, px_event out = Some (batch_id keccak wshash ids new, id) /\
      (new = None \/ exists ws cur, new = Some ws /\ is_active_set c (po_env op) ws /\
        query_worker_set (run_ c ops) = Ok cur /\ pc_diff c < differing ws cur /\
        ~ announced (log_ c ops) (batch_id keccak wshash ids None)).
  Proof.
    intros Hs Hcall [Hg Hid]. apply step_effect in Hs.
    destruct Hs as [ws Hcall' Hcur Hws|ws o Hcall' Hnext Ho Hver|ids' cur ms b id out Hcall' Hcur Hms Hbb Hask
                   |ids' cur ms ws b id s' out Hcall' Hcur Hms Hbb Hws Hbuild [Hadm ->] Hask
                   |cur ws b id s' out Hcall' Hcur Hws Hsu Hbuild [Hadm ->] Hask]; rewrite Hcall in Hcall'; try done;
      injection Hcall' as <-.
    - destruct (pi_made _ _ _ _ _ _ (pinv_run keccak wshash sec1 c ops) _ _ Hbb) as [Hbid _].
      destruct Hask as (dg & _ & _ & Hev). exists None, id. rewrite Hev, Hbid. split; [done|by left].
    - destruct Hask as (dg & _ & _ & Hev). apply get_messages_ok in Hms as (Hms & _). rewrite Hg in Hms.
      injection Hms as <-. apply build_view in Hbuild as (_ & _ & Hbid & _). rewrite by_id_fmap in Hbid by done.
      exists (proposed c ws cur), id. rewrite Hev, Hbid. split; [done|].
      destruct (proposed c ws cur) as [w|] eqn:Hp; [right|by left]. apply proposed_some in Hp as [-> Hsu].
      pose proof (make_worker_set_active _ _ _ Hws) as Ha.
      apply should_update_iff in Hsu; [|by eapply active_keyed|by eapply after_keyed].
      exists ws, cur. unfold query_worker_set. rewrite Hcur. split_and!; try done.
      rewrite announced_iff, Hbb. by intros [? ?].
  Qed.

  (** Two requests for the same messages, made in the same situation, get
      the same batch id. *)
  Lemma c49_order c ops env ids ids' f ans ans' s1 out1 s2 out2 :
    ids ≡ₚ ids' -> gateway_by_id c env f ids -> gateway_by_id c env f ids' ->
    step c (run_ c ops) {| po_call := ConstructProof ids; po_env := env; po_multisig := ans |} = Ok (s1, out1) ->
    step c (run_ c ops) {| po_call := ConstructProof ids'; po_env := env; po_multisig := ans' |} = Ok (s2, out2) ->
    fst <$> px_event out1 = fst <$> px_event out2 /\ is_Some (px_event out1).
  Proof.
    intros Hp Hg1 Hg2 H1 H2. apply step_effect in H1, H2.
    assert (batch_id keccak wshash ids None = batch_id keccak wshash ids' None) as Heq by (by apply batch_id_perm).
    destruct Hg1 as [Hg1 Hi1], Hg2 as [Hg2 Hi2].
    inversion H1 as [| |? cur ms b id ? Hc Hcur Hms Hbb Hask
      |? cur ms ws b id ? ? Hc Hcur Hms Hbb Hws Hbuild Hst Hask|]; subst; try done;
    inversion H2 as [| |? cur' ms' b' id' ? Hc' Hcur' Hms' Hbb' Hask'
      |? cur' ms' ws' b' id' ? ? Hc' Hcur' Hms' Hbb' Hws' Hbuild' Hst' Hask'|]; subst; try done;
    cbn in Hc, Hc'; injection Hc as <-; injection Hc' as <-; rewrite Heq in Hbb; try congruence;
    destruct Hask as (d1 & _ & _ & ->), Hask' as (d2 & _ & _ & ->); cbn; (split; [|by eexists]).
    - rewrite Hbb in Hbb'. by injection Hbb' as <-.
    - cbn in Hms, Hms'. apply get_messages_ok in Hms as (Hms & _), Hms' as (Hms' & _).
      rewrite Hg1 in Hms. rewrite Hg2 in Hms'. injection Hms as <-. injection Hms' as <-.
      cbn in Hws, Hws'. rewrite Hws in Hws'. injection Hws' as <-. rewrite Hcur in Hcur'. injection Hcur' as <-.
      apply build_view in Hbuild as (_ & _ & Hb & _), Hbuild' as (_ & _ & Hb' & _).
      rewrite by_id_fmap in Hb, Hb' by done. rewrite Hb, Hb'. f_equal. by apply batch_id_perm.
  Qed.

  (** A request for messages, in any order, whose batch was announced before
      gets that batch again. *)
  Lemma c49_again c ops op ids ids' s' out :
    step c (run_ c ops) op = Ok (s', out) -> po_call op = ConstructProof ids' -> ids ≡ₚ ids' ->
    announced (log_ c ops) (batch_id keccak wshash ids None) ->
    exists b cur id, pv_batches (run_ c ops) !! batch_id keccak wshash ids None = Some b /\
      query_worker_set (run_ c ops) = Ok cur /\ asks_to_sign keccak wshash c out cur b id /\
      pv_batches s' = pv_batches (run_ c ops).
  Proof.
    intros Hs Hcall Hp [b Hb]%announced_iff. apply step_effect in Hs.
    rewrite (batch_id_perm keccak wshash ids ids' None Hp) in *.
    inversion Hs as [| |? cur ms b' id ? Hc Hcur Hms Hbb Hask
      |? cur ms ws b' id ? ? Hc Hcur Hms Hbb Hws Hbuild Hst Hask|]; subst; try congruence;
      rewrite Hcall in Hc; injection Hc as <-.
    exists b, cur, id. rewrite Hbb in Hb. injection Hb as <-. unfold query_worker_set. rewrite Hcur. done.
  Qed.

  (** Different messages, different ids: for event ids, and for ids without
      commas. *)
  Lemma c49_distinct c ops ops' op op' ids ids' f f' s1 out1 s2 out2 bid i i' :
    (forall w, wshash w <> "") ->
    Forall event_id (ids ++ ids') \/ Forall plain_id (ids ++ ids') ->
    (forall new new', may_carry c (po_env op) new -> may_carry c (po_env op') new' ->
       no_collision keccak [batch_id_preimage wshash ids new; batch_id_preimage wshash ids' new']) ->
    step c (run_ c ops) op = Ok (s1, out1) -> po_call op = ConstructProof ids -> gateway_by_id c (po_env op) f ids ->
    step c (run_ c ops') op' = Ok (s2, out2) -> po_call op' = ConstructProof ids' -> gateway_by_id c (po_env op') f' ids' ->
    px_event out1 = Some (bid, i) -> px_event out2 = Some (bid, i') -> ids ≡ₚ ids'.
  Proof.
    intros Hh Hf Hn H1 Hc1 Hg1 H2 Hc2 Hg2 He1 He2.
    destruct (construct_id _ _ _ _ _ _ _ H1 Hc1 Hg1) as (n1 & j1 & E1 & M1).
    destruct (construct_id _ _ _ _ _ _ _ H2 Hc2 Hg2) as (n2 & j2 & E2 & M2).
    rewrite He1 in E1. rewrite He2 in E2. injection E1 as E1 _. injection E2 as E2 _. rewrite E1 in E2.
    assert (may_carry c (po_env op) n1) as P1.
    { destruct M1 as [->|(w & cur & -> & Ha & _)]; done. }
    assert (may_carry c (po_env op') n2) as P2.
    { destruct M2 as [->|(w & cur & -> & Ha & _)]; done. }
    specialize (Hn _ _ P1 P2).
    destruct Hf as [[F1 F2]%Forall_app|[F1 F2]%Forall_app].
    - by apply (batch_id_event_inj keccak wshash ids ids' n1 n2).
    - by apply (batch_id_plain_inj keccak wshash ids ids' n1 n2).
  Qed.

  Lemma c49_again_built c ops op ids ids' s' out :
    step c (run_ c ops) op = Ok (s', out) -> po_call op = ConstructProof ids' -> ids ≡ₚ ids' ->
    announced (log_ c ops) (batch_id keccak wshash ids None) ->
    exists b cur id, last_built keccak wshash sec1 c (log_ c ops) (batch_id keccak wshash ids None) b /\
      query_worker_set (run_ c ops) = Ok cur /\ asks_to_sign keccak wshash c out cur b id /\
      pv_batches s' = pv_batches (run_ c ops).
  Proof.
    intros Hs Hc Hp Ha. destruct (c49_again _ _ _ _ _ _ _ Hs Hc Hp Ha) as (b & cur & id & Hb & H).
    exists b, cur, id. split; [by apply batches_built|done].
  Qed.
End C49.

(** The text hashed joins the ids with commas, which an id may contain. *)
Definition comma_ids : list ccid := [{| cc_chain := "eth"; cc_id := "a" |}; {| cc_chain := "eth"; cc_id := "b" |}].
Definition comma_id : list ccid := [{| cc_chain := "eth"; cc_id := "a,eth:b" |}].
Lemma c49_comma : ~ comma_ids ≡ₚ comma_id /\
  forall keccak wshash ws, batch_id keccak wshash comma_ids ws = batch_id keccak wshash comma_id ws.
Proof.
  split; [by intros H%Permutation_length|].
  intros keccak wshash ws. unfold batch_id. f_equal. unfold batch_id_preimage. destruct ws; reflexivity.
Qed.
