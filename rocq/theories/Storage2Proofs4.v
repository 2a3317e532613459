(** The voting verifier over bytes. *)
From Verif Require Import Base BaseLemmas Text TextLemmas StdModel StdProofs EncodingModel EncodingProofs.
From Verif Require Import RouterTypes RegistryTypes OperatorsModel VerifierModel.
From Verif Require Import StorageModel StorageSpec StorageProofs StorageProofs2 StorageProofs3 StorageProofs4 StorageProofs5.
From Verif Require Import Storage2Model Storage2Spec Storage2Proofs Storage2Proofs2.

Notation vv_holds := (holds vv_ok vv_place vv_cell).
Definition vv_inv (s : vstate) : Prop :=
  (forall h c, v_messages s !! h = Some c -> c_poll c < 2 ^ 64) /\
  (forall h c, v_worker_sets s !! h = Some c -> c_poll c < 2 ^ 64).

Lemma ideal_collect_own {V E A B} (f : A -> prog V (serr E) B) (g : A -> res E B) t l :
  (forall a, a ∈ l -> ideal (f a) t = let? b := map_err SOwn (g a) in Ok (t, b)) ->
  ideal (collect f l) t = let? bs := map_err SOwn (try_map g l) in Ok (t, bs).
Proof.
  induction l as [|a l IH]; intros H; [done|]. simpl collect. rewrite ideal_bind, H by (apply elem_of_cons; by left).
  simpl. destruct (g a) as [b|e|]; simpl; [|done|done].
  rewrite ideal_bind, IH by (intros x Hx; apply H; apply elem_of_cons; by right).
  by destruct (try_map g l).
Qed.

Section Verifier.
  Context (keccak : string -> string).

  Lemma keeps_v_save id idx ms : keeps verifier_layout (v_save keccak id idx ms).
  Proof. revert idx. induction ms as [|m ms IH]; intros idx; [exact I|]. cbn [v_save]. keep. done. Qed.
  Lemma verifier_keeps op : keeps verifier_layout (verifier_prog keccak op).
  Proof.
    unfold verifier_prog, v_verify, v_verify_set, v_vote, v_end, v_poll, v_create, v_snapshot, v_set_verified,
      v_is_verified, v_set_status, v_message_status, v_status, v_cfg.
    keep; apply keeps_v_save.
  Qed.

  Section Read.
    Context (t : gmap skey vvval) (s : vstate) (Hh : vv_holds t s) (Hi : vv_inv s).
    Lemma vv_cfg_ : ideal v_cfg t = Ok (t, v_config s).
    Proof using Hh.
      unfold v_cfg. rewrite ideal_get by done.
      by rewrite (h_at _ _ _ _ _ Hh VvConfig I : t !! VV_CONFIG = Some (VcConfig (v_config s))).
    Qed.
    Lemma vv_status {T} `{EqDecision T} (st : option (poll_content T)) (x : T) :
      (forall c, st = Some c -> c_poll c < 2 ^ 64) ->
      ideal (v_status st x) t = let? a := map_err SOwn (verification_status s st x) in Ok (t, a).
    Proof using Hh.
      intros Hc. unfold v_status, verification_status. destruct st as [c|]; [|done].
      case_bool_decide; [|done]. rewrite ideal_get by constructor.
      rewrite (h_at _ _ _ _ _ Hh (VvPoll (c_poll c)) (Hc c eq_refl) : t !! vv_poll_key (c_poll c) = VcPoll <$> v_polls s !! c_poll c).
      destruct (v_polls s !! c_poll c) as [vp|]; [|done]. cbn [fmap option_fmap option_map]. by rewrite ideal_own.
    Qed.
    Lemma vv_message_status m :
      ideal (v_message_status keccak m) t = let? a := map_err SOwn (message_status keccak s m) in Ok (t, a).
    Proof using Hh Hi.
      unfold v_message_status, message_status. rewrite ideal_get by constructor.
      rewrite (h_at _ _ _ _ _ Hh (VvMessage (message_key keccak m)) I : t !! vv_message_key (message_key keccak m) = VcMessage <$> v_messages s !! message_key keccak m).
      destruct (v_messages s !! message_key keccak m) as [c|] eqn:E; cbn [fmap option_fmap option_map].
      - apply vv_status. intros c' [= <-]. by apply (proj1 Hi _ _ E).
      - by apply vv_status.
    Qed.
    Lemma vv_set_status x :
      ideal (v_set_status keccak x) t = let? a := map_err SOwn (worker_set_status keccak s x) in Ok (t, a).
    Proof using Hh Hi.
      unfold v_set_status, worker_set_status. rewrite ideal_get by constructor.
      rewrite (h_at _ _ _ _ _ Hh (VvSet (operators_key keccak x)) I : t !! vv_set_key (operators_key keccak x) = VcSet <$> v_worker_sets s !! operators_key keccak x).
      destruct (v_worker_sets s !! operators_key keccak x) as [c|] eqn:E; cbn [fmap option_fmap option_map].
      - apply vv_status. intros c' [= <-]. by apply (proj2 Hi _ _ E).
      - by apply vv_status.
    Qed.
    Lemma vv_is_verified ms :
      ideal (v_is_verified keccak ms) t = let? a := map_err SOwn (is_verified keccak s ms) in Ok (t, a).
    Proof using Hh Hi.
      unfold v_is_verified, is_verified. apply ideal_collect_own. intros m _. rewrite ideal_bind, vv_message_status.
      by destruct (message_status keccak s m).
    Qed.
    Lemma vv_set_verified x :
      ideal (v_set_verified keccak x) t = let? a := map_err SOwn (is_worker_set_verified keccak s x) in Ok (t, a).
    Proof using Hh Hi.
      unfold v_set_verified, is_worker_set_verified. rewrite ideal_bind, vv_set_status.
      by destruct (worker_set_status keccak s x).
    Qed.
    Lemma vv_snapshot reg chain :
      ideal (v_snapshot reg chain) t = let? a := map_err SOwn (take_snapshot (v_config s) reg chain) in Ok (t, a).
    Proof using Hh.
      unfold v_snapshot. rewrite ideal_bind, vv_cfg_. cbn [rbind fst snd]. by rewrite ideal_own.
    Qed.
    Lemma vv_poll_ id :
      id < 2 ^ 64 -> ideal (v_poll id) t = let? a := map_err SOwn (of_option PollNotFound (v_polls s !! id)) in Ok (t, a).
    Proof using Hh.
      intros Hid. unfold v_poll. rewrite ideal_get by constructor.
      rewrite (h_at _ _ _ _ _ Hh (VvPoll id) Hid : t !! vv_poll_key id = VcPoll <$> v_polls s !! id).
      by destruct (v_polls s !! id).
    Qed.
    Lemma vv_create mk height snap size :
      match create_poll mk s height snap size with
      | Ok (s', id) => exists t', ideal (v_create mk height (vc_expiry (v_config s)) snap size) t = Ok (t', id) /\
                                  vv_holds t' s' /\ vv_inv s' /\ id < 2 ^ 64
      | Err e => ideal (v_create mk height (vc_expiry (v_config s)) snap size) t = Err (SOwn e)
      | Panic => ideal (v_create mk height (vc_expiry (v_config s)) snap size) t = Panic
      end.
    Proof using Hh Hi.
      unfold create_poll, v_create. rewrite ideal_get by done.
      rewrite (h_at _ _ _ _ _ Hh VvPollId I : t !! VV_POLL_ID = if v_poll_id s =? 0 then None else Some (VcPollId (v_poll_id s))).
      replace (match (if v_poll_id s =? 0 then None else Some (VcPollId (v_poll_id s))) with Some (VcPollId n) => n | _ => 0 end)
        with (v_poll_id s).
      2: { destruct (N.eqb_spec (v_poll_id s) 0); done. }
      rewrite ideal_bind, ideal_own. destruct (add_u64 (v_poll_id s) 1) as [id|e|] eqn:Eid; cbn [map_err rbind fst snd]; [|done..].
      apply add_u64_ok in Eid as [Hid ->]. rewrite ideal_put by done. rewrite ideal_bind, ideal_own.
      destruct (add_u64 height _) as [ex|e|]; cbn [map_err rbind fst snd]; [|done..].
      rewrite ideal_put by constructor. cbn [ideal]. eexists. split; [done|]. split; [|split; [exact Hi|exact Hid]].
      eapply (holds_put _ _ _ vv_inj _ {| v_config := v_config s; v_poll_id := v_poll_id s + 1; v_polls := v_polls s;
         v_messages := v_messages s; v_worker_sets := v_worker_sets s |} _ (VvPoll (v_poll_id s + 1))).
      - apply (holds_put _ _ _ vv_inj t s _ VvPollId); [done|done| |].
        + cbn [vv_cell v_poll_id]. destruct (N.eqb_spec (v_poll_id s + 1) 0); [lia|done].
        + by intros [] Hne; cbn [vv_cell v_config v_polls v_messages v_worker_sets].
      - exact Hid.
      - cbn [vv_cell v_polls]. by rewrite lookup_insert.
      - intros [] Hne; cbn [vv_cell v_config v_polls v_messages v_worker_sets v_poll_id]; try done.
        rewrite lookup_insert_ne; [done|congruence].
    Qed.
  End Read.

  Lemma vv_save t s id idx ms :
    vv_holds t s ->
    match save_messages keccak (v_messages s) id idx ms with
    | Ok tbl => exists t', ideal (v_save keccak id idx ms) t = Ok (t', tt) /\
        vv_holds t' {| v_config := v_config s; v_poll_id := v_poll_id s; v_polls := v_polls s;
                       v_messages := tbl; v_worker_sets := v_worker_sets s |}
    | Err e => ideal (v_save keccak id idx ms) t = Err (SOwn e)
    | Panic => ideal (v_save keccak id idx ms) t = Panic
    end.
  Proof.
    revert t s idx. induction ms as [|m ms IH]; intros t s idx Hh.
    - exists t. split; [done|]. by destruct s.
    - cbn [save_messages v_save]. rewrite ideal_bind, ideal_own.
      destruct (checked U32 idx) as [i|e|]; cbn [map_err rbind fst snd]; [|done..].
      rewrite ideal_put by constructor.
      pose proof (IH (<[vv_message_key (message_key keccak m) := VcMessage (Build_poll_content m id i)]> t)
                   {| v_config := v_config s; v_poll_id := v_poll_id s; v_polls := v_polls s;
                     v_messages := <[message_key keccak m := Build_poll_content m id i]> (v_messages s);
                     v_worker_sets := v_worker_sets s |} (idx + 1)) as H.
      cbn [v_config v_poll_id v_polls v_messages v_worker_sets] in H. apply H.
      apply (holds_put _ _ _ vv_inj t s _ (VvMessage (message_key keccak m))); [done|done| |].
      + cbn [vv_cell v_messages]. by rewrite lookup_insert.
      + intros [] Hne; cbn [vv_cell v_config v_polls v_messages v_worker_sets v_poll_id]; try done.
        rewrite lookup_insert_ne; [done|congruence].
  Qed.
  Lemma save_messages_polls tbl id idx ms tbl' :
    id < 2 ^ 64 -> (forall h c, tbl !! h = Some c -> c_poll c < 2 ^ 64) ->
    save_messages keccak tbl id idx ms = Ok tbl' -> forall h c, tbl' !! h = Some c -> c_poll c < 2 ^ 64.
  Proof.
    intros Hid. revert tbl idx. induction ms as [|m ms IH]; intros tbl idx Ht Hs.
    - by injection Hs as <-.
    - cbn [save_messages] in Hs. apply rbind_ok in Hs as (i & _ & Hs). refine (IH _ _ _ Hs).
      intros h c. destruct (decide (h = message_key keccak m)) as [->|Hne].
      + rewrite lookup_insert. by intros [= <-].
      + rewrite lookup_insert_ne by done. apply Ht.
  Qed.
  Lemma vv_put_poll t s id vp : vv_holds t s -> id < 2 ^ 64 -> vv_holds (<[vv_poll_key id := VcPoll vp]> t) (set_poll s id vp).
  Proof.
    intros Hh Hid. apply (holds_put _ _ _ vv_inj t s _ (VvPoll id)); [done|done| |].
    - cbn [vv_cell v_polls set_poll]. by rewrite lookup_insert.
    - intros [] Hne; cbn [vv_cell v_config v_polls v_messages v_worker_sets v_poll_id set_poll]; try done.
      rewrite lookup_insert_ne; [done|congruence].
  Qed.

  Lemma verifier_like t s op :
    vv_holds t s -> vv_inv s -> verifier_call_ok op ->
    agree vv_holds (ideal (verifier_prog keccak op) t) (map_err SOwn (verifier_step keccak s op)).
  Proof.
    intros Hh Hi Hop. destruct op as [h reg ms|h reg mid x|h a id vs|h id];
      cbn [verifier_prog verifier_step verifier_call_ok] in *.
    - unfold v_verify, verify_messages. cbv zeta.
      rewrite ideal_bind, ideal_own. destruct (ensure _ _) as [[]|e|]; cbn [map_err rbind fst snd]; [|done..].
      rewrite ideal_bind, (vv_cfg_ t s Hh). cbn [rbind fst snd].
      rewrite ideal_bind, ideal_own. destruct (ensure _ _) as [[]|e|]; cbn [map_err rbind fst snd]; [|done..].
      rewrite ideal_bind, (vv_cfg_ t s Hh). cbn [rbind fst snd].
      rewrite ideal_bind, (vv_is_verified t s Hh Hi). destruct (is_verified keccak s ms) as [sts|e|]; cbn [map_err rbind fst snd]; [|done..].
      rewrite ideal_bind, (ideal_collect_own _ (fun m => let? st := message_status keccak s m in Ok (st, m))).
      2: { intros m _. rewrite ideal_bind, (vv_message_status t s Hh Hi). by destruct (message_status keccak s m). }
      destruct (try_map _ ms) as [ws|e|]; cbn [map_err rbind fst snd]; [|done..].
      destruct (omap _ ws) as [|m0 rest]; [done|].
      rewrite ideal_bind, (vv_snapshot t s Hh). destruct (take_snapshot _ _ _) as [snap|e|]; cbn [map_err rbind fst snd]; [|done..].
      rewrite ideal_bind. pose proof (vv_create t s Hh Hi MessagesPoll h snap (length (m0 :: rest))) as H.
      destruct (create_poll MessagesPoll s h snap (length (m0 :: rest))) as [[s1 id]|e|].
      + destruct H as (t1 & -> & Hh1 & _ & _). cbn [rbind fst snd]. rewrite ideal_bind.
        pose proof (vv_save t1 s1 id 0 (m0 :: rest) Hh1) as H.
        destruct (save_messages keccak (v_messages s1) id 0 (m0 :: rest)) as [tbl|e|].
        * destruct H as (t2 & -> & Hh2). cbn [rbind fst snd]. rewrite ideal_bind, ideal_own.
          destruct (try_map tx_event_of (m0 :: rest)) as [ev|e|]; cbn [map_err rbind fst snd]; [|done..].
          cbn [ideal agree]. by split.
        * by rewrite H.
        * by rewrite H.
      + by rewrite H.
      + by rewrite H.
    - unfold v_verify_set, verify_worker_set. cbv zeta.
      rewrite ideal_bind, (vv_set_verified t s Hh Hi). destruct (is_worker_set_verified keccak s x) as [d|e|]; cbn [map_err rbind fst snd]; [|done..].
      rewrite ideal_bind, ideal_own. destruct (ensure _ _) as [[]|e|]; cbn [map_err rbind fst snd]; [|done..].
      rewrite ideal_bind, (vv_cfg_ t s Hh). cbn [rbind fst snd].
      rewrite ideal_bind, (vv_snapshot t s Hh). destruct (take_snapshot _ _ _) as [snap|e|]; cbn [map_err rbind fst snd]; [|done..].
      rewrite ideal_bind. pose proof (vv_create t s Hh Hi WorkerSetPoll h snap 1) as H.
      destruct (create_poll WorkerSetPoll s h snap 1) as [[s1 id]|e|].
      + destruct H as (t1 & -> & Hh1 & _ & _). cbn [rbind fst snd]. rewrite ideal_put by constructor.
        rewrite ideal_bind, ideal_own.
        destruct (VerifierModel.parse_message_id mid) as [[tx idx]|e|]; cbn [map_err rbind fst snd]; [|done..].
        cbn [ideal agree]. split; [done|].
        apply (holds_put _ _ _ vv_inj t1 s1 _ (VvSet (operators_key keccak x))); [done|done| |].
        * cbn [vv_cell v_worker_sets]. by rewrite lookup_insert.
        * intros [] Hne; cbn [vv_cell v_config v_polls v_messages v_worker_sets v_poll_id]; try done.
          rewrite lookup_insert_ne; [done|congruence].
      + by rewrite H.
      + by rewrite H.
    - unfold v_vote, verifier_vote. rewrite ideal_bind, (vv_poll_ t s Hh id Hop).
      destruct (of_option _ _) as [vp|e|]; cbn [map_err rbind fst snd]; [|done..].
      rewrite ideal_bind, ideal_own. destruct (vpoll_try_map _ vp) as [vp'|e|]; cbn [map_err rbind fst snd]; [|done..].
      rewrite ideal_put by constructor. cbn [ideal agree]. split; [done|]. by apply vv_put_poll.
    - unfold v_end, verifier_end_poll. rewrite ideal_bind, (vv_cfg_ t s Hh). cbn [rbind fst snd].
      rewrite ideal_bind, (vv_poll_ t s Hh id Hop).
      destruct (of_option _ _) as [vp|e|]; cbn [map_err rbind fst snd]; [|done..].
      rewrite ideal_bind, ideal_own. destruct (vpoll_try_map _ vp) as [vp'|e|]; cbn [map_err rbind fst snd]; [|done..].
      rewrite ideal_put by constructor. cbn [ideal agree]. split; [done|]. by apply vv_put_poll.
  Qed.

  Lemma vv_inv_step s op s' r :
    vv_inv s -> verifier_call_ok op -> verifier_step keccak s op = Ok (s', r) -> vv_inv s'.
  Proof.
    intros [H1 H2] Hop Hs. destruct op as [h reg ms|h reg mid x|h a id vs|h id]; cbn [verifier_step] in Hs.
    - unfold verify_messages in Hs. cbv zeta in Hs. do 4 (apply rbind_ok in Hs as (? & _ & Hs)).
      destruct (omap _ _) as [|m0 rest]; [by injection Hs as <- _|].
      apply rbind_ok in Hs as (snap & _ & Hs). apply rbind_ok in Hs as ([s1 id] & Hc & Hs).
      apply rbind_ok in Hs as (tbl & Ht & Hs). apply rbind_ok in Hs as (ev & _ & Hs). injection Hs as <- _.
      unfold create_poll in Hc. apply rbind_ok in Hc as (id' & Hid & Hc). apply rbind_ok in Hc as (ex & _ & Hc).
      injection Hc as <- <-. apply add_u64_ok in Hid as [Hid ->]. split; [|exact H2].
      exact (save_messages_polls _ _ _ _ _ Hid H1 Ht).
    - unfold verify_worker_set in Hs. cbv zeta in Hs. do 3 (apply rbind_ok in Hs as (? & _ & Hs)).
      apply rbind_ok in Hs as ([s1 id] & Hc & Hs). apply rbind_ok in Hs as ([tx idx] & _ & Hs). injection Hs as <- _.
      unfold create_poll in Hc. apply rbind_ok in Hc as (id' & Hid & Hc). apply rbind_ok in Hc as (ex & _ & Hc).
      injection Hc as <- <-. apply add_u64_ok in Hid as [Hid ->]. split; [exact H1|]. cbn [v_worker_sets].
      intros k c. destruct (decide (k = operators_key keccak x)) as [->|Hne].
      + rewrite lookup_insert. intros [= <-]. exact Hid.
      + rewrite lookup_insert_ne by done. apply H2.
    - unfold verifier_vote in Hs. do 2 (apply rbind_ok in Hs as (? & _ & Hs)). by injection Hs as <- _.
    - unfold verifier_end_poll in Hs. do 2 (apply rbind_ok in Hs as (? & _ & Hs)). by injection Hs as <- _.
  Qed.

  Lemma verifier_sim_init c :
    cells_sim verifier_layout vv_ok vv_place vv_cell vv_inv (verifier_bytes_init c) (verifier_init c).
  Proof.
    split; [split; intros *; cbn [verifier_init v_messages v_worker_sets]; by rewrite lookup_empty|].
    exists {[VV_CONFIG := VcConfig c]}. split; [apply stored_single; in_layout|].
    apply (holds_single _ _ _ vv_inj _ VvConfig); [done|done|].
    intros [] Hne; cbn [vv_cell verifier_init v_messages v_worker_sets v_polls v_poll_id]; rewrite ?lookup_empty; done.
  Qed.
  Lemma c98_verifier c ops :
    Forall verifier_call_ok ops ->
    let m := run (verifier_bytes_step keccak) (verifier_bytes_init c) ops in
    let s := run (verifier_step keccak) (verifier_init c) ops in
    log (verifier_bytes_step keccak) (verifier_bytes_init c) ops = log (verifier_step keccak) (verifier_init c) ops /\
    verifier_stored m s /\
    (forall op, verifier_call_ok op ->
       agree verifier_stored (verifier_bytes_step keccak m op) (map_err SOwn (verifier_step keccak s op))) /\
    (forall ms, raw (v_is_verified keccak ms) m = let? a := map_err SOwn (is_verified keccak s ms) in Ok (m, a)) /\
    (forall x, raw (v_set_verified keccak x) m = let? a := map_err SOwn (is_worker_set_verified keccak s x) in Ok (m, a)).
  Proof.
    intros Hops m s.
    destruct (cells_history verifier_layout vv_ok vv_place vv_cell ltac:(by vm_compute) (verifier_prog keccak) (verifier_step keccak)
                vv_inv verifier_call_ok (fun op _ => verifier_keeps op) verifier_like vv_inv_step
                _ _ ops (verifier_sim_init c) Hops) as (H1 & H2 & H3 & H4).
    split; [exact H1|]. split; [exact H2|]. split; [exact H3|]. split.
    - intros ms. apply (cells_query verifier_layout vv_ok vv_place vv_cell ltac:(by vm_compute) vv_inv _ m s _ H4).
      + unfold v_is_verified, v_message_status, v_status. keep.
      + unfold v_is_verified, v_message_status, v_status. just_reads.
      + intros t Hh Hi. by apply vv_is_verified.
    - intros x. apply (cells_query verifier_layout vv_ok vv_place vv_cell ltac:(by vm_compute) vv_inv _ m s _ H4).
      + unfold v_set_verified, v_set_status, v_status. keep.
      + unfold v_set_verified, v_set_status, v_status. just_reads.
      + intros t Hh Hi. by apply vv_set_verified.
  Qed.
End Verifier.
