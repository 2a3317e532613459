(** The voting verifier over texts. *)
From Verif Require Import Base BaseLemmas MapLemmas StdProofs Text TextLemmas StdModel RouterTypes RegistryTypes OperatorsModel MultisigTypes.
From Verif Require Import EncodingModel VerifierModel RewardsModel RegistryModel RouterModel GatewayModel NexusModel MultisigModel ProverModel.
From Verif Require Import StorageModel StorageSpec StorageProofs2 StorageProofs3 StorageProofs4 StorageProofs5 StorageProofs6.
From Verif Require Import Storage2Model Storage2Spec Storage2Proofs Storage2Proofs2 Storage2Proofs3 Storage2Proofs4.
From Verif Require Import EventsModel JsonModel JsonSpec WireModel WireSpec WireProofs WireProofs2 WireProofs3.
From Verif Require Import Storage3Model Storage3Spec Storage3Proofs Storage3Proofs2 Storage3Proofs3 Storage3Proofs4.

Lemma wp_collect_length {V} (P : string -> V -> Prop) {E A B} (f : A -> prog V E B) l :
  (forall a, a ∈ l -> wp P (f a) (fun _ => True)) -> wp P (collect f l) (fun r => length r = length l).
Proof.
  induction l as [|a l IH]; intros H; [done|]. cbn [collect]. eapply wp_bind; [apply H; by left|]. intros b _.
  eapply wp_bind; [apply IH; intros; apply H; by right|]. intros r Hr. cbn. by rewrite Hr.
Qed.
Lemma wp_and {V} (P : string -> V -> Prop) {E A} (p : prog V E A) (Q Q' : A -> Prop) :
  wp P p Q -> wp P p Q' -> wp P p (fun a => Q a /\ Q' a).
Proof. induction p; simpl; naive_solver. Qed.

(** Snapshots and polls keep to their types. *)
Lemma add_u256_lt {E} a b n : add_u256 (E:=E) a b = Ok n -> n < 2 ^ 256 /\ n = a + b.
Proof. intros H. apply checked_ok in H as [H ->]. by split. Qed.
Lemma mul_ceil_lt {E} x t n : mul_ceil (E:=E) x t = Ok n -> n < 2 ^ 256.
Proof.
  unfold mul_ceil. destruct (t_den t =? 0); [done|]. destruct (N.ltb_spec (x * t_num t / t_den t) U256) as [H|]; [|done].
  destruct (_ =? 0); [by intros [= <-]|]. intros Hc. apply checked_ok in Hc as [Hc ->]. exact Hc.
Qed.
Lemma snapshot_collect_proper {E} l total m r :
  snapshot_collect (E:=E) l total m = Ok r -> (forall a w, m !! a = Some w -> w < 2 ^ 256) ->
  forall a w, r.2 !! a = Some w -> w < 2 ^ 256.
Proof.
  revert total m. induction l as [|p l IH]; intros total m H Hm; cbn [snapshot_collect] in H; [by injection H as <-|].
  apply rbind_ok in H as (t' & Ht & H). apply add_u256_lt in Ht as [Ht ->]. eapply IH; [exact H|].
  intros a w Ha. apply lookup_insert_Some in Ha as [[_ <-]|[_ Ha]]; [lia|by eapply Hm].
Qed.
Definition proper_snapshot (s : snapshot) : Prop :=
  s_quorum s < 2 ^ 256 /\ forall a w, s_participants s !! a = Some w -> w < 2 ^ 256.
Lemma snapshot_new_proper {E} t l s : snapshot_new (E:=E) t l = Ok s -> proper_snapshot s.
Proof.
  unfold snapshot_new. intros H. apply rbind_ok in H as ([total m] & Hc & H). apply rbind_ok in H as (q & Hq & H).
  destruct (q =? 0); [done|]. injection H as <-. split; cbn [s_quorum s_participants]; [by eapply mul_ceil_lt|].
  intros a w. apply (snapshot_collect_proper l 0 ∅ (total, m) Hc). intros ? ?. by rewrite lookup_empty.
Qed.
Lemma poll_new_proper id s x n :
  id < 2 ^ 64 -> proper_snapshot s -> x < 2 ^ 64 -> N.of_nat n < 2 ^ 64 -> proper_poll (poll_new id s x n).
Proof.
  intros Hi [Hq Hs] Hx Hn. split; [done|]. split; [done|]. split; [done|]. split; [done|]. split.
  - cbn [poll_new poll_tallies]. apply Forall_replicate. exists 0, 0, 0. split; [done|]. split; [lia|]. split; lia.
  - cbn [poll_new poll_participation]. intros a pt Ha. rewrite lookup_fmap in Ha. apply fmap_Some in Ha as (w & Hw & ->). by eapply Hs.
Qed.
Lemma tallies_tally_proper {E} t v w t' : tallies_tally (E:=E) t v w = Ok t' -> proper_tallies t -> proper_tallies t'.
Proof.
  intros H (a & b & c & -> & Ha & Hb & Hc). unfold proper_tallies.
  cbn [tallies_tally] in H.
  destruct v; repeat (case_bool_decide; try congruence);
    repeat match goal with
           | H : rbind _ _ = Ok _ |- _ => apply rbind_ok in H as (? & ? & H)
           | H : Ok _ = Ok _ |- _ => injection H as <-
           | H : add_u256 _ _ = Ok _ |- _ => apply add_u256_lt in H as [H _]
           end; eauto 10.
Qed.
Lemma tally_all_proper {E} ts vs w ts' : tally_all (E:=E) ts vs w = Ok ts' -> Forall proper_tallies ts -> Forall proper_tallies ts'.
Proof.
  revert vs ts'. induction ts as [|t ts IH]; intros [|v vs] ts' H Ht; cbn [tally_all] in H; try (injection H as <-; exact Ht).
  apply rbind_ok in H as (t1 & H1 & H). apply rbind_ok in H as (r & Hr & H). injection H as <-.
  inversion Ht; subst. constructor; [by eapply tallies_tally_proper|by eapply IH].
Qed.
Lemma cast_vote_proper p h a vs p' : poll_cast_vote p h a vs = Ok p' -> proper_poll p -> proper_poll p'.
Proof.
  unfold poll_cast_vote. intros H (H1 & H2 & H3 & H4 & H5 & H6). apply rbind_ok in H as (pt & Hpt & H). apply of_option_ok in Hpt.
  do 3 apply rbind_ok in H as (? & _ & H). apply rbind_ok in H as (ts & Hts & H). injection H as <-.
  split; [done|]. split; [done|]. split; [done|]. split; [done|]. cbn [poll_tallies poll_participation].
  split; [by eapply tally_all_proper|]. intros b y Hb. apply lookup_insert_Some in Hb as [[_ <-]|[_ Hb]]; [|by eapply H6].
  cbn [pt_weight]. by eapply H6.
Qed.
Lemma finish_proper p h p' : poll_finish p h = Ok p' -> proper_poll p -> proper_poll p'.
Proof.
  unfold poll_finish. destruct (bool_decide _); [done|]. destruct (h <? _); [done|]. by intros [= <-].
Qed.

Definition vv_good (ns : string) (v : vvval) : Prop :=
  match v with
  | VcConfig c => ns = "config" /\ proper_vconfig c
  | VcPollId n => ns = "poll_id" /\ n < 2 ^ 64
  | VcPoll p => ns = "polls" /\ proper_poll (vpoll_poll p)
  | VcMessage c => ns = "poll_messages" /\ proper_content proper_message c
  | VcSet c => ns = "poll_worker_sets" /\ proper_content proper_operators c
  end.
Lemma vv_codec ns v : vv_good ns v -> (j ← of_wire (to_json (e_vvval v)); d_vvval ns j) = Some v.
Proof.
  destruct v as [c|n|p|c|c]; cbn [vv_good e_vvval]; intros (-> & H).
  - apply (text_map e_vconfig d_vconfig VcConfig). apply (fwd_text _ _ _ 2 c fwd_vconfig); [lia|done].
  - by apply (text_uint VcPollId U64).
  - apply (text_map e_vpoll d_vpoll VcPoll). apply (fwd_text _ _ _ 5 p fwd_vpoll); [lia|done].
  - apply (text_map (e_content e_message) (d_content d_message) VcMessage).
    apply (fwd_text _ _ _ 3 c (fwd_content _ _ _ _ (proj1 codec_message))); [lia|done].
  - apply (text_map (e_content e_operators) (d_content d_operators) VcSet).
    apply (fwd_text _ _ _ 4 c (fwd_content _ _ _ _ (proj1 codec_operators))); [lia|done].
Qed.
Section Verifier.
  Context (keccak : string -> string).
  Lemma wp_v_cfg : wp vv_good v_cfg proper_vconfig.
  Proof using. intros [v|] Ho; [|done]. specialize (Ho v eq_refl). destruct v; cbn [wp]; try done. by destruct Ho. Qed.
  Lemma wp_v_status {T} `{EqDecision T} (o : option (poll_content T)) c : wp vv_good (v_status o c) (fun _ => True).
  Proof using.
    destruct o as [x|]; [|done]. unfold v_status. destruct (bool_decide _); [|done]. intros [[]|] Ho; try done. by apply wp_own.
  Qed.
  Lemma wp_v_message_status m : wp vv_good (v_message_status keccak m) (fun _ => True).
  Proof using. intros [[]|] Ho; try done; apply wp_v_status. Qed.
  Lemma wp_v_set_status m : wp vv_good (v_set_status keccak m) (fun _ => True).
  Proof using. intros [[]|] Ho; try done; apply wp_v_status. Qed.
  Lemma wp_v_is_verified ms : wp vv_good (v_is_verified keccak ms) (fun _ => True).
  Proof using.
    eapply wp_mono; [|apply (wp_collect _ _ _ (fun _ => True))]; [done|]. intros m _.
    eapply wp_bind; [apply wp_v_message_status|]. done.
  Qed.
  Lemma wp_v_set_verified x : wp vv_good (v_set_verified keccak x) (fun _ => True).
  Proof using. eapply wp_bind; [apply wp_v_set_status|]. done. Qed.
  Lemma wp_v_snapshot reg chain : wp vv_good (v_snapshot reg chain) proper_snapshot.
  Proof using.
    eapply wp_bind; [apply wp_v_cfg|]. intros c _. apply wp_own. intros s H. unfold take_snapshot in H.
    apply rbind_ok in H as (ws & _ & H). apply rbind_ok in H as (ps & _ & H). apply rbind_ok in H as (? & _ & H).
    by eapply snapshot_new_proper.
  Qed.
  Lemma wp_v_create mk h x s n :
    (forall p, vpoll_poll (mk p) = p) -> proper_snapshot s -> N.of_nat n < 2 ^ 64 ->
    wp vv_good (v_create mk h x s n) (fun id => id < 2 ^ 64).
  Proof using.
    intros Hmk Hs Hn o Ho. eapply wp_bind; [apply (wp_own _ _ (fun n => n < 2 ^ 64)); intros a; apply add_u64_lt|]. intros id Hid.
    split; [done|]. eapply wp_bind; [apply (wp_own _ _ (fun n => n < 2 ^ 64)); intros a; apply add_u64_lt|]. intros e He.
    cbn [wp name_of vv_poll_key vv_good]. split; [|done]. split; [done|]. rewrite Hmk. by apply poll_new_proper.
  Qed.
  Lemma wp_v_save id idx ms : id < 2 ^ 64 -> Forall proper_message ms -> wp vv_good (v_save keccak id idx ms) (fun _ => True).
  Proof using.
    intros Hid Hms. revert idx. induction Hms as [|m ms Hm Hms IH]; intros idx; [done|]. cbn [v_save].
    eapply wp_bind; [apply (wp_own _ _ (fun n => n < 2 ^ 32)); intros a H; apply checked_ok in H as [H ->]; exact H|]. intros i Hi.
    cbn [wp name_of vv_message_key vv_good]. split; [|apply IH]. split; [done|]. by split.
  Qed.
  Lemma wp_v_poll id : wp vv_good (v_poll id) (fun p => proper_poll (vpoll_poll p)).
  Proof using. intros [v|] Ho; [|done]. specialize (Ho v eq_refl). destruct v; cbn [wp]; try done. by destruct Ho. Qed.
  Lemma vpoll_try_map_proper f vp vp' :
    vpoll_try_map (E:=verror) f vp = Ok vp' -> (forall p p', f p = Ok p' -> proper_poll p -> proper_poll p') ->
    proper_poll (vpoll_poll vp) -> proper_poll (vpoll_poll vp').
  Proof using.
    intros H Hf. destruct vp; cbn [vpoll_try_map vpoll_poll] in *; apply rbind_ok in H as (p' & Hp & H); injection H as <-; by apply Hf.
  Qed.
  Lemma wp_verifier op : verifier_text_ok op -> wp vv_good (verifier_prog keccak op) (fun _ => True).
  Proof using.
    intros [Hc Ht]. destruct op as [h reg ms|h reg mid x|h a id vs|h id]; cbn [verifier_prog].
    - destruct Ht as [Hms Hlen]. unfold v_verify. any. intros _ _. eapply wp_bind; [apply wp_v_cfg|]. intros c0 _. any. intros _ _.
      eapply wp_bind; [apply wp_v_cfg|]. intros c _. eapply wp_bind; [apply wp_v_is_verified|]. intros sts _.
      eapply wp_bind; [apply (wp_and _ _ (Forall (fun x : vstatus * message => proper_message x.2)))|].
      + apply (wp_collect _ _ _ (fun x : vstatus * message => proper_message x.2)). intros m Hm.
        eapply wp_bind; [apply wp_v_message_status|]. intros st _. rewrite Forall_forall in Hms. by apply Hms.
      + apply wp_collect_length. intros m _. eapply wp_bind; [apply wp_v_message_status|]. done.
      + intros ws [Hws Hl]. cbv beta in Hl.
        assert (Hp : forall l : list (vstatus * message), Forall (fun x => proper_message x.2) l ->
                  Forall proper_message (omap (M:=list) (fun '(st, m) => if needs_poll st then Some m else None) l) /\
                  (length (omap (M:=list) (fun '(st, m) => if needs_poll st then Some m else None) l) <= length l)%nat).
        { induction 1 as [|[st m] l Hm Hl' [IH1 IH2]]; [split; [constructor|done]|]. cbn. destruct (needs_poll st); cbn.
          - split; [by constructor|]. cbn in IH2. lia.
          - split; [done|]. cbn in IH2. lia. }
        destruct (Hp ws Hws) as [Hf Hn]. clear Hp. revert Hf Hn.
        destruct (omap (M:=list) _ ws) as [|m0 rest]; intros Hf Hn; [done|].
        eapply wp_bind; [apply wp_v_snapshot|]. intros snap Hsnap.
        eapply wp_bind; [apply wp_v_create; [done|done|]|].
        { rewrite Hl in Hn. lia. }
        intros id Hid. eapply wp_bind; [apply wp_v_save; [done|exact Hf]|]. intros _ _. any. done.
    - unfold v_verify_set. eapply wp_bind; [apply wp_v_set_verified|]. intros d _. any. intros _ _. eapply wp_bind; [apply wp_v_cfg|].
      intros c _. eapply wp_bind; [apply wp_v_snapshot|]. intros snap Hsnap. eapply wp_bind; [apply wp_v_create; [done|done|lia]|].
      intros id Hid. cbn [wp name_of vv_set_key vv_good]. split; [split; [done|]; split; [exact Ht|]; split; [exact Hid|cbn [c_index]; lia]|].
      any. done.
    - unfold v_vote. eapply wp_bind; [apply wp_v_poll|]. intros vp Hvp.
      eapply wp_bind; [apply (wp_own _ _ (fun p => proper_poll (vpoll_poll p)))|].
      + intros vp' H. eapply vpoll_try_map_proper; [exact H| |exact Hvp]. intros p p' Hp. apply map_err_ok in Hp. by eapply cast_vote_proper.
      + intros vp' H. split; [|done]. by split.
    - unfold v_end. eapply wp_bind; [apply wp_v_cfg|]. intros c _. eapply wp_bind; [apply wp_v_poll|]. intros vp Hvp.
      eapply wp_bind; [apply (wp_own _ _ (fun p => proper_poll (vpoll_poll p)))|].
      + intros vp' H. eapply vpoll_try_map_proper; [exact H| |exact Hvp]. intros p p' Hp. apply map_err_ok in Hp. by eapply finish_proper.
      + intros vp' H. split; [|done]. by split.
  Qed.
  Lemma c104_verifier c ops :
    proper_vconfig c -> Forall verifier_text_ok ops ->
    let mt := run (verifier_text_step keccak) (verifier_text_init c) ops in
    let s := run (verifier_step keccak) (verifier_init c) ops in
    log (verifier_text_step keccak) (verifier_text_init c) ops = log (verifier_step keccak) (verifier_init c) ops /\
    texts_of verifier_layout e_vvval d_vvval verifier_stored mt s /\
    (forall op, verifier_text_ok op ->
       agree (texts_of verifier_layout e_vvval d_vvval verifier_stored) (verifier_text_step keccak mt op)
         (map_err (fun e => TOwn (SOwn e)) (verifier_step keccak s op))) /\
    (forall ms, raw (in_texts e_vvval d_vvval (v_is_verified keccak ms)) mt =
       let? a := map_err (fun e => TOwn (SOwn e)) (is_verified keccak s ms) in Ok (mt, a)) /\
    (forall x, raw (in_texts e_vvval d_vvval (v_set_verified keccak x)) mt =
       let? a := map_err (fun e => TOwn (SOwn e)) (is_worker_set_verified keccak s x) in Ok (mt, a)).
  Proof using.
    intros Hc Hops mt s.
    assert (Hcall : Forall verifier_call_ok ops) by (eapply Forall_impl; [exact Hops|]; by intros op []).
    destruct (c98_verifier keccak c ops Hcall) as (H1 & H2 & H3 & H4 & H5).
    destruct (texts_history vv_good verifier_layout e_vvval d_vvval ltac:(by vm_compute) vv_codec (verifier_prog keccak)
                (verifier_step keccak) verifier_text_ok verifier_stored (fun op _ => verifier_keeps keccak op) wp_verifier
                (verifier_text_init c) (verifier_bytes_init c) (verifier_init c) ops) as (G1 & G2 & G3 & G4); [|done|done|done| |].
    - apply tsim_single; [cbn; set_solver|by split].
    - intros op [Hop _]. by apply H3.
    - split; [done|]. split; [done|]. split; [done|]. split.
      + intros ms.
        refine (texts_query vv_good verifier_layout e_vvval d_vvval ltac:(by vm_compute) vv_codec (v_is_verified keccak ms) (fun _ => True) mt _ _
               _ (wp_v_is_verified ms) G4 (H4 ms)).
        unfold v_is_verified, v_message_status, v_status. keep.
      + intros x.
        refine (texts_query vv_good verifier_layout e_vvval d_vvval ltac:(by vm_compute) vv_codec (v_set_verified keccak x) (fun _ => True) mt _ _
               _ (wp_v_set_verified x) G4 (H5 x)).
        unfold v_set_verified, v_set_status, v_status. keep.
  Qed.
End Verifier.
