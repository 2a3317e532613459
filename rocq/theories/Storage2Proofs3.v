(** The rewards contract over bytes. *)
From Verif Require Import Base BaseLemmas Text TextLemmas StdModel StdProofs EncodingModel EncodingProofs RewardsModel.
From Verif Require Import StorageModel StorageSpec StorageProofs StorageProofs2 StorageProofs3 StorageProofs4 StorageProofs5.
From Verif Require Import Storage2Model Storage2Spec Storage2Proofs Storage2Proofs2.

Notation rw_holds := (holds rw_ok rw_place rw_cell).
Definition rw_inv (s : rstate) : Prop :=
  (forall c n t, r_tallies s !! (c, n) = Some t ->
     n < 2 ^ 64 /\ slen c <= 65535 /\ ty_contract t = c /\ e_num (ty_epoch t) = n) /\
  (forall k n, r_events s !! k = Some n -> n < 2 ^ 64).

Lemma keeps_w_cumulate c ns acc : keeps rewards_layout (w_cumulate c ns acc).
Proof.
  revert acc. induction ns as [|n ns IH]; intros acc; [exact I|]. cbn [w_cumulate]. keep; done.
Qed.
Lemma rewards_keeps op : keeps rewards_layout (rewards_prog op).
Proof.
  unfold rewards_prog, w_config, w_record, w_add, w_distribute, w_update, w_epoch, w_params, w_event, w_tally, w_mark, w_pool.
  keep; apply keeps_w_cumulate.
Qed.

Lemma fits_tally c n : slen c <= 65535 -> fits (rw_tally_key c n).
Proof. intros H. by repeat constructor. Qed.
Lemma fits_event ev c : slen ev <= 65535 -> fits (rw_event_key ev c).
Proof. intros H. by repeat constructor. Qed.

Lemma epoch_at_current s h : epoch_at (r_params s) (r_updated s) h = current_epoch s h.
Proof. reflexivity. Qed.
Lemma current_epoch_num s h e : current_epoch s h = Ok e -> e_num e < 2 ^ 64.
Proof.
  unfold current_epoch. cbv zeta. destruct (_ <? _); [done|]. destruct (_ =? _); [done|]. intros H.
  apply rbind_ok in H as (n & Hn & H). apply rbind_ok in H as (l & _ & H). apply rbind_ok in H as (st & _ & H).
  injection H as <-. apply add_u64_ok in Hn as [Hn ->]. exact Hn.
Qed.

Section Read.
  Context (t : gmap skey rwval) (s : rstate) (Hh : rw_holds t s).
  Lemma rw_config : ideal w_config t = Ok (t, (r_governance s, r_denom s)).
  Proof using Hh.
    unfold w_config. rewrite ideal_get by done.
    by rewrite (h_at _ _ _ _ _ Hh RwConfig I : t !! RW_CONFIG = Some (WvConfig (r_governance s) (r_denom s))).
  Qed.
  Lemma rw_params : ideal w_params t = Ok (t, (r_params s, r_updated s)).
  Proof using Hh.
    unfold w_params. rewrite ideal_get by done.
    by rewrite (h_at _ _ _ _ _ Hh RwParams I : t !! RW_PARAMS = Some (WvParams (r_params s) (r_updated s))).
  Qed.
  Lemma rw_epoch h : ideal (w_epoch h) t = let? e := map_err SOwn (current_epoch s h) in Ok (t, e).
  Proof using Hh. unfold w_epoch. rewrite ideal_bind, rw_params. cbn [rbind fst snd]. by rewrite ideal_own. Qed.
  Lemma rw_mark c : ideal (w_mark c) t = Ok (t, r_marks s !! c).
  Proof using Hh.
    unfold w_mark. rewrite ideal_get by constructor.
    rewrite (h_at _ _ _ _ _ Hh (RwWatermark c) I : t !! rw_watermark_key c = WvMark <$> r_marks s !! c).
    by destruct (r_marks s !! c).
  Qed.
  Lemma rw_pool c : ideal (w_pool c) t = Ok (t, (c, pool_balance s c)).
  Proof using Hh.
    unfold w_pool, pool_balance. rewrite ideal_get by constructor.
    rewrite (h_at _ _ _ _ _ Hh (RwPool c) I : t !! rw_pool_key c = WvPool c <$> r_pools s !! c).
    by destruct (r_pools s !! c).
  Qed.
  Lemma rw_event ev c : slen ev <= 65535 -> ideal (w_event ev c) t = Ok (t, r_events s !! (ev, c)).
  Proof using Hh.
    intros Hev. unfold w_event. rewrite ideal_get by (by apply fits_event).
    rewrite (h_at _ _ _ _ _ Hh (RwEvent ev c) I : t !! rw_event_key ev c = WvEvent ev c <$> r_events s !! (ev, c)).
    by destruct (r_events s !! (ev, c)).
  Qed.
  Lemma rw_tally c n : slen c <= 65535 -> n < 2 ^ 64 -> ideal (w_tally c n) t = Ok (t, r_tallies s !! (c, n)).
  Proof using Hh.
    intros Hc Hn. unfold w_tally. rewrite ideal_get by (by apply fits_tally).
    rewrite (h_at _ _ _ _ _ Hh (RwTally c n) Hn : t !! rw_tally_key c n = WvTally <$> r_tallies s !! (c, n)).
    by destruct (r_tallies s !! (c, n)).
  Qed.
  Lemma rw_cumulate c ns acc :
    slen c <= 65535 -> Forall (fun n => n < 2 ^ 64) ns ->
    ideal (w_cumulate c ns acc) t =
    let? r := map_err SOwn (fold_left (fun acc n =>
               let? m := acc in
               match r_tallies s !! (c, n) with
               | Some t => merge_rewards m (rewards_by_worker t)
               | None => Ok m
               end) ns (Ok acc)) in Ok (t, r).
  Proof using Hh.
    intros Hc Hns. revert acc. induction Hns as [|n ns Hn Hns IH]; intros acc; [done|]. cbn [w_cumulate fold_left].
    rewrite ideal_get by (by apply fits_tally).
    rewrite (h_at _ _ _ _ _ Hh (RwTally c n) Hn : t !! rw_tally_key c n = WvTally <$> r_tallies s !! (c, n)).
    destruct (r_tallies s !! (c, n)) as [ty|]; cbn [fmap option_fmap option_map rbind].
    - rewrite ideal_bind, ideal_own. destruct (merge_rewards _ _) as [a|e|]; cbn [map_err rbind fst snd].
      + apply IH.
      + clear -e. induction ns as [|n ns IH]; [done|]. cbn [fold_left rbind]. apply IH.
      + clear. induction ns as [|n ns IH]; [done|]. cbn [fold_left rbind]. apply IH.
    - cbn [pbind]. apply IH.
  Qed.
End Read.

(** ** Writing *)
Lemma rw_put_event t s s' ev c n :
  rw_holds t s -> s' = {| r_governance := r_governance s; r_denom := r_denom s; r_params := r_params s;
     r_updated := r_updated s; r_tallies := r_tallies s; r_events := <[(ev, c) := n]> (r_events s);
     r_pools := r_pools s; r_marks := r_marks s |} ->
  rw_holds (<[rw_event_key ev c := WvEvent ev c n]> t) s'.
Proof.
  intros Hh ->. apply (holds_put _ _ _ rw_inj t s _ (RwEvent ev c)); [done|done| |].
  - simpl. by rewrite lookup_insert.
  - intros [] Hne; simpl; try done. rewrite lookup_insert_ne; [done|congruence].
Qed.
Lemma rw_put_tally t s s' c n ty :
  rw_holds t s -> n < 2 ^ 64 -> s' = {| r_governance := r_governance s; r_denom := r_denom s; r_params := r_params s;
     r_updated := r_updated s; r_tallies := <[(c, n) := ty]> (r_tallies s); r_events := r_events s;
     r_pools := r_pools s; r_marks := r_marks s |} ->
  rw_holds (<[rw_tally_key c n := WvTally ty]> t) s'.
Proof.
  intros Hh Hn ->. apply (holds_put _ _ _ rw_inj t s _ (RwTally c n)); [done|done| |].
  - simpl. by rewrite lookup_insert.
  - intros [] Hne; simpl; try done. rewrite lookup_insert_ne; [done|congruence].
Qed.
Lemma rw_put_pool t s s' c n :
  rw_holds t s -> s' = {| r_governance := r_governance s; r_denom := r_denom s; r_params := r_params s;
     r_updated := r_updated s; r_tallies := r_tallies s; r_events := r_events s;
     r_pools := <[c := n]> (r_pools s); r_marks := r_marks s |} ->
  rw_holds (<[rw_pool_key c := WvPool c n]> t) s'.
Proof.
  intros Hh ->. apply (holds_put _ _ _ rw_inj t s _ (RwPool c)); [done|done| |].
  - simpl. by rewrite lookup_insert.
  - intros [] Hne; simpl; try done. rewrite lookup_insert_ne; [done|congruence].
Qed.
Lemma rw_put_mark t s s' c n :
  rw_holds t s -> s' = {| r_governance := r_governance s; r_denom := r_denom s; r_params := r_params s;
     r_updated := r_updated s; r_tallies := r_tallies s; r_events := r_events s;
     r_pools := r_pools s; r_marks := <[c := n]> (r_marks s) |} ->
  rw_holds (<[rw_watermark_key c := WvMark n]> t) s'.
Proof.
  intros Hh ->. apply (holds_put _ _ _ rw_inj t s _ (RwWatermark c)); [done|done| |].
  - simpl. by rewrite lookup_insert.
  - intros [] Hne; simpl; try done. rewrite lookup_insert_ne; [done|congruence].
Qed.
Lemma rw_put_params t s s' p u :
  rw_holds t s -> s' = {| r_governance := r_governance s; r_denom := r_denom s; r_params := p;
     r_updated := u; r_tallies := r_tallies s; r_events := r_events s;
     r_pools := r_pools s; r_marks := r_marks s |} ->
  rw_holds (<[RW_PARAMS := WvParams p u]> t) s'.
Proof.
  intros Hh ->. apply (holds_put _ _ _ rw_inj t s _ RwParams); [done|done|done|]. by intros [] Hne; simpl.
Qed.

Lemma record_like t s ev w c h :
  rw_holds t s -> rw_inv s -> slen c <= 65535 -> slen ev <= 65535 ->
  match record_participation s ev w c h with
  | Ok s' => exists t', ideal (w_record h c ev w) t = Ok (t', tt) /\ rw_holds t' s'
  | Err e => ideal (w_record h c ev w) t = Err (SOwn e)
  | Panic => ideal (w_record h c ev w) t = Panic
  end.
Proof.
  intros Hh [Hi1 Hi2] Hc Hev. unfold record_participation, w_record. rewrite ideal_bind, (rw_epoch t s Hh).
  destruct (current_epoch s h) as [cur|e|] eqn:Ecur; cbn [map_err rbind fst snd]; [|done..].
  apply current_epoch_num in Ecur.
  rewrite ideal_bind, (rw_event t s Hh) by done. cbn [rbind fst snd]. rewrite ideal_bind.
  (* the event *)
  set (new := match r_events s !! (ev, c) with Some n => (false, n) | None => (true, e_num cur) end).
  set (s1 := {| r_governance := r_governance s; r_denom := r_denom s; r_params := r_params s;
     r_updated := r_updated s; r_tallies := r_tallies s;
     r_events := if new.1 then <[(ev, c) := new.2]> (r_events s) else r_events s;
     r_pools := r_pools s; r_marks := r_marks s |}).
  assert (Hnew : new.2 < 2 ^ 64).
  { subst new. destruct (r_events s !! (ev, c)) eqn:E; simpl; [by eapply Hi2|done]. }
  assert (He : exists t1, ideal (V:=rwval) (E:=serr rerror) match r_events s !! (ev, c) with
      | Some n => Ret (false, n)
      | None => Put (rw_event_key ev c) (WvEvent ev c (e_num cur)) (Ret (true, e_num cur))
      end t = Ok (t1, new) /\ rw_holds t1 s1).
  { subst s1 new. destruct (r_events s !! (ev, c)) as [n|]; simpl.
    - exists t. split; [done|]. by destruct s.
    - rewrite decide_True by (by apply (fits_event ev c)). eexists. split; [done|]. by apply (rw_put_event t s). }
  destruct He as (t1 & -> & Hh1). cbn [rbind fst snd].
  rewrite ideal_bind, (rw_tally t1 s1 Hh1) by done. cbn [rbind fst snd]. rewrite ideal_bind.
  change (r_tallies s1) with (r_tallies s).
  clearbody new. destruct new as [is_new num]. cbn [fst snd] in *.
  set (t0 := match r_tallies s !! (c, num) with
             | Some t => t
             | None => {| ty_contract := c; ty_count := 0; ty_part := ∅; ty_epoch := cur; ty_params := r_params s |}
             end).
  assert (Ht0 : ty_contract t0 = c /\ e_num (ty_epoch t0) < 2 ^ 64).
  { subst t0. destruct (r_tallies s !! (c, num)) as [ty|] eqn:E; simpl; [|done].
    destruct (Hi1 c num ty E) as (H1 & H2 & H3 & H4). split; [done|]. by rewrite H4. }
  assert (Ei : ideal (V:=rwval) (E:=serr rerror) match r_tallies s !! (c, num) with
      | Some t => Ret t
      | None => let! pu := w_params in
                Ret {| ty_contract := c; ty_count := 0; ty_part := ∅; ty_epoch := cur; ty_params := pu.1 |}
      end t1 = Ok (t1, t0)).
  { subst t0. destruct (r_tallies s !! (c, num)) as [ty|]; [done|]. by rewrite ideal_bind, (rw_params t1 s1 Hh1). }
  rewrite Ei. cbn [rbind fst snd]. clearbody t0. clear Ei.
  rewrite ideal_bind, ideal_own. destruct (tally_record t0 w) as [ty|e|] eqn:Et; cbn [map_err rbind fst snd]; [|done..].
  assert (Hty : ty_contract ty = c /\ e_num (ty_epoch ty) < 2 ^ 64).
  { unfold tally_record in Et. apply rbind_ok in Et as (n & _ & Et). by injection Et as <-. }
  rewrite ideal_bind, ideal_own.
  destruct (if is_new then add_u64 (ty_count ty) 1 else Ok (ty_count ty)) as [count|e|]; cbn [map_err rbind fst snd]; [|done..].
  cbv zeta. cbn [ty_contract ty_epoch].
  destruct Hty as [Hty Hnum]. rewrite ideal_put by (apply fits_tally; by rewrite Hty). cbn [ideal].
  eexists. split; [done|]. by apply (rw_put_tally t1 s1).
Qed.

Lemma rewards_like t s op :
  rw_holds t s -> rw_inv s -> rewards_call_ok op ->
  agree rw_holds (ideal (rewards_prog op) t) (map_err SOwn (rewards_step s op)).
Proof.
  intros Hh Hi Hop. unfold rewards_prog. rewrite ideal_bind, (rw_config t s Hh). cbn [rbind fst snd].
  destruct op as [h c ev w|c funds|h c limit|h a p]; cbn [rewards_step rewards_call_ok] in *.
  - rewrite ideal_bind. pose proof (record_like t s ev w c h Hh Hi (proj1 Hop) (proj2 Hop)) as H.
    destruct (record_participation s ev w c h) as [s'|e|].
    + destruct H as (t' & -> & H'). by simpl.
    + by rewrite H.
    + by rewrite H.
  - rewrite ideal_bind. unfold w_add, add_rewards. rewrite ideal_bind, ideal_own.
    destruct (find _ funds) as [x|]; [|done]. destruct (_ =? _)%nat; [|done]. cbn [map_err rbind fst snd].
    rewrite ideal_bind, ideal_own. destruct (ensure _ _) as [[]|e|]; cbn [map_err rbind fst snd]; [|done..].
    rewrite ideal_bind, (rw_pool t s Hh). cbn [rbind fst snd]. rewrite ideal_bind, ideal_own.
    destruct (add_u128 _ _) as [b|e|]; cbn [map_err rbind fst snd]; [|done..].
    rewrite ideal_put by constructor. cbn [ideal rbind fst snd map_err agree]. split; [done|]. by apply (rw_put_pool t s).
  - unfold w_distribute, distribute_rewards. cbv zeta. rewrite ideal_bind, (rw_epoch t s Hh).
    destruct (current_epoch s h) as [cur|e|] eqn:Ecur; cbn [map_err rbind fst snd]; [|done..].
    apply current_epoch_num in Ecur.
    rewrite ideal_bind, (rw_mark t s Hh). cbn [rbind fst snd]. rewrite ideal_bind, ideal_own.
    destruct (match r_marks s !! c with Some last => add_u64 last 1 | None => Ok 0 end) as [from|e|];
      cbn [map_err rbind fst snd]; [|done..].
    rewrite ideal_bind, ideal_own. destruct (add_u64 from _) as [bound|e|]; cbn [map_err rbind fst snd]; [|done..].
    rewrite ideal_bind, ideal_own. destruct (ensure _ _) as [[]|e|]; cbn [map_err rbind fst snd]; [|done..].
    set (to := N.min (bound - 1) (e_num cur - EPOCH_PAYOUT_DELAY)).
    assert (Hto : to < 2 ^ 64) by (subst to; lia). clearbody to.
    rewrite ideal_bind, (rw_cumulate t s Hh); [|done|].
    2: { unfold epoch_range. apply Forall_forall. intros n (i & -> & Hin)%elem_of_list_fmap.
         apply elem_of_seq in Hin. lia. }
    fold (cumulate_rewards s c from to).
    destruct (cumulate_rewards s c from to) as [rewards|e|]; cbn [map_err rbind fst snd]; [|done..].
    rewrite ideal_bind, (rw_pool t s Hh). cbn [rbind fst snd]. rewrite ideal_bind, ideal_own.
    destruct (sum_u128 _) as [total|e|]; cbn [map_err rbind fst snd]; [|done..].
    rewrite ideal_bind, ideal_own. destruct (ensure _ _) as [[]|e|]; cbn [map_err rbind fst snd]; [|done..].
    rewrite ideal_put by constructor. rewrite ideal_put by constructor. cbn [ideal agree]. split; [done|].
    eapply rw_put_mark; [by apply (rw_put_pool t s)|done].
  - rewrite ideal_bind. unfold w_update, update_params. rewrite ideal_bind, ideal_own.
    destruct (ensure _ _) as [[]|e|]; cbn [map_err rbind fst snd]; [|done..].
    rewrite ideal_bind, (rw_epoch t s Hh). destruct (current_epoch s h) as [cur|e|]; cbn [map_err rbind fst snd]; [|done..].
    rewrite ideal_bind, ideal_own. destruct (add_u64 _ _) as [bound|e|]; cbn [map_err rbind fst snd]; [|done..].
    rewrite ideal_bind, ideal_own.
    destruct (if bound <? h then _ else _) as [cur'|e|]; cbn [map_err rbind fst snd]; [|done..].
    rewrite ideal_put by done. cbn [ideal rbind fst snd agree map_err]. split; [done|]. by apply (rw_put_params t s).
Qed.

Lemma rw_inv_step s op s' r : rw_inv s -> rewards_call_ok op -> rewards_step s op = Ok (s', r) -> rw_inv s'.
Proof.
  intros [Hi1 Hi2] Hop Hs. destruct op as [h c ev w|c funds|h c limit|h a p]; cbn [rewards_step rewards_call_ok] in *.
  - apply rbind_ok in Hs as (s1 & Hs & [= <- _]). unfold record_participation in Hs.
    apply rbind_ok in Hs as (cur & Hcur & Hs). apply current_epoch_num in Hcur.
    destruct (match r_events s !! (ev, c) with Some n => (false, n) | None => (true, e_num cur) end)
      as [is_new num] eqn:Enew.
    assert (Hnum : num < 2 ^ 64).
    { destruct (r_events s !! (ev, c)) eqn:E; injection Enew as <- <-; [by eapply Hi2|done]. }
    apply rbind_ok in Hs as (ty & Hty & Hs). apply rbind_ok in Hs as (count & _ & Hs). injection Hs as <-.
    assert (Ht : ty_contract ty = c /\ e_num (ty_epoch ty) < 2 ^ 64).
    { unfold tally_record in Hty. apply rbind_ok in Hty as (n & _ & Hty). injection Hty as <-. simpl.
      destruct (r_tallies s !! (c, num)) as [t0|] eqn:E; simpl; [|done].
      destruct (Hi1 c num t0 E) as (H1 & H2 & H3 & H4). split; [done|]. by rewrite H4. }
    destruct Ht as [Hc Hn]. split; simpl.
    + intros c' n' t'. destruct (decide ((c', n') = (ty_contract ty, e_num (ty_epoch ty)))) as [[= -> ->]|Hne].
      * rewrite lookup_insert. intros [= <-]. simpl. rewrite Hc. tauto.
      * rewrite lookup_insert_ne by congruence. apply Hi1.
    + intros k n. destruct is_new; [|apply Hi2].
      destruct (decide (k = (ev, c))) as [->|Hne]; [rewrite lookup_insert; by intros [= <-]|].
      rewrite lookup_insert_ne by done. apply Hi2.
  - apply rbind_ok in Hs as (s1 & Hs & [= <- _]). unfold add_rewards in Hs.
    repeat (apply rbind_ok in Hs as (? & _ & Hs)). by injection Hs as <-.
  - unfold distribute_rewards in Hs. repeat (apply rbind_ok in Hs as (? & _ & Hs)). by injection Hs as <- _.
  - apply rbind_ok in Hs as (s1 & Hs & [= <- _]). unfold update_params in Hs.
    repeat (apply rbind_ok in Hs as (? & _ & Hs)). by injection Hs as <-.
Qed.

Lemma rewards_sim_init g d p h :
  cells_sim rewards_layout rw_ok rw_place rw_cell rw_inv (rewards_bytes_init g d p h) (rewards_init g d p h).
Proof.
  split; [split; intros *; simpl; by rewrite lookup_empty|].
  exists (<[RW_PARAMS := WvParams p {| e_num := 0; e_start := h |}]> {[RW_CONFIG := WvConfig g d]}). split.
  - unfold rewards_bytes_init. apply (stored_insert rewards_layout _ _ RW_PARAMS); [by vm_compute| |in_layout|done].
    apply stored_single. in_layout.
  - constructor.
    + intros [| |c n|ev c|c|c] _; simpl; rewrite ?lookup_empty; try done;
        (rewrite lookup_insert_ne, lookup_singleton_ne; done).
    + intros k Hk. destruct (decide (k = RW_PARAMS)) as [->|Hne]; [by exists RwParams|].
      rewrite lookup_insert_ne in Hk by done. destruct Hk as [v Hv]. apply lookup_singleton_Some in Hv as [<- _].
      by exists RwConfig.
Qed.
Lemma c98_rewards g d p h ops :
  Forall rewards_call_ok ops ->
  let m := run rewards_bytes_step (rewards_bytes_init g d p h) ops in
  let s := run rewards_step (rewards_init g d p h) ops in
  log rewards_bytes_step (rewards_bytes_init g d p h) ops = log rewards_step (rewards_init g d p h) ops /\
  rewards_stored m s /\
  (forall op, rewards_call_ok op -> agree rewards_stored (rewards_bytes_step m op) (map_err SOwn (rewards_step s op))).
Proof.
  intros Hops m s.
  destruct (cells_history rewards_layout rw_ok rw_place rw_cell ltac:(by vm_compute) rewards_prog rewards_step
              rw_inv rewards_call_ok (fun op _ => rewards_keeps op) rewards_like rw_inv_step
              _ _ ops (rewards_sim_init g d p h) Hops) as (H1 & H2 & H3 & _).
  split; [exact H1|]. split; [exact H2|exact H3].
Qed.
