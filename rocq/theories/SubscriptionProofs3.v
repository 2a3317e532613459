(** Proofs about runs of the daemon: no block is lost. *)
From Verif Require Import Base Text BaseLemmas EventsModel HandlersProofs SubscriptionModel SubscriptionSpec
  SubscriptionProofs SubscriptionProofs2.

Lemma min_height_le (s : heights) l r : s !! l = Some r -> exists m, min_height s = Some m /\ m <= r.
Proof.
  intros H. apply elem_of_map_to_list in H. unfold min_height.
  assert (Hr : r ∈ (map_to_list s).*2) by (apply elem_of_list_fmap; by exists (l, r)).
  destruct ((map_to_list s).*2) as [|h hs]; [by apply elem_of_nil in Hr|]. eexists. split; [done|].
  apply elem_of_cons in Hr as [->|Hr].
  - clear. induction hs as [|x hs IH]; cbn; [lia|]. lia.
  - revert Hr. clear. induction hs as [|x hs IH]; [by intros ?%elem_of_nil|]. cbn. intros [->|Hr]%elem_of_cons; [lia|].
    specialize (IH Hr). lia.
Qed.

Lemma run_handlers_once s l1 label e l2 os :
  run_handlers s (l1 ++ (label, e) :: l2) = Ok os -> label ∉ l2.*1 ->
  exists o os1 os2, os = os1 ++ (label, o) :: os2 /\ os1.*1 = l1.*1 /\ os2.*1 = l2.*1 /\
    exists items, match s !! label with
                  | None => items = he_items e
                  | Some h => items = skip_to_block (h + 1) (he_items e)
                  end /\ o = consume (he_ok e) (he_cancelled e) true [] [] items.
Proof.
  intros H Hn. revert os H. induction l1 as [|[lb e1] l1 IH]; intros os H; cbn in H.
  - apply rbind_ok in H as (o & Ho & H). apply rbind_ok in H as (os2 & Hos & H). injection H as <-.
    exists o, [], os2. split; [done|]. split; [done|]. split.
    { clear -Hos. revert os2 Hos. induction l2 as [|[lb e2] l2 IH]; intros os2 H; cbn in H; [by injection H as <-|].
      apply rbind_ok in H as (o2 & _ & H). apply rbind_ok in H as (os3 & Hos & H). injection H as <-. cbn. f_equal. by apply IH. }
    unfold run_handler in Ho. apply rbind_ok in Ho as (items & Hi & Ho). injection Ho as <-. exists items.
    assert (keeps_receiver l2.*1 label = true) as ->. { unfold keeps_receiver. by rewrite bool_decide_eq_false_2. }
    split; [|done]. destruct (s !! label) as [h|]; [|by injection Hi].
    apply rbind_ok in Hi as (h' & Hh & Hi). apply increment_ok in Hh as ->. by injection Hi.
  - apply rbind_ok in H as (o1 & _ & H). apply rbind_ok in H as (os' & Hos & H). injection H as <-.
    destruct (IH os' Hos) as (o & os1 & os2 & -> & E1 & E2 & Hc). exists o, ((lb, o1) :: os1), os2.
    split; [done|]. cbn. split; [by f_equal|]. done.
Qed.
Lemma run_handlers_labels s hs os : run_handlers s hs = Ok os -> os.*1 = hs.*1.
Proof.
  revert os. induction hs as [|[lb e] hs IH]; intros os H; cbn in H; [by injection H as <-|].
  apply rbind_ok in H as (o2 & _ & H). apply rbind_ok in H as (os3 & Hos & H). injection H as <-. cbn. f_equal. by apply IH.
Qed.

Lemma final_heights_other s os label : label ∉ os.*1 -> final_heights s os !! label = s !! label.
Proof.
  unfold final_heights. revert s. induction os as [|[lb o] os IH]; intros s H; [done|]. cbn in *.
  rewrite IH by set_solver. unfold record_heights. cbn. destruct (last (ho_heights o)); [|done].
  apply lookup_insert_ne. set_solver.
Qed.
Lemma final_heights_once s os1 label o os2 :
  label ∉ os1.*1 -> label ∉ os2.*1 ->
  final_heights s (os1 ++ (label, o) :: os2) !! label =
    match last (ho_heights o) with None => s !! label | Some h => Some h end.
Proof.
  intros H1 H2. unfold final_heights. rewrite foldl_app. cbn. fold (final_heights s os1).
  fold (final_heights (record_heights (final_heights s os1) label (ho_heights o)) os2).
  rewrite final_heights_other by done. unfold record_heights. destruct (last (ho_heights o)).
  - apply lookup_insert.
  - by apply final_heights_other.
Qed.

Section Runs.
  Context (decode : string -> option string) (json : string -> option jval).

  Lemma published_frames s x pub label r :
    published decode json s x = Ok pub -> s !! label = Some r ->
    exists fs from, pub `prefix_of` frames fs /\ no_gaps from fs.*1 /\ from <= r + 1 /\
      Forall (fun b => answered decode json (se_inputs x) b.1 b.2) fs.
  Proof.
    unfold published, start_from. intros H Hr. destruct (min_height_le _ _ _ Hr) as (m & Hm & Hle). rewrite Hm in H.
    apply rbind_ok in H as (st & Hst & H). apply rbind_ok in Hst as (h & Hh & Hst). injection Hst as <-. apply increment_ok in Hh as ->.
    injection H as <-. cbn. destruct (sub_loop _ _ _ _ _ _) as [pub e] eqn:Hl.
    apply (sub_loop_spec _ _ _ (se_inputs x)) in Hl as (fs & new & -> & Hp & Hg & Ha & _); [|done].
    exists fs, (m + 1). split; [done|]. split; [done|]. split; [lia|done].
  Qed.

  (** One run: the handler continues with the block after the recorded one,
      and handles every block up to the height it leaves behind. *)
  Lemma run_resumes s x s' os label e r pub :
    run_session s x = Ok (s', os) -> configured x label e -> s !! label = Some r ->
    published decode json s x = Ok pub -> delivers pub (he_items e) -> no_lag_before (r + 1) (he_items e) ->
    exists o r', (label, o) ∈ os /\ s' !! label = Some r' /\
      (forall e1 l, ho_given o = e1 :: l -> e1 = BlockBegin (r + 1)) /\
      (forall h, h ∈ ho_heights o \/ h = r' -> forall k, r < k -> k <= h ->
         exists evs, answered decode json (se_inputs x) k evs /\ handled_block (he_ok e) (ho_given o) k evs) /\
      (se_crashed x = true -> s' = s) /\
      (se_crashed x = false -> ho_heights o = [] /\ r' = r \/ last (ho_heights o) = Some r').
  Proof.
    intros H (l1 & l2 & Hc & Hn1 & Hn2) Hr Hpub Hd Hl.
    unfold run_session in H. apply rbind_ok in H as (st & _ & H). apply rbind_ok in H as (os' & Hos & H). injection H as <- <-.
    rewrite Hc in Hos. destruct (run_handlers_once _ _ _ _ _ _ Hos Hn2) as (o & os1 & os2 & -> & E1 & E2 & items & Hit & Ho).
    rewrite Hr in Hit. exists o.
    destruct (published_frames _ _ _ _ _ Hpub Hr) as (fs & from & Hp & Hg & Hf & Ha).
    assert (Habci : Forall (fun b : N * list event => Forall is_abci b.2) fs).
    { eapply Forall_impl; [exact Ha|]. intros b Hb. exact (answered_abci _ _ _ _ _ Hb). }
    assert (Hall : (forall e1 l, ho_given o = e1 :: l -> e1 = BlockBegin (r + 1)) /\
      (forall h, h ∈ ho_heights o -> forall k, r < k -> k <= h ->
         exists evs, answered decode json (se_inputs x) k evs /\ handled_block (he_ok e) (ho_given o) k evs)).
    { destruct (skip_reads _ _ _ _ _ Habci Hg Hf Hp Hd Hl) as [Hnil|(g1 & evs & g2 & pub' & -> & Hg' & Hp' & Hd')].
      - rewrite Hit, Hnil in Ho. cbn in Ho. subst o. cbn. split; [done|]. intros h Hh. by apply elem_of_nil in Hh.
      - rewrite <- Hit in Hd'. rewrite Forall_app in Ha. destruct Ha as [_ Ha]. rewrite Forall_app in Habci. destruct Habci as [_ Habci].
        destruct (consume_frames (he_ok e) (he_cancelled e) true items _ (r + 1) pub' Habci Hg' Hp' Hd') as [Hh Hfirst].
        rewrite <- Ho in Hh, Hfirst. split.
        + intros e1 l Hel. by destruct (Hfirst e1 l Hel) as (? & ? & _ & ->).
        + intros h Hin k Hk1 Hk2. destruct (Hh h Hin k) as (evs' & Hin' & Hhb); [lia|done|]. exists evs'. split; [|done].
          rewrite Forall_forall in Ha. exact (Ha _ Hin'). }
    destruct Hall as [Hfirst Hhts].
    assert (Hfin : final_heights s (os1 ++ (label, o) :: os2) !! label = match last (ho_heights o) with None => s !! label | Some h => Some h end).
    { apply final_heights_once; [by rewrite E1|by rewrite E2]. }
    destruct (se_crashed x).
    - exists r. split; [set_solver|]. split; [done|]. split; [done|]. split; [|done].
      intros h [Hh| ->] k Hk1 Hk2; [by eapply Hhts|lia].
    - rewrite Hfin. destruct (last (ho_heights o)) as [r'|] eqn:Hlast.
      + exists r'. split; [set_solver|]. split; [done|]. split; [done|]. split; [|split; [done|intros _; by right]].
        intros h Hh k Hk1 Hk2. apply last_Some in Hlast as (hs & Hhs). apply (Hhts h); [|done..].
        destruct Hh as [Hh| ->]; [done|]. rewrite Hhs. set_solver.
      + exists r. split; [set_solver|]. split; [done|]. split; [done|]. split; [|split; [done|intros _; left]].
        * intros h [Hh| ->] k Hk1 Hk2; [by eapply Hhts|lia].
        * by apply last_None in Hlast.
  Qed.

  Lemma run_not_configured s x s' os label :
    run_session s x = Ok (s', os) -> label ∉ (se_handlers x).*1 -> s' !! label = s !! label.
  Proof.
    unfold run_session. intros H Hn. apply rbind_ok in H as (st & _ & H). apply rbind_ok in H as (os' & Hos & H). injection H as <- <-.
    destruct (se_crashed x); [done|]. apply final_heights_other. by rewrite (run_handlers_labels _ _ _ Hos).
  Qed.

  Lemma sessions_lose_nothing s xs s' log label r :
    run_sessions s xs = (s', log) -> s !! label = Some r -> Forall (fair_run decode json label) log ->
    exists r', s' !! label = Some r' /\ forall k, r < k -> k <= r' -> Exists (handled_in decode json label k) log.
  Proof.
    revert s r log. induction xs as [|x xs IH]; intros s r log H Hr Hf; cbn in H.
    - injection H as <- <-. exists r. split; [done|]. intros; lia.
    - destruct (run_session s x) as [[s1 os]|e|] eqn:Hs; [|by eapply IH..].
      destruct (run_sessions s1 xs) as [s2 l] eqn:Hrest. injection H as <- <-. inversion_clear Hf as [|? ? Hf1 Hf2].
      destruct Hf1 as [Hn|(e & pub & Hc & Hp & Hd & Hl)].
      + destruct (IH s1 r l Hrest) as (r' & Hr' & Hk); [by rewrite (run_not_configured _ _ _ _ _ Hs Hn)|done|].
        exists r'. split; [done|]. intros k H1 H2. right. by apply Hk.
      + destruct (run_resumes _ _ _ _ _ _ _ _ Hs Hc Hr Hp Hd (Hl _ Hr)) as (o & r1 & Ho & Hr1 & _ & Hh & _).
        destruct (IH s1 r1 l Hrest Hr1 Hf2) as (r' & Hr' & Hk). exists r'. split; [done|]. intros k H1 H2.
        destruct (decide (k <= r1)) as [Hle|Hgt].
        * left. destruct (Hh r1 (or_intror eq_refl) k H1 Hle) as (evs & ? & ?). by exists e, o, evs.
        * right. apply Hk; [lia|done].
  Qed.

  (** A block the handler cannot get through is never passed. *)
  Lemma stuck_block s xs s' log label r k :
    run_sessions s xs = (s', log) -> s !! label = Some r -> Forall (fair_run decode json label) log -> r < k ->
    Forall (fun entry => ~ handled_in decode json label k entry) log ->
    exists r', s' !! label = Some r' /\ r' < k.
  Proof.
    intros H Hr Hf Hk Hn. destruct (sessions_lose_nothing _ _ _ _ _ _ H Hr Hf) as (r' & Hr' & Hh).
    exists r'. split; [done|]. destruct (decide (k <= r')) as [Hle|Hgt]; [|lia].
    specialize (Hh k Hk Hle). rewrite Exists_exists in Hh. rewrite Forall_forall in Hn. destruct Hh as (x & Hx & Hx'). by destruct (Hn x Hx).
  Qed.
End Runs.
