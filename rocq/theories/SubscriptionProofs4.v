(** Proofs: the subscription and the handlers make progress; blocks that
    cannot be read or handled are never passed. *)
From Verif Require Import Base Text BaseLemmas RouterTypes VerifierModel EventsModel HandlersModel HandlersSpec HandlersProofs HandlersProofs3 WorkersSpec
  SubscriptionModel SubscriptionSpec SubscriptionProofs SubscriptionProofs2 SubscriptionProofs3.

Section Progress.
  Context (decode : string -> option string) (json : string -> option jval) (receivers : list event -> bool).
  Context (Hrcv : forall pub, receivers pub = true).

  Lemma send_all_ok evs pub : send_all receivers pub evs = (pub ++ evs, Ok tt).
  Proof using Hrcv.
    revert pub. induction evs as [|e evs IH]; intros pub; cbn; [by rewrite app_nil_r|].
    rewrite Hrcv, IH, <- app_assoc. done.
  Qed.
  Lemma opt_map_Forall2 {A B} (f : A -> option B) l l' : Forall2 (fun a b => f a = Some b) l l' -> opt_map f l = Some l'.
  Proof. induction 1 as [|a b l l' Hab _ IH]; cbn; [done|]. by rewrite Hab, IH. Qed.
  Lemma block_frame_ok t h evs : answered decode json [Tick t] h evs -> block_frame decode json t h = Ok (frame (h, evs)).
  Proof.
    intros (t' & r & Ht & Hr & HF). assert (t' = t) as -> by (apply elem_of_list_singleton in Ht; by injection Ht).
    unfold block_frame. rewrite Hr. cbn. unfold block_events. apply opt_map_Forall2 in HF. rewrite HF. done.
  Qed.
  Lemma process_blocks_ok n t to pub h :
    n = N.to_nat (to + 1 - h) -> h <= to + 1 -> good_tick decode json h to t ->
    exists pub', process_blocks decode json receivers n t to pub h = (pub', Ok to).
  Proof using Hrcv.
    revert pub h. induction n as [|n IH]; intros pub h Hn Hle (Hl & Hto & Hc & Hb); cbn; [by eexists|].
    destruct (N.leb_spec h to) as [Hle'|]; [|lia]. destruct (Hb h) as (evs & Ha); [lia|done|].
    unfold process_block. rewrite (block_frame_ok _ _ _ Ha), send_all_ok, Hc. unfold increment.
    destruct (N.ltb_spec (h + 1) HEIGHTS); [|lia]. apply IH; [lia|lia|]. split; [done|]. split; [done|]. split; [done|].
    intros k Hk1 Hk2. apply Hb; lia.
  Qed.

  Lemma sub_loop_ok ins : forall pub curr to, good_ticks decode json curr ins to ->
    exists pub', sub_loop decode json receivers pub curr ins = (pub', SubAt (to + 1)) /\ latest_grow curr ins.
  Proof using Hrcv.
    induction ins as [|[t|] ins IH]; intros pub curr to H; cbn in H; [| |done].
    - exists pub. cbn. by rewrite H.
    - destruct H as (h & Hle & Ht & Hrest). cbn. unfold process_blocks_from. pose proof Ht as (Hl & Hh & _). rewrite Hl.
      destruct (process_blocks_ok _ _ h pub curr eq_refl Hle Ht) as (pub1 & ->). unfold increment.
      destruct (N.ltb_spec (h + 1) HEIGHTS); [|lia]. destruct (IH pub1 _ _ Hrest) as (pub' & -> & Hg). exists pub'. done.
  Qed.

  (** If all goes well every block up to the latest one is published, once and
      in order. *)
  Lemma sub_publishes_all ins start to :
    good_ticks decode json start ins to ->
    exists fs, sub_loop decode json receivers [] start ins = (frames fs, SubAt (to + 1)) /\
      fs.*1 = (fun i => start + N.of_nat i) <$> seq 0 (N.to_nat (to + 1 - start)) /\
      Forall (fun b => answered decode json ins b.1 b.2) fs.
  Proof using Hrcv.
    intros H. destruct (sub_loop_ok ins [] start to H) as (pub & Hs & Hg).
    destruct (sub_loop_spec _ _ _ ins _ _ _ _ _ Hs) as (fs & new & -> & _ & _ & Ha & Hnew & Hc); [done|].
    rewrite (Hnew ltac:(left; eauto)) in Hs. exists fs. split; [done|]. split; [|done].
    destruct (Hc Hg) as [Hcons Hlen]. specialize (Hlen _ eq_refl).
    assert (Hn : N.to_nat (to + 1 - start) = length fs.*1) by (rewrite fmap_length; lia). rewrite Hn.
    revert Hcons. clear. generalize (fs.*1). intros hs. revert start. induction hs as [|h hs IH]; intros start H; [done|].
    destruct H as [-> H]. cbn. f_equal; [lia|]. rewrite <- (fmap_S_seq 0), <- list_fmap_compose.
    etrans; [exact (IH _ H)|]. apply list_fmap_ext. intros i x _. cbn. lia.
  Qed.
End Progress.

(** A handler that succeeds on everything, is not stopped and never lags is
    given everything and records every block. *)
Definition block_ends (es : list event) : list N := omap (fun e => match e with BlockEnd h => Some h | _ => None end) es.
Lemma consume_all_from ok cancelled es given hts :
  (forall g e, ok g e = true) -> (forall g, cancelled g = false) ->
  consume ok cancelled true given hts (Item <$> es) =
    {| ho_given := given ++ es; ho_heights := hts ++ block_ends es; ho_end := StreamOver |}.
Proof.
  intros Hok Hc. revert given hts. induction es as [|e es IH]; intros given hts; cbn; [by rewrite !app_nil_r|].
  rewrite Hok. destruct e as [h|h|ty at']; cbn; [|rewrite Hc|]; rewrite IH, <- !app_assoc; done.
Qed.

(** *** Blocks that cannot be read *)
Lemma no_gaps_below from hs h : no_gaps from hs -> from <= h -> h ∉ hs -> Forall (fun k => k < h) hs.
Proof.
  revert from. induction hs as [|a hs IH]; intros from H Hf Hn; [constructor|]. destruct H as [Ha H].
  apply not_elem_of_cons in Hn as [Hne Hn]. constructor; [lia|]. apply (IH (a + 1)); [done|lia|done].
Qed.
Lemma frames_begin fs k : Forall (fun b => Forall is_abci b.2) fs -> BlockBegin k ∈ frames fs -> k ∈ fs.*1.
Proof.
  intros Ha Hk. apply elem_of_list_split in Hk as (p & q & Hpq). symmetry in Hpq.
  destruct (frames_at_begin _ _ _ _ Ha Hpq) as (g1 & evs & g2 & -> & _). rewrite fmap_app. set_solver.
Qed.
Lemma unreadable_block decode json receivers ins start pub e h :
  sub_loop decode json receivers [] start ins = (pub, e) -> start <= h ->
  (forall evs, ~ answered decode json ins h evs) ->
  forall k, BlockBegin k ∈ pub -> k < h.
Proof.
  intros Hs Hle Hn k Hk. destruct (sub_loop_spec _ _ _ ins _ _ _ _ _ Hs) as (fs & new & -> & Hp & Hg & Ha & _); [done|].
  assert (Hnot : h ∉ fs.*1).
  { intros Hin. apply elem_of_list_fmap in Hin as ([h' evs] & -> & Hin). rewrite Forall_forall in Ha. by apply (Hn evs), (Ha _ Hin). }
  pose proof (no_gaps_below _ _ _ Hg Hle Hnot) as Hb. rewrite Forall_forall in Hb. apply Hb, frames_begin.
  - eapply Forall_impl; [exact Ha|]. intros b Hb'. exact (answered_abci _ _ _ _ _ Hb').
  - cbn in Hk. destruct Hp as [q ->]. set_solver.
Qed.

(** *** Blocks that cannot be handled *)
Lemma poisoned_block decode json s xs s' log label r k :
  run_sessions s xs = (s', log) -> s !! label = Some r -> Forall (fair_run decode json label) log -> r < k ->
  (forall s0 x os e evs, (s0, x, os) ∈ log -> configured x label e -> answered decode json (se_inputs x) k evs ->
     exists ev, ev ∈ evs /\ forall given, he_ok e given ev = false) ->
  exists r', s' !! label = Some r' /\ r' < k.
Proof.
  intros H Hr Hf Hk Hbad. eapply stuck_block; [done..|]. rewrite Forall_forall. intros [[s0 x] os] Hin (e & o & evs & Hc & _ & Ha & pre & post & Hg & Hok).
  destruct (Hbad _ _ _ _ _ Hin Hc Ha) as (ev & Hev & Hno). apply elem_of_list_split in Hev as (p & q & ->).
  specialize (Hok (BlockBegin k :: p) ev (q ++ [BlockEnd k])). rewrite Hno in Hok. discriminate Hok.
  unfold frame. cbn. by rewrite <- app_assoc.
Qed.

(** The handler of an EVM chain: its task goes on only if the handler did not
    end with an error, whatever the node and the queue answered. *)
Definition evm_task (acc : string -> bool) (cfg : hconfig) (e : handler_env) : Prop :=
  forall given ev, he_ok e given ev = true ->
    exists height open rpc tx, evm_msg_handler acc cfg height open rpc ev = Ok tx.

Lemma bad_id_stuck_forever decode json acc cfg s xs s' log label r k :
  run_sessions s xs = (s', log) -> s !! label = Some r -> Forall (fair_run decode json label) log -> r < k ->
  (forall s0 x os e, (s0, x, os) ∈ log -> configured x label e -> evm_task acc cfg e) ->
  (forall s0 x os evs, (s0, x, os) ∈ log -> answered decode json (se_inputs x) k evs ->
     exists contract es meta e, messages_poll_event json contract es meta ∈ evs /\
       e ∈ es /\ forall t, ~ hex_bytes 32 (te_tx_id e) t) ->
  exists r', s' !! label = Some r' /\ r' < k.
Proof.
  intros H Hr Hf Hk Ht Hb. eapply poisoned_block; [done..|]. intros s0 x os e evs Hin Hc Ha.
  destruct (Hb _ _ _ _ Hin Ha) as (contract & es & meta & te & Hev & Hte & Hbad). eexists. split; [exact Hev|].
  intros given. destruct (he_ok e given _) eqn:Hok; [|done].
  destruct (Ht _ _ _ _ Hin Hc _ _ Hok) as (height & open & rpc & tx & Hh).
  rewrite (bad_id_stops_evm acc cfg height open rpc json contract es meta te Hte Hbad) in Hh. done.
Qed.

(** *** As stated in SubscriptionProps *)
Lemma sub_publishes decode json receivers start ins pub e :
  sub_loop decode json receivers [] start ins = (pub, e) ->
  exists fs, pub `prefix_of` frames fs /\ no_gaps start fs.*1 /\
    Forall (fun b => answered decode json ins b.1 b.2) fs /\
    ((exists h, e = SubAt h) \/ e = SubStopped -> pub = frames fs) /\
    (latest_grow start ins -> consecutive_from start fs.*1).
Proof.
  intros H. destruct (sub_loop_spec _ _ _ ins _ _ _ _ _ H) as (fs & new & -> & Hp & Hg & Ha & Hok & Hc); [done|].
  exists fs. split; [done|]. split; [done|]. split; [done|]. split; [done|]. intros Hl. by destruct (Hc Hl).
Qed.
Lemma consume_all ok cancelled es :
  (forall g e, ok g e = true) -> (forall g, cancelled g = false) ->
  let o := consume ok cancelled true [] [] (Item <$> es) in
  ho_given o = es /\ (forall h, h ∈ ho_heights o <-> BlockEnd h ∈ es) /\ ho_end o = StreamOver.
Proof.
  intros Hok Hc o. subst o. rewrite consume_all_from by done. cbn. split; [done|]. split; [|done].
  intros h. unfold block_ends. rewrite elem_of_list_omap. split.
  - intros (e & Hin & He). destruct e; try done. injection He as ->. done.
  - intros Hin. by exists (BlockEnd h).
Qed.
