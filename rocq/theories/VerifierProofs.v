From Verif Require Import Base BaseLemmas Text TextLemmas StdModel StdSpec StdProofs
  RouterTypes RegistryTypes OperatorsModel VerifierModel VerifierSpec.

(** ** Snapshots of workers *)
Definition worker_list (workers : list worker) : list participant :=
  (fun w => {| p_addr := w_addr w; p_weight := 1 |}) <$> workers.

Lemma workers_participants (workers : list worker) ps :
  try_map (worker_participant InvalidBondingState) workers = Ok ps -> ps = worker_list workers.
Proof.
  intros H. apply try_map_ok in H. induction H as [|w p ws ps Hw _ IH]; [done|].
  cbn. rewrite IH. f_equal. unfold worker_participant in Hw. destruct (w_bond w); by res_inv.
Qed.

Lemma total_weight_workers workers : total_weight (worker_list workers) = N.of_nat (length workers).
Proof.
  induction workers as [|w ws IH]; [done|].
  change (total_weight (worker_list (w :: ws))) with (1 + total_weight (worker_list ws)).
  rewrite IH. cbn [length]. lia.
Qed.

Lemma take_snapshot_ok c reg chain snap :
  take_snapshot c reg chain = Ok snap ->
  exists workers, reg (vc_registry c) (vc_service c) chain = Some workers /\
    snapshot_new (E:=verror) (vc_threshold c) (worker_list workers) = Ok snap.
Proof.
  unfold take_snapshot. intros H. res_inv.
  apply workers_participants in Hv0 as ->. eauto.
Qed.

Lemma snapshot_new_err_irrel {E F} t l s :
  snapshot_new (E:=E) t l = Ok s -> snapshot_new (E:=F) t l = Ok s.
Proof.
  unfold snapshot_new. intros H. apply rbind_ok in H as ([tot m] & Hv & H).
  apply rbind_ok in H as (q & Hq & H).
  assert (forall l tot m r, snapshot_collect (E:=E) l tot m = Ok r -> snapshot_collect (E:=F) l tot m = Ok r) as Hc.
  { clear. induction l as [|p l IH]; intros tot m r; cbn; [by intros [= <-]|].
    unfold add_u256, checked. destruct (_ <? U256); cbn; [apply IH|done]. }
  rewrite (Hc _ _ _ _ Hv). cbn.
  assert (mul_ceil (E:=F) tot t = Ok q) as ->.
  { unfold mul_ceil, checked in *. destruct (t_den t =? 0); [discriminate|].
    destruct (_ <? U256); [|discriminate]. destruct (_ =? 0); [by injection Hq as ->|].
    destruct (_ <? U256); [by injection Hq as ->|discriminate]. }
  cbn. destruct (q =? 0); [done|]. by injection H as <-.
Qed.

Lemma worker_snapshot_weights t workers s :
  snapshot_new (E:=verror) t (worker_list workers) = Ok s ->
  (forall a w, s_participants s !! a = Some w -> w = 1 /\ a ∈ w_addr <$> workers) /\
  (forall a, a ∈ w_addr <$> workers -> s_participants s !! a = Some 1).
Proof.
  intros H. apply snapshot_new_ok in H as (_&_&_&_&_&Hl). split.
  - intros a w Ha. apply Hl in Ha as (p & Hp & Hw). apply last_Some_elem_of in Hp.
    apply elem_of_list_filter in Hp as [<- Hp].
    unfold worker_list in Hp. apply elem_of_list_fmap in Hp as (x & -> & Hx). cbn in *.
    split; [done|]. by apply elem_of_list_fmap_1.
  - intros a Ha. apply Hl. apply elem_of_list_fmap in Ha as (x & -> & Hx).
    set (p := {| p_addr := w_addr x; p_weight := 1 |}).
    assert (p ∈ filter (fun p => p_addr p = w_addr x) (worker_list workers)) as Hp.
    { apply elem_of_list_filter. split; [done|]. unfold worker_list.
      apply elem_of_list_fmap. eauto. }
    destruct (last (filter (fun p => p_addr p = w_addr x) (worker_list workers))) as [q|] eqn:Hq.
    + exists q. split; [done|]. apply last_Some_elem_of in Hq. apply elem_of_list_filter in Hq as [_ Hq].
      unfold worker_list in Hq. apply elem_of_list_fmap in Hq as (y & -> & _). done.
    + apply last_None in Hq. rewrite Hq in Hp. set_solver.
Qed.

Lemma snapshot_addrs_elem s a : a ∈ snapshot_addrs s <-> is_Some (s_participants s !! a).
Proof.
  unfold snapshot_addrs. rewrite elem_of_list_fmap. split.
  - intros ([a' w] & -> & H). apply elem_of_btree_iter in H. eauto.
  - intros [w Hw]. exists (a, w). split; [done|]. by apply elem_of_btree_iter.
Qed.

Lemma worker_snapshot_addrs t workers s :
  snapshot_new (E:=verror) t (worker_list workers) = Ok s ->
  forall a, a ∈ snapshot_addrs s <-> a ∈ w_addr <$> workers.
Proof.
  intros H a. apply worker_snapshot_weights in H as [H1 H2].
  rewrite snapshot_addrs_elem. split.
  - intros [w Hw]. by eapply H1.
  - eauto.
Qed.

Lemma valid_majority c workers s :
  valid_vconfig c -> snapshot_new (E:=verror) (vc_threshold c) (worker_list workers) = Ok s ->
  majority_snapshot s (worker_list workers).
Proof.
  intros (num & den & t & Ht & Hm) Hs. exists num, den, t, (vc_threshold c).
  split_and!; [done|done|]. eapply snapshot_new_err_irrel; exact Hs.
Qed.

(** ** The invariant *)
Definition subject_size (x : subject) : nat :=
  match x with OnMessages ms => length ms | OnOperators _ => 1 end.
Definition subject_poll (x : subject) (p : poll) : vpoll :=
  match x with OnMessages _ => MessagesPoll p | OnOperators _ => WorkerSetPoll p end.

(** votes and endings of poll [id] in a log *)
Definition poll_op_of (id : N) (e : vop * vout) : option poll_op :=
  match e.1 with
  | Vote h a i vs => if i =? id then Some (PVote h a vs) else None
  | EndPoll h i => if i =? id then Some (PFinish h) else None
  | _ => None
  end.
Definition poll_ops (id : N) (l : list (vop * vout)) : list poll_op := omap (poll_op_of id) l.

Lemma poll_ops_app id l1 l2 : poll_ops id (l1 ++ l2) = poll_ops id l1 ++ poll_ops id l2.
Proof. apply omap_app. Qed.

Lemma poll_ops_snoc id l e :
  poll_ops id (l ++ [e]) =
  poll_ops id l ++ match poll_op_of id e with Some o => [o] | None => [] end.
Proof. by rewrite poll_ops_app. Qed.

Section Proofs.
  Context (k : string -> string) (cfg : vconfig).

  Record poll_inv (s : vstate) (l : list (vop * vout)) (id : N) (vp : vpoll)
      (l1 : list (vop * vout)) (e : vop * vout) (l2 : list (vop * vout))
      (expires : N) (workers : list worker) (subj : subject) (snap : snapshot) : Prop := {
    pi_log : l = l1 ++ e :: l2;
    pi_opens : opens cfg e id expires workers subj;
    pi_snap : snapshot_new (E:=verror) (vc_threshold cfg) (worker_list workers) = Ok snap;
    pi_poll : vp = subject_poll subj (poll_after snap id expires (subject_size subj) (poll_ops id l2));
    pi_msgs : forall key c, v_messages s !! key = Some c -> c_poll c = id ->
      exists ms, subj = OnMessages ms /\ ms !! N.to_nat (c_index c) = Some (c_content c);
    pi_sets : forall key c, v_worker_sets s !! key = Some c -> c_poll c = id ->
      subj = OnOperators (c_content c) /\ c_index c = 0;
  }.

  Record inv (s : vstate) (l : list (vop * vout)) : Prop := {
    i_config : v_config s = cfg;
    i_polls : forall id vp, v_polls s !! id = Some vp ->
      id <= v_poll_id s /\
      exists l1 e l2 expires workers subj snap, poll_inv s l id vp l1 e l2 expires workers subj snap;
    i_msgs : forall key c, v_messages s !! key = Some c ->
      key = message_key k (c_content c) /\ is_Some (v_polls s !! c_poll c);
    i_sets : forall key c, v_worker_sets s !! key = Some c ->
      key = operators_key k (c_content c) /\ is_Some (v_polls s !! c_poll c);
  }.

  Lemma inv_init : inv (verifier_init cfg) [].
  Proof. split; cbn; try done; intros *; by rewrite lookup_empty. Qed.

  (** Saving the messages of a poll *)
  Lemma save_messages_ok id : forall ms tbl idx tbl',
    save_messages k tbl id idx ms = Ok tbl' ->
    (forall key c, tbl' !! key = Some c ->
       (tbl !! key = Some c /\ (forall m, m ∈ ms -> message_key k m <> key)) \/
       (c_poll c = id /\ key = message_key k (c_content c) /\ idx <= c_index c /\
        ms !! N.to_nat (c_index c - idx) = Some (c_content c))) /\
    (forall m, m ∈ ms -> exists c, tbl' !! message_key k m = Some c /\ c_poll c = id) /\
    (forall key, (forall m, m ∈ ms -> message_key k m <> key) -> tbl' !! key = tbl !! key).
  Proof.
    induction ms as [|m ms IH]; intros tbl idx tbl'; cbn [save_messages].
    - intros [= <-]. split_and!; [|set_solver|done].
      intros key c Hc. left. split; [done|set_solver].
    - intros H. res_inv. apply checked_ok in Hv as [_ ->].
      apply IH in H as (H1 & H2 & H3). split_and!.
      + intros key c Hc. apply H1 in Hc as [[Hc Hno]|(Hid & Hk & Hle & Hms)].
        * destruct (decide (message_key k m = key)) as [<-|Hne].
          -- rewrite lookup_insert in Hc. injection Hc as <-. right. cbn.
             split_and!; [done|done|lia|]. by rewrite N.sub_diag.
          -- rewrite lookup_insert_ne in Hc by done. left. split; [done|].
             intros m' [->|Hm']%elem_of_cons; auto.
        * right. split_and!; [done|done|lia|].
          replace (N.to_nat (c_index c - idx)) with (S (N.to_nat (c_index c - (idx + 1)))) by lia. done.
      + intros m' [->|Hm']%elem_of_cons; [|auto].
        destruct (tbl' !! message_key k m) as [c|] eqn:Hc.
        * exists c. split; [done|]. apply H1 in Hc as [[Hc _]|(Hid & _)]; [|done].
          rewrite lookup_insert in Hc. by injection Hc as <-.
        * exfalso. destruct (decide (message_key k m ∈ message_key k <$> ms)) as [Hin|Hno].
          -- apply elem_of_list_fmap in Hin as (m'&Heq&Hm').
             apply H2 in Hm' as (c & Hc' & _). rewrite <- Heq in Hc'. congruence.
          -- rewrite H3 in Hc; [by rewrite lookup_insert in Hc|].
             intros m' Hm' Heq. apply Hno. rewrite <- Heq. by apply elem_of_list_fmap_1.
      + intros key Hno. rewrite H3; [apply lookup_insert_ne; apply Hno; left|].
        intros m' Hm'. apply Hno. by right.
  Qed.
  (** *** What successful calls do *)
  Lemma with_status_todo s ms ws :
    try_map (fun m => let? st := message_status k s m in Ok (st, m)) ms = Ok ws ->
    omap (fun '(st, m) => if needs_poll st then Some m else None) ws =
    List.filter (wants_poll k s) ms.
  Proof.
    intros H. apply try_map_ok in H. induction H as [|m [st m'] ms ws Hm _ IH]; [done|].
    apply rbind_ok in Hm as (st' & Hst & [= -> ->]).
    cbn [omap list_omap List.filter]. unfold wants_poll at 1. rewrite Hst.
    destruct st; cbn; by rewrite IH.
  Qed.

  Lemma is_verified_ok s ms statuses :
    is_verified k s ms = Ok statuses ->
    Forall2 (fun m r => exists st, message_status k s m = Ok st /\
                                   r = (m_cc m, bool_decide (st = Verified))) ms statuses.
  Proof.
    intros H. apply try_map_ok in H. eapply Forall2_impl; [exact H|].
    intros m r Hm. apply rbind_ok in Hm as (st & Hst & [= <-]). eauto.
  Qed.

  Lemma verify_messages_ok s h reg ms s' out :
    verify_messages k s h reg ms = Ok (s', out) ->
    let todo := List.filter (wants_poll k s) ms in
    ms <> [] /\
    Forall (fun m => cc_chain (m_cc m) = vc_chain (v_config s)) ms /\
    exists statuses,
      Forall2 (fun m r => exists st, message_status k s m = Ok st /\
                                     r = (m_cc m, bool_decide (st = Verified))) ms statuses /\
      ((todo = [] /\ s' = s /\ out = OutVerify statuses None) \/
       (todo <> [] /\ exists workers snap tbl events,
          reg (vc_registry (v_config s)) (vc_service (v_config s)) (vc_chain (v_config s)) = Some workers /\
          snapshot_new (E:=verror) (vc_threshold (v_config s)) (worker_list workers) = Ok snap /\
          v_poll_id s + 1 < U64 /\ h + vc_expiry (v_config s) < U64 /\
          save_messages k (v_messages s) (v_poll_id s + 1) 0 todo = Ok tbl /\
          Forall2 (fun m ev => tx_event_of m = Ok ev) todo events /\
          s' = {| v_config := v_config s; v_poll_id := v_poll_id s + 1;
                  v_polls := <[v_poll_id s + 1 := MessagesPoll (poll_new (v_poll_id s + 1) snap
                                (h + vc_expiry (v_config s)) (length todo))]> (v_polls s);
                  v_messages := tbl; v_worker_sets := v_worker_sets s |} /\
          out = OutVerify statuses (Some (events, metadata (v_config s) (v_poll_id s + 1) h snap)))).
  Proof.
    unfold verify_messages. intros H.
    apply rbind_ok in H as ([] & Hne & H). apply ensure_ok in Hne.
    apply negb_true_iff, bool_decide_eq_false in Hne.
    apply rbind_ok in H as ([] & Hch & H). apply ensure_ok in Hch.
    assert (Forall (fun m => cc_chain (m_cc m) = vc_chain (v_config s)) ms) as Hchain.
    { apply Forall_forall. intros m Hm.
      apply elem_of_list_In in Hm. apply (proj1 (forallb_forall _ _) Hch) in Hm. by apply String.eqb_eq. }
    apply rbind_ok in H as (statuses & Hst & H). apply is_verified_ok in Hst.
    apply rbind_ok in H as (ws & Hws & H).
    pose proof (with_status_todo _ _ _ Hws) as Htodo. rewrite Htodo in H.
    split; [done|]. split; [done|]. exists statuses. split; [done|].
    destruct (List.filter (wants_poll k s) ms) as [|m0 todo] eqn:Hf.
    - left. res_inv. by subst.
    - right. split; [done|].
      apply rbind_ok in H as (snap & Hsnap & H). apply take_snapshot_ok in Hsnap as (workers & Hreg & Hsn).
      assert (cc_chain (m_cc m0) = vc_chain (v_config s)) as Hm0.
      { rewrite Forall_forall in Hchain. apply Hchain.
        assert (In m0 (m0 :: todo)) as Hin by (by left). rewrite <- Hf in Hin.
        apply filter_In in Hin as [? _]. by apply elem_of_list_In. }
      rewrite Hm0 in Hreg.
      apply rbind_ok in H as ([s1 id] & Hcp & H). unfold create_poll in Hcp.
      apply rbind_ok in Hcp as (id' & Hid & Hcp). apply add_u64_ok in Hid as [Hid ->].
      apply rbind_ok in Hcp as (ex & Hex & Hcp). apply add_u64_ok in Hex as [Hex ->].
      injection Hcp as <- <-. cbn [v_messages v_config v_poll_id v_polls v_worker_sets] in H.
      apply rbind_ok in H as (tbl & Htbl & H). apply rbind_ok in H as (events & Hev & H).
      apply try_map_ok in Hev. injection H as <- <-.
      exists workers, snap, tbl, events. done.
  Qed.

  Lemma verify_worker_set_ok s h reg mid o s' out :
    verify_worker_set k s h reg mid o = Ok (s', out) ->
    exists st workers snap tx idx,
      worker_set_status k s o = Ok st /\ st <> Verified /\
      reg (vc_registry (v_config s)) (vc_service (v_config s)) (vc_chain (v_config s)) = Some workers /\
      snapshot_new (E:=verror) (vc_threshold (v_config s)) (worker_list workers) = Ok snap /\
      parse_message_id mid = Ok (tx, idx) /\
      s' = {| v_config := v_config s; v_poll_id := v_poll_id s + 1;
              v_polls := <[v_poll_id s + 1 := WorkerSetPoll (poll_new (v_poll_id s + 1) snap
                            (h + vc_expiry (v_config s)) 1)]> (v_polls s);
              v_messages := v_messages s;
              v_worker_sets := <[operators_key k o := Build_poll_content o (v_poll_id s + 1) 0]>
                                 (v_worker_sets s) |} /\
      out = OutWorkerSet tx idx o (metadata (v_config s) (v_poll_id s + 1) h snap).
  Proof.
    unfold verify_worker_set, is_worker_set_verified. intros H.
    apply rbind_ok in H as (b & Hb & H). apply rbind_ok in Hb as (st & Hst & [= <-]).
    apply rbind_ok in H as ([] & Hn & H). apply ensure_ok in Hn.
    apply negb_true_iff, bool_decide_eq_false in Hn.
    apply rbind_ok in H as (snap & Hsnap & H). apply take_snapshot_ok in Hsnap as (workers & Hreg & Hsn).
    apply rbind_ok in H as ([s1 id] & Hcp & H). unfold create_poll in Hcp.
    apply rbind_ok in Hcp as (id' & Hid & Hcp). apply add_u64_ok in Hid as [Hid ->].
    apply rbind_ok in Hcp as (ex & Hex & Hcp). apply add_u64_ok in Hex as [Hex ->].
    injection Hcp as <- <-. cbn [v_messages v_config v_poll_id v_polls v_worker_sets] in H.
    apply rbind_ok in H as ([tx idx] & Hp & H). injection H as <- <-.
    exists st, workers, snap, tx, idx. done.
  Qed.

  Lemma vpoll_try_map_ok (f : poll -> res verror poll) vp vp' :
    vpoll_try_map f vp = Ok vp' ->
    exists p', f (vpoll_poll vp) = Ok p' /\
      vp' = match vp with MessagesPoll _ => MessagesPoll p' | WorkerSetPoll _ => WorkerSetPoll p' end.
  Proof. destruct vp; cbn; intros H; res_inv; subst; eauto. Qed.

  Lemma verifier_vote_ok s h a id vs s' out :
    verifier_vote s h a id vs = Ok (s', out) ->
    exists vp p', v_polls s !! id = Some vp /\ poll_cast_vote (vpoll_poll vp) h a vs = Ok p' /\
      s' = set_poll s id (match vp with MessagesPoll _ => MessagesPoll p' | WorkerSetPoll _ => WorkerSetPoll p' end) /\
      out = OutVoted id a.
  Proof.
    unfold verifier_vote. intros H. apply rbind_ok in H as (vp & Hvp & H). apply of_option_ok in Hvp.
    apply rbind_ok in H as (vp' & Hm & H). apply vpoll_try_map_ok in Hm as (p' & Hp & ->).
    apply map_err_ok in Hp. injection H as <- <-. eauto 10.
  Qed.

  Lemma verifier_end_poll_ok s h id s' out :
    verifier_end_poll s h id = Ok (s', out) ->
    exists vp p', v_polls s !! id = Some vp /\ poll_finish (vpoll_poll vp) h = Ok p' /\
      s' = set_poll s id (match vp with MessagesPoll _ => MessagesPoll p' | WorkerSetPoll _ => WorkerSetPoll p' end) /\
      out = OutEnded ((fun a => (vc_rewards (v_config s), dec id, a)) <$>
                        ps_consensus_participants (poll_state_of p')) (poll_state_of p').
  Proof.
    unfold verifier_end_poll. intros H. apply rbind_ok in H as (vp & Hvp & H). apply of_option_ok in Hvp.
    apply rbind_ok in H as (vp' & Hm & H). apply vpoll_try_map_ok in Hm as (p' & Hp & ->).
    apply map_err_ok in Hp. injection H as <- <-. exists vp, p'. split_and!; try done. by destruct vp.
  Qed.

  (** *** Preservation *)
  Lemma poll_step_run snap id expires size ops op p' :
    poll_step (poll_after snap id expires size ops) op = Ok (p', ()) ->
    p' = poll_after snap id expires size (ops ++ [op]).
  Proof. intros H. unfold poll_after in *. rewrite run_snoc. unfold exec. by rewrite H. Qed.

  Lemma subject_poll_poll x p : vpoll_poll (subject_poll x p) = p.
  Proof. by destruct x. Qed.

  (** one vote or ending on poll [id] *)
  Lemma inv_poll_op s l op out id pop vp p' :
    inv s l -> v_polls s !! id = Some vp ->
    poll_step (vpoll_poll vp) pop = Ok (p', ()) ->
    (forall i, poll_op_of i (op, out) = if id =? i then Some pop else None) ->
    inv (set_poll s id (match vp with MessagesPoll _ => MessagesPoll p' | WorkerSetPoll _ => WorkerSetPoll p' end))
        (l ++ [(op, out)]).
  Proof.
    intros [Hc Hp Hm Hw] Hid Hstep Hop. split; cbn; [done| | |].
    - intros i vp1 Hi. destruct (decide (id = i)) as [<-|Hne].
      + rewrite lookup_insert in Hi. injection Hi as <-.
        apply Hp in Hid as [Hle (l1 & e & l2 & ex & ws & x & snap & [Hl Ho Hs Hpo Hms Hse])].
        split; [done|]. exists l1, e, (l2 ++ [(op, out)]), ex, ws, x, snap. split; try done.
        * rewrite Hl, <- app_assoc. done.
        * subst vp. rewrite subject_poll_poll in Hstep. apply poll_step_run in Hstep as ->.
          rewrite poll_ops_snoc, (Hop id), N.eqb_refl. by destruct x.
      + rewrite lookup_insert_ne in Hi by done.
        apply Hp in Hi as [Hle (l1 & e & l2 & ex & ws & x & snap & [Hl Ho Hs Hpo Hms Hse])].
        split; [done|]. exists l1, e, (l2 ++ [(op, out)]), ex, ws, x, snap. split; try done.
        * rewrite Hl, <- app_assoc. done.
        * rewrite poll_ops_snoc, (Hop i). assert ((id =? i) = false) as -> by lia. rewrite app_nil_r. done.
    - intros key c Hk. apply Hm in Hk as [? Hs]. split; [done|].
      destruct (decide (id = c_poll c)) as [<-|]; [rewrite lookup_insert|rewrite lookup_insert_ne]; eauto.
    - intros key c Hk. apply Hw in Hk as [? Hs]. split; [done|].
      destruct (decide (id = c_poll c)) as [<-|]; [rewrite lookup_insert|rewrite lookup_insert_ne]; eauto.
  Qed.

  Lemma filter_sublist {A} (f : A -> bool) l : sublist (List.filter f l) l.
  Proof. induction l as [|a l IH]; cbn; [constructor|]. destruct (f a); by constructor. Qed.

  Lemma inv_step s l op s' out :
    inv s l -> verifier_step k s op = Ok (s', out) -> inv s' (l ++ [(op, out)]).
  Proof.
    intros Hinv Hstep. pose proof Hinv as [Hc Hp Hm Hw]. destruct op as [h reg ms|h reg mid o|h a id vs|h id]; cbn in Hstep.
    - apply verify_messages_ok in Hstep as (Hne & Hch & statuses & Hst & [(Ht & -> & ->)|(Ht & Hopen)]).
      + (* nothing to poll *)
        split; [done| |done|done]. intros i vp Hi.
        apply Hp in Hi as [Hle (l1 & e & l2 & ex & ws & x & snap & [Hl Ho Hs Hpo Hms Hse])].
        split; [done|]. exists l1, e, (l2 ++ [(VerifyMessages h reg ms, OutVerify statuses None)]), ex, ws, x, snap.
        split; try done; [by rewrite Hl, <- app_assoc|]. rewrite poll_ops_app, app_nil_r. done.
      + destruct Hopen as (workers & snap & tbl & events & Hreg & Hsn & Hid & Hex & Htbl & Hev & -> & ->).
        apply save_messages_ok in Htbl as (T1 & T2 & T3). rewrite Hc in *.
        set (todo := List.filter (wants_poll k s) ms) in *.
        split; cbn; [done| | |].
        * intros i vp Hi. destruct (decide (v_poll_id s + 1 = i)) as [<-|Hn].
          -- rewrite lookup_insert in Hi. injection Hi as <-. split; [done|].
             eexists l, _, [], (h + vc_expiry cfg), workers, (OnMessages todo), snap. split.
             ++ done.
             ++ cbn. split_and!; try done.
                ** eauto using worker_snapshot_addrs.
                ** exists todo. split_and!; [done|apply filter_sublist|done].
             ++ done.
             ++ done.
             ++ cbn. intros key c Hk Hci. exists todo. split; [done|].
                apply T1 in Hk as [[Hk _]|(_ & _ & _ & Hms)].
                ** apply Hm in Hk as [_ [vp Hvp]]. apply Hp in Hvp as [Hle _]. lia.
                ** by rewrite N.sub_0_r in Hms.
             ++ cbn. intros key c Hk Hci. apply Hw in Hk as [_ [vp Hvp]]. apply Hp in Hvp as [Hle _]. lia.
          -- rewrite lookup_insert_ne in Hi by done.
             apply Hp in Hi as [Hle (l1 & e & l2 & ex & ws & x & snap' & [Hl Ho Hs Hpo Hms Hse])].
             split; [lia|]. eexists l1, e, (l2 ++ [_]), ex, ws, x, snap'.
             split; try done; [by rewrite Hl, <- app_assoc| |].
             ++ rewrite poll_ops_app, app_nil_r. done.
             ++ cbn. intros key c Hk Hci. apply T1 in Hk as [[Hk _]|(Hpid & _)]; [eauto|lia].
        * intros key c Hk. apply T1 in Hk as [[Hk _]|(Hpid & Hkey & _)].
          -- apply Hm in Hk as [? Hvp]. split; [done|]. rewrite lookup_insert_is_Some'. by right.
          -- split; [done|]. rewrite Hpid, lookup_insert. eauto.
        * intros key c Hk. apply Hw in Hk as [? Hvp]. split; [done|]. rewrite lookup_insert_is_Some'. by right.
    - apply verify_worker_set_ok in Hstep as (st & workers & snap & tx & idx & Hst & Hnv & Hreg & Hsn & Hpm & -> & ->).
      rewrite Hc in *. split; cbn; [done| | |].
      + intros i vp Hi. destruct (decide (v_poll_id s + 1 = i)) as [<-|Hn].
        * rewrite lookup_insert in Hi. injection Hi as <-. split; [done|].
          eexists l, _, [], (h + vc_expiry cfg), workers, (OnOperators o), snap. split; try done.
          -- cbn. split_and!; try done. eauto using worker_snapshot_addrs.
          -- cbn. intros key c Hk Hci. apply Hm in Hk as [_ [vp Hvp]]. apply Hp in Hvp as [Hle _]. lia.
          -- cbn. intros key c Hk Hci. destruct (decide (operators_key k o = key)) as [<-|Hne].
             ++ rewrite lookup_insert in Hk. by injection Hk as <-.
             ++ rewrite lookup_insert_ne in Hk by done.
                apply Hw in Hk as [_ [vp Hvp]]. apply Hp in Hvp as [Hle _]. lia.
        * rewrite lookup_insert_ne in Hi by done.
          apply Hp in Hi as [Hle (l1 & e & l2 & ex & ws & x & snap' & [Hl Ho Hs Hpo Hms Hse])].
          split; [lia|]. eexists l1, e, (l2 ++ [_]), ex, ws, x, snap'.
          split; try done; [by rewrite Hl, <- app_assoc| |].
          -- rewrite poll_ops_app, app_nil_r. done.
          -- cbn. intros key c Hk Hci. destruct (decide (operators_key k o = key)) as [<-|Hne].
             ++ rewrite lookup_insert in Hk. injection Hk as <-. cbn in Hci. lia.
             ++ rewrite lookup_insert_ne in Hk by done. eauto.
      + intros key c Hk. apply Hm in Hk as [? Hvp]. split; [done|]. rewrite lookup_insert_is_Some'. by right.
      + intros key c Hk. destruct (decide (operators_key k o = key)) as [<-|Hne].
        * rewrite lookup_insert in Hk. injection Hk as <-. cbn. split; [done|]. rewrite lookup_insert. eauto.
        * rewrite lookup_insert_ne in Hk by done.
          apply Hw in Hk as [? Hvp]. split; [done|]. rewrite lookup_insert_is_Some'. by right.
    - apply verifier_vote_ok in Hstep as (vp & p' & Hid & Hv & -> & ->).
      eapply (inv_poll_op _ _ _ _ _ (PVote h a vs)); [done..| |].
      + cbn. by rewrite Hv.
      + done.
    - apply verifier_end_poll_ok in Hstep as (vp & p' & Hid & Hv & -> & ->).
      eapply (inv_poll_op _ _ _ _ _ (PFinish h)); [done..| |].
      + cbn. by rewrite Hv.
      + done.
  Qed.

  Lemma inv_run ops : inv (vrun k cfg ops) (vlog k cfg ops).
  Proof.
    unfold vrun, vlog. apply (run_log_inv _ inv); [apply inv_init|]. intros. eapply inv_step; eauto.
  Qed.

  (** *** Statuses *)
  Lemma status_verified {T} `{EqDecision T} s (st : option (poll_content T)) (x : T) :
    verification_status s st x = Ok Verified <->
    exists c vp, st = Some c /\ c_content c = x /\ v_polls s !! c_poll c = Some vp /\
      poll_consensus (vpoll_poll vp) (N.to_nat (c_index c)) = Ok (Some SucceededOnChain).
  Proof.
    unfold verification_status. split.
    - destruct st as [c|]; [|done]. case_bool_decide; [|done].
      destruct (v_polls s !! c_poll c) as [vp|] eqn:Hvp; [|done].
      destruct (poll_consensus _ _) as [[[]|]| |] eqn:Hpc; try done;
        try (case_bool_decide; discriminate).
      intros _. eauto 10.
    - intros (c & vp & -> & Hc & Hvp & Hpc). rewrite bool_decide_eq_true_2 by done.
      by rewrite Hvp, Hpc.
  Qed.

  (** consensus of a poll survives any call *)
  Lemma consensus_final s l op s' out id vp idx v :
    valid_vconfig cfg -> inv s l -> verifier_step k s op = Ok (s', out) ->
    v_polls s !! id = Some vp -> poll_consensus (vpoll_poll vp) idx = Ok (Some v) ->
    exists vp', v_polls s' !! id = Some vp' /\ poll_consensus (vpoll_poll vp') idx = Ok (Some v).
  Proof.
    intros Hcfg Hinv Hstep Hvp Hcons. pose proof Hinv as [Hc Hp Hm Hw].
    assert (forall pop p', poll_step (vpoll_poll vp) pop = Ok (p', ()) ->
      poll_consensus p' idx = Ok (Some v)) as Hkeep.
    { intros pop p' Hps. destruct (Hp _ _ Hvp) as [_ (l1 & e & l2 & ex & ws & x & snap & [Hl Ho Hs Hpo _ _])].
      subst vp. rewrite subject_poll_poll in *. apply poll_step_run in Hps as ->.
      eapply c04; [eauto using valid_majority|done]. }
    destruct op as [h reg ms|h reg mid o|h a i vs|h i]; cbn in Hstep.
    - apply verify_messages_ok in Hstep as (Hne & Hch & statuses & Hst & [(Ht & -> & ->)|(Ht & Hopen)]); [eauto|].
      destruct Hopen as (workers & snap & tbl & events & Hreg & Hsn & Hid & Hex & Htbl & Hev & -> & ->).
      cbn. exists vp. split; [|done]. rewrite lookup_insert_ne; [done|].
      destruct (Hp _ _ Hvp) as [? _]. lia.
    - apply verify_worker_set_ok in Hstep as (st & workers & snap & tx & ix & Hst & Hnv & Hreg & Hsn & Hpm & -> & ->).
      cbn. exists vp. split; [|done]. rewrite lookup_insert_ne; [done|].
      destruct (Hp _ _ Hvp) as [? _]. lia.
    - apply verifier_vote_ok in Hstep as (vp1 & p' & Hid & Hv & -> & ->). cbn.
      destruct (decide (i = id)) as [->|].
      + rewrite lookup_insert. eexists. split; [done|].
        rewrite Hvp in Hid. injection Hid as <-. specialize (Hkeep (PVote h a vs) p').
        cbn in Hkeep. rewrite Hv in Hkeep. specialize (Hkeep eq_refl). by destruct vp.
      + rewrite lookup_insert_ne by done. eauto.
    - apply verifier_end_poll_ok in Hstep as (vp1 & p' & Hid & Hv & -> & ->). cbn.
      destruct (decide (i = id)) as [->|].
      + rewrite lookup_insert. eexists. split; [done|].
        rewrite Hvp in Hid. injection Hid as <-. specialize (Hkeep (PFinish h) p').
        cbn in Hkeep. rewrite Hv in Hkeep. specialize (Hkeep eq_refl). by destruct vp.
      + rewrite lookup_insert_ne by done. eauto.
  Qed.

  Lemma wants_poll_key s m m' :
    wants_poll k s m' = true -> message_key k m' = message_key k m ->
    message_status k s m <> Ok Verified.
  Proof.
    intros Hw Hk Hv. apply status_verified in Hv as (c & vp & Hst & Hc & Hvp & Hpc).
    unfold wants_poll, message_status in Hw. rewrite Hk, Hst in Hw. cbn in Hw.
    case_bool_decide as Heq; [|done]. rewrite Hvp, Hpc in Hw. done.
  Qed.

  Lemma message_verified_step s l op s' out m :
    valid_vconfig cfg -> inv s l -> verifier_step k s op = Ok (s', out) ->
    message_status k s m = Ok Verified -> message_status k s' m = Ok Verified.
  Proof.
    intros Hcfg Hinv Hstep Hv. pose proof Hv as Hv0. apply status_verified in Hv as (c & vp & Hst & Hc & Hvp & Hpc).
    destruct (consensus_final _ _ _ _ _ _ _ _ _ Hcfg Hinv Hstep Hvp Hpc) as (vp' & Hvp' & Hpc').
    apply status_verified. exists c, vp'. split_and!; try done.
    destruct op as [h reg ms|h reg mid o|h a i vs|h i]; cbn in Hstep.
    - apply verify_messages_ok in Hstep as (Hne & Hch & statuses & Hsts & [(Ht & -> & ->)|(Ht & Hopen)]); [done|].
      destruct Hopen as (workers & snap & tbl & events & Hreg & Hsn & Hid & Hex & Htbl & Hev & -> & ->).
      cbn. apply save_messages_ok in Htbl as (_ & _ & T3). rewrite T3; [done|].
      intros m' Hm' Hkey. apply elem_of_list_In, filter_In in Hm' as [_ Hw].
      by eapply wants_poll_key.
    - apply verify_worker_set_ok in Hstep as (st & workers & snap & tx & ix & _ & _ & _ & _ & _ & -> & ->). done.
    - apply verifier_vote_ok in Hstep as (vp1 & p' & Hid & Hvt & -> & ->). done.
    - apply verifier_end_poll_ok in Hstep as (vp1 & p' & Hid & Hvt & -> & ->). done.
  Qed.

  Lemma operators_verified_step s l op s' out o :
    valid_vconfig cfg -> inv s l -> verifier_step k s op = Ok (s', out) ->
    worker_set_status k s o = Ok Verified -> worker_set_status k s' o = Ok Verified.
  Proof.
    intros Hcfg Hinv Hstep Hv. pose proof Hv as Hv0. apply status_verified in Hv as (c & vp & Hst & Hc & Hvp & Hpc).
    destruct (consensus_final _ _ _ _ _ _ _ _ _ Hcfg Hinv Hstep Hvp Hpc) as (vp' & Hvp' & Hpc').
    apply status_verified. exists c, vp'. split_and!; try done.
    destruct op as [h reg ms|h reg mid o'|h a i vs|h i]; cbn in Hstep.
    - apply verify_messages_ok in Hstep as (Hne & Hch & statuses & Hsts & [(Ht & -> & ->)|(Ht & Hopen)]); [done|].
      by destruct Hopen as (workers & snap & tbl & events & Hreg & Hsn & Hid & Hex & Htbl & Hev & -> & ->).
    - apply verify_worker_set_ok in Hstep as (st & workers & snap & tx & ix & Hs & Hnv & _ & _ & _ & -> & ->).
      cbn. rewrite lookup_insert_ne; [done|]. intros Hk. apply Hnv.
      unfold worker_set_status in Hs. rewrite Hk, Hst in Hs. cbn in Hs.
      case_bool_decide as Heq; [|done]. rewrite Hvp, Hpc in Hs. by injection Hs.
    - apply verifier_vote_ok in Hstep as (vp1 & p' & Hid & Hvt & -> & ->). done.
    - apply verifier_end_poll_ok in Hstep as (vp1 & p' & Hid & Hvt & -> & ->). done.
  Qed.

  Lemma c07 ops ops' m :
    valid_vconfig cfg -> message_status k (vrun k cfg ops) m = Ok Verified ->
    message_status k (vrun k cfg (ops ++ ops')) m = Ok Verified.
  Proof.
    intros Hcfg Hv. unfold vrun in *. rewrite run_app.
    pose proof (inv_run ops) as Hinv. unfold vrun, vlog in Hinv.
    revert Hv Hinv. generalize (run (verifier_step k) (verifier_init cfg) ops) as s.
    generalize (log (verifier_step k) (verifier_init cfg) ops) as l.
    induction ops' as [|op ops' IH]; intros l s Hv Hinv; [done|].
    cbn [run]. unfold exec. destruct (verifier_step k s op) as [[s' out]| |] eqn:Hs; [|by eauto..].
    eapply IH; [|eapply inv_step; eauto]. eapply message_verified_step; eauto.
  Qed.

  Lemma c13_stays ops ops' o :
    valid_vconfig cfg -> worker_set_status k (vrun k cfg ops) o = Ok Verified ->
    worker_set_status k (vrun k cfg (ops ++ ops')) o = Ok Verified.
  Proof.
    intros Hcfg Hv. unfold vrun in *. rewrite run_app.
    pose proof (inv_run ops) as Hinv. unfold vrun, vlog in Hinv.
    revert Hv Hinv. generalize (run (verifier_step k) (verifier_init cfg) ops) as s.
    generalize (log (verifier_step k) (verifier_init cfg) ops) as l.
    induction ops' as [|op ops' IH]; intros l s Hv Hinv; [done|].
    cbn [run]. unfold exec. destruct (verifier_step k s op) as [[s' out]| |] eqn:Hs; [|by eauto..].
    eapply IH; [|eapply inv_step; eauto]. eapply operators_verified_step; eauto.
  Qed.

  (** *** C08: from the tally to the voters *)
  Lemma first_ballot_in expires size ops a b :
    first_ballot expires size ops a = Some b -> exists h, PVote h a b ∈ ops /\ h < expires.
  Proof.
    induction ops as [|[h c vs|h] ops IH]; cbn; [done| |].
    - destruct (bool_decide (c = a) && (h <? expires) && (length vs =? size)%nat) eqn:Hb.
      + intros [= <-]. apply andb_true_iff in Hb as [Hb _]. apply andb_true_iff in Hb as [Hb Hh].
        apply bool_decide_eq_true in Hb as ->. exists h. split; [left|lia].
      + intros H. apply IH in H as (h' & ? & ?). exists h'. split; [by right|done].
    - intros H. apply IH in H as (h' & ? & ?). exists h'. split; [by right|done].
  Qed.

  Lemma poll_ops_vote id l h a vs :
    PVote h a vs ∈ poll_ops id l -> exists out, (Vote h a id vs, out) ∈ l.
  Proof.
    intros H. apply elem_of_list_omap in H as ([op out] & Hin & Hop).
    unfold poll_op_of in Hop. cbn in Hop. destruct op as [| |h' a' i vs'|h' i]; try done.
    - destruct (i =? id) eqn:Hi; [|done]. injection Hop as <- <- <-.
      apply N.eqb_eq in Hi as ->. eauto.
    - by destruct (i =? id).
  Qed.

  Lemma msum_ones_voters (m : gmap addr N) (f : addr -> bool) :
    (forall a w, m !! a = Some w -> w = 1) ->
    exists voters : list addr, NoDup voters /\
      (forall a, a ∈ voters <-> is_Some (m !! a) /\ f a = true) /\
      N.of_nat (length voters) = msum (fun a w => if f a then w else 0) m.
  Proof.
    induction m as [|a w m Ha IH] using map_ind; intros Hone.
    - exists []. split_and!; [constructor| |done].
      intros a. rewrite lookup_empty. split; [set_solver|intros [[? ?] _]; done].
    - destruct IH as (vs & Hnd & Hin & Hlen).
      { intros a' w' Ha'. apply (Hone a'). rewrite lookup_insert_ne; [done|]. intros ->. congruence. }
      rewrite msum_insert_fresh by done.
      assert (w = 1) as -> by (apply (Hone a); by rewrite lookup_insert).
      destruct (f a) eqn:Hf.
      + exists (a :: vs). split_and!.
        * constructor; [|done]. rewrite Hin. rewrite Ha. intros [[? ?] _]. done.
        * intros a'. rewrite elem_of_cons, Hin. destruct (decide (a = a')) as [<-|Hne].
          -- rewrite lookup_insert. naive_solver.
          -- rewrite lookup_insert_ne by done. naive_solver.
        * cbn [length]. lia.
      + exists vs. split_and!; [done| |lia].
        intros a'. rewrite Hin. destruct (decide (a = a')) as [<-|Hne].
        * rewrite lookup_insert, Ha. split; [intros [[? ?] _]; done|intros [_ ?]; congruence].
        * by rewrite lookup_insert_ne.
  Qed.

  Lemma poll_vouched id expires workers snap l2 size idx :
    valid_vconfig cfg ->
    snapshot_new (E:=verror) (vc_threshold cfg) (worker_list workers) = Ok snap ->
    poll_consensus (poll_after snap id expires size (poll_ops id l2)) idx = Ok (Some SucceededOnChain) ->
    vouched (vc_threshold cfg) l2 id expires workers idx.
  Proof.
    intros Hcfg Hs Hpc. pose proof (valid_majority _ _ _ Hcfg Hs) as Hmaj.
    assert (idx < size)%nat as Hidx.
    { eapply c04_out_of_range; [done|]. by rewrite Hpc. }
    eapply c04_iff in Hpc; [|done..].
    pose proof (worker_snapshot_weights _ _ _ Hs) as [Hone _].
    set (f := fun a => match first_ballot expires size (poll_ops id l2) a with
                       | Some b => bool_decide (b !! idx = Some SucceededOnChain) | None => false end).
    destruct (msum_ones_voters (s_participants snap) f) as (voters & Hnd & Hin & Hlen).
    { intros a w Ha. by eapply Hone. }
    exists voters. split; [done|]. split.
    - intros a Ha. apply Hin in Ha as [[w Hw] Hf]. split; [by eapply Hone|].
      unfold f in Hf. destruct (first_ballot _ _ _ a) as [b|] eqn:Hb; [|done].
      apply bool_decide_eq_true in Hf. apply first_ballot_in in Hb as (h & Hb & Hh).
      apply poll_ops_vote in Hb as [out Hb]. eauto 10.
    - assert (s_quorum snap <= N.of_nat (length voters)) as Hq.
      { rewrite Hlen. etrans; [exact Hpc|]. unfold weight_for. apply msum_le. intros a w _. unfold f.
        destruct (first_ballot _ _ _ a); [|lia]. case_bool_decide; lia. }
      apply snapshot_new_ok in Hs as ([Hge _] & _). rewrite total_weight_workers in Hge. nia.
  Qed.

  Lemma c08 ops m :
    valid_vconfig cfg -> message_status k (vrun k cfg ops) m = Ok Verified ->
    exists l1 e l2 id expires workers ms idx,
      vlog k cfg ops = l1 ++ e :: l2 /\
      opens cfg e id expires workers (OnMessages ms) /\ ms !! idx = Some m /\
      vouched (vc_threshold cfg) l2 id expires workers idx.
  Proof.
    intros Hcfg Hv. pose proof (inv_run ops) as [Hc Hp Hm Hw].
    apply status_verified in Hv as (c & vp & Hst & Hcc & Hvp & Hpc).
    apply Hp in Hvp as [_ (l1 & e & l2 & ex & ws & x & snap & [Hl Ho Hs Hpo Hms _])].
    destruct (Hms _ _ Hst eq_refl) as (ms & -> & Hidx). subst vp m. rewrite subject_poll_poll in Hpc.
    exists l1, e, l2, (c_poll c), ex, ws, ms, (N.to_nat (c_index c)).
    split_and!; try done. by eapply poll_vouched.
  Qed.

  Lemma c13_quorum ops o :
    valid_vconfig cfg -> worker_set_status k (vrun k cfg ops) o = Ok Verified ->
    exists l1 e l2 id expires workers,
      vlog k cfg ops = l1 ++ e :: l2 /\
      opens cfg e id expires workers (OnOperators o) /\
      vouched (vc_threshold cfg) l2 id expires workers 0.
  Proof.
    intros Hcfg Hv. pose proof (inv_run ops) as [Hc Hp Hm Hw].
    apply status_verified in Hv as (c & vp & Hst & Hcc & Hvp & Hpc).
    apply Hp in Hvp as [_ (l1 & e & l2 & ex & ws & x & snap & [Hl Ho Hs Hpo _ Hse])].
    destruct (Hse _ _ Hst eq_refl) as (-> & Hidx). subst vp o. rewrite subject_poll_poll, Hidx in Hpc.
    exists l1, e, l2, (c_poll c), ex, ws.
    split_and!; try done. by eapply poll_vouched.
  Qed.

End Proofs.
