(** Proofs about the height shown to handlers. *)
From Verif Require Import Base BaseLemmas Text TextLemmas StdModel RouterTypes OperatorsModel EncodingModel VerifierModel VerifierSpec
  VerifierProofs VerifierProofs2 EventsModel HandlersModel HandlersSpec HandlersProofs2 WorkersSpec HandlersProofs3
  MonitorModel MonitorSpec.

Lemma monitor_shown l : forall h0 x r, monitor h0 l = (x, r) ->
  (x = h0 /\ forall h, head l <> Some (Tick (Some h))) \/
  exists l1 l2, l = l1 ++ Tick (Some x) :: l2 /\ at_work l1 /\ forall h, head l2 <> Some (Tick (Some h)).
Proof.
  induction l as [|[[h|]|] l IH]; intros h0 x r H; cbn [monitor] in H.
  - injection H as <- _. left. done.
  - right. destruct (IH _ _ _ H) as [[-> Hn]|(l1 & l2 & -> & H1 & H2)].
    + exists [], l. split; [done|]. split; [apply Forall_nil_2|done].
    + exists (Tick (Some h) :: l1), l2. split; [done|]. split; [|done]. apply Forall_cons. eauto.
  - injection H as <- _. left. done.
  - injection H as <- _. left. done.
Qed.
Lemma c111_ends l : forall h0,
  match (monitor h0 l).2 with
  | None => at_work l
  | Some (Err _) => exists l1 l2, l = l1 ++ Tick None :: l2 /\ at_work l1
  | Some (Ok _) => exists l1 l2, l = l1 ++ TokenCancelled :: l2 /\ at_work l1
  | Some Panic => False
  end.
Proof.
  induction l as [|[[h|]|] l IH]; intros h0; cbn [monitor].
  - apply Forall_nil_2.
  - specialize (IH h). destruct (monitor h l).2 as [[|[]|]|].
    + destruct IH as (l1 & l2 & -> & H). exists (Tick (Some h) :: l1), l2. split; [done|]. apply Forall_cons. eauto.
    + destruct IH as (l1 & l2 & -> & H). exists (Tick (Some h) :: l1), l2. split; [done|]. apply Forall_cons. eauto.
    + done.
    + apply Forall_cons. eauto.
  - exists [], l. split; [done|apply Forall_nil_2].
  - exists [], l. split; [done|apply Forall_nil_2].
Qed.

(** the height shown: the last answer before the task ended *)
Lemma c111_shown a l h0 : connect a = Ok h0 ->
  exists l1 l2, Tick a :: l = l1 ++ Tick (Some (monitor h0 l).1) :: l2 /\ at_work l1 /\ forall h, head l2 <> Some (Tick (Some h)).
Proof.
  intros ->%of_option_ok. destruct (monitor h0 l) as [x r] eqn:E.
  destruct (monitor_shown _ _ _ _ E) as [[-> Hn]|(l1 & l2 & -> & H1 & H2)]; cbn [fst].
  - exists [], l. split; [done|]. split; [apply Forall_nil_2|done].
  - exists (Tick (Some h0) :: l1), l2. split; [done|]. split; [|done]. apply Forall_cons. eauto.
Qed.
Lemma c111_true now l a tl h0 : l.*2 = Tick a :: tl -> truthful now l -> connect a = Ok h0 -> (monitor h0 tl).1 <= now.
Proof.
  intros Hl (_ & Hn & Ht) Hc. destruct (c111_shown a tl h0 Hc) as (l1 & l2 & He & _). rewrite <- Hl in He.
  assert (Hin : Tick (Some (monitor h0 tl).1) ∈ l.*2) by (rewrite He; set_solver).
  apply elem_of_list_fmap in Hin as ([H t] & Heq & Hin). cbn in Heq. subst t. pose proof (Ht _ _ Hin). pose proof (Hn _ _ Hin). lia.
Qed.

(** ** Late votes *)
Lemma opened_expires k c ops op s' out id expires workers subj :
  verifier_step k (vrun k c ops) op = Ok (s', out) -> opens c (op, out) id expires workers subj ->
  exists vp, v_polls s' !! id = Some vp /\ poll_expires_at (vpoll_poll vp) = expires.
Proof.
  intros Hs Ho. pose proof (i_config _ _ _ _ (inv_run k c ops)) as Hcfg.
  destruct op as [h reg ms|h reg mid o|h a i vs|h i]; [| |by destruct out..]; cbn [verifier_step] in Hs.
  - apply verify_messages_ok in Hs as (_ & _ & statuses & _ & [(_ & _ & ->)|(_ & Hopen)]); [done|].
    destruct Hopen as (ws & snap & tbl & events & _ & _ & _ & _ & _ & _ & -> & ->).
    destruct Ho as (<- & -> & _). cbn. rewrite lookup_insert. eexists. split; [done|]. cbn. by rewrite Hcfg.
  - apply verify_worker_set_ok in Hs as (st & ws & snap & tx & ix & _ & _ & _ & _ & _ & -> & ->).
    destruct Ho as (<- & -> & _). cbn. rewrite lookup_insert. eexists. split; [done|]. cbn. by rewrite Hcfg.
Qed.
Lemma late_refused k c ops op s' out ops' id expires workers subj H a vs r :
  verifier_step k (vrun k c ops) op = Ok (s', out) -> opens c (op, out) id expires workers subj -> expires <= H ->
  verifier_step k (vrun k c (ops ++ op :: ops')) (Vote H a id vs) <> Ok r.
Proof.
  intros Hs Ho Hle Hv. destruct (opened_expires _ _ _ _ _ _ _ _ _ _ Hs Ho) as (vp & Hp & He).
  assert (Hp' : v_polls (vrun k c (ops ++ [op])) !! id = Some vp).
  { unfold vrun in *. rewrite run_snoc. unfold exec. by rewrite Hs. }
  destruct (c10_fixed _ _ _ ops' _ _ Hp') as (vp' & Hq & Hf). rewrite <- app_assoc in Hq. cbn [app] in Hq.
  cbn [verifier_step] in Hv. destruct r as [s2 o2]. apply verifier_vote_ok in Hv as (vp1 & p' & Hid & Hc & _).
  rewrite Hq in Hid. injection Hid as <-. unfold poll_cast_vote in Hc.
  apply rbind_ok in Hc as (pt & _ & Hc). apply rbind_ok in Hc as (u & Hc & _). apply ensure_ok, N.ltb_lt in Hc.
  injection Hf as _ _ _ Hx _ _. rewrite Hx, He in Hc. lia.
Qed.
