(** Transactions as flat sequences of calls; where calls come from. *)
From Verif Require Import Base BaseLemmas Text StdModel RouterTypes RegistryTypes OperatorsModel MultisigTypes
  RouterModel GatewayModel NexusModel RewardsModel RegistryModel VerifierModel MultisigModel EncodingModel ProverModel
  SystemModel SystemSpec.

Lemma app_split_at {A} (l1 l2 a b : list A) x : l1 ++ l2 = a ++ x :: b ->
  (exists b1, l1 = a ++ x :: b1 /\ b = b1 ++ l2) \/ (exists a1, a = l1 ++ a1 /\ l2 = a1 ++ x :: b).
Proof.
  revert a. induction l1 as [|y l1 IH]; intros a; cbn [app]; [by right; exists a|].
  destruct a as [|z a]; cbn [app].
  - intros [= -> <-]. left. by exists l1.
  - intros [= -> H]. apply IH in H as [(b1 & -> & ->)|(a1 & -> & ->)]; [left|right]; eauto.
Qed.

Section Flat.
  Context (keccak : string -> string) (wshash : worker_set -> string)
          (sec1 : string -> option string)
          (crypto : key_type -> string -> string -> string -> option bool).
  Notation receive := (receive keccak wshash sec1 crypto).
  Notation exec_call := (exec_call keccak wshash sec1 crypto).
  Notation system_step := (system_step keccak wshash sec1 crypto).

  Definition received (k : call) : res syserror (option contract * list sub * option N) :=
    receive (k_env k) (k_index k) (k_chain k) (k_sender k) (k_sub k).

  (** The calls one after the other, with replies anywhere between. *)
  Inductive steps : chain -> list call -> chain -> Prop :=
  | steps_nil st : steps st [] st
  | steps_call k c subs d l st' : received k = Ok (c, subs, d) ->
      steps (settle (k_chain k) (k_to k) c) l st' -> steps (k_chain k) (k :: l) st'
  | steps_reply st st1 me d l st' : reply st me d = Ok st1 -> steps st1 l st' -> steps st l st'.

  Lemma steps_app st l1 st1 l2 st2 : steps st l1 st1 -> steps st1 l2 st2 -> steps st (l1 ++ l2) st2.
  Proof.
    induction 1 as [|k c subs d l st' Hr Hs IH|]; intros H2; cbn [app].
    - done.
    - by eapply steps_call; [|apply IH].
    - by eapply steps_reply; [|auto].
  Qed.
  Lemma steps_at l : forall st pre k post st', steps st l st' -> l = pre ++ k :: post ->
    steps st pre (k_chain k) /\ exists c subs d, received k = Ok (c, subs, d) /\
      steps (settle (k_chain k) (k_to k) c) post st'.
  Proof.
    intros st pre k post st' H. revert pre k post.
    induction H as [|k0 c subs d l st' Hr Hs IH|st st1 me d l st' Hr Hs IH]; intros pre k post E.
    - by destruct pre.
    - destruct pre as [|k1 pre]; cbn [app] in E.
      + injection E as <- <-. split; [constructor|]. eauto.
      + injection E as <- ->. destruct (IH _ _ _ eq_refl) as [H1 H2]. split; [|done].
        by eapply steps_call.
    - destruct (IH _ _ _ E) as [H1 H2]. split; [|done]. by eapply steps_reply.
  Qed.

  (** [k] carries out a message of [p]'s response; the first message of a
      response finds the state that response left. *)
  Definition child_of (p k : call) : Prop :=
    exists c subs d pre post, received p = Ok (c, subs, d) /\ subs = pre ++ k_sub k :: post /\
      k_sender k = k_to p /\ k_env k = k_env p /\
      (pre = [] -> k_chain k = settle (k_chain p) (k_to p) c).

  Definition complete (l : list call) : Prop := forall p c subs d, p ∈ l -> received p = Ok (c, subs, d) ->
    forall x, x ∈ subs -> exists k, k ∈ l /\ k_sub k = x /\ k_sender k = k_to p.

  Definition good_call (e : env) (sender : addr) (st : chain) (tr : list call) (m : sub) (st' : chain) (tr' : list call) : Prop :=
    exists k rest, tr' = tr ++ k :: rest /\
      k = {| k_chain := st; k_env := e; k_index := length tr; k_sender := sender; k_sub := m |} /\
      steps st (k :: rest) st' /\ (forall a x b, rest = a ++ x :: b -> exists p, p ∈ k :: a /\ child_of p x) /\
      complete (k :: rest).

  Lemma run_subs_spec (f : chain -> list call -> sub -> res syserror (chain * list call * option N)) e me :
    (forall st tr m st' tr' d, f st tr m = Ok (st', tr', d) -> good_call e me st tr m st' tr') ->
    forall subs st tr st' tr', run_subs f me st tr subs = Ok (st', tr') ->
    exists new, tr' = tr ++ new /\ steps st new st' /\ complete new /\
      (forall x, x ∈ subs -> exists k, k ∈ new /\ k_sub k = x /\ k_sender k = me) /\
      forall a k b, new = a ++ k :: b ->
        (exists pre post, subs = pre ++ k_sub k :: post /\ k_sender k = me /\ k_env k = e /\ (pre = [] -> k_chain k = st)) \/
        exists p, p ∈ a /\ child_of p k.
  Proof.
    intros Hf. induction subs as [|m subs IH]; intros st tr st' tr'; cbn [run_subs].
    - intros [= <- <-]. exists []. rewrite app_nil_r. split; [done|]. split; [constructor|].
      split; [|split].
      + intros p c subs d Hp. by apply elem_of_nil in Hp.
      + intros x Hx. by apply elem_of_nil in Hx.
      + intros a k b E. by destruct a.
    - intros ([[st1 tr1] d] & H1 & (st2 & H2 & H3)%rbind_ok)%rbind_ok. cbn [fst snd] in *.
      destruct (Hf _ _ _ _ _ _ H1) as (k & rest & -> & Hk & Hs & Hc & Hcp).
      destruct (IH _ _ _ _ H3) as (new & -> & Hs' & Hcp' & Hx' & Ho).
      assert (Hs2 : steps st1 new st').
      { destruct (sb_reply m); [by eapply steps_reply|]. injection H2 as ->. done. }
      exists ((k :: rest) ++ new). rewrite <- app_assoc. split; [done|].
      split; [by eapply steps_app|]. split_and!.
      + intros p c subs' d' Hp Hr x Hx. apply elem_of_app in Hp as [Hp|Hp].
        * destruct (Hcp _ _ _ _ Hp Hr x Hx) as (k' & ? & ?). exists k'. split; [|done]. apply elem_of_app. by left.
        * destruct (Hcp' _ _ _ _ Hp Hr x Hx) as (k' & ? & ?). exists k'. split; [|done]. apply elem_of_app. by right.
      + intros x [->|Hx]%elem_of_cons.
        * exists k. subst k. cbn. split; [left|done].
        * destruct (Hx' _ Hx) as (k' & ? & ?). exists k'. split; [|done]. apply elem_of_app. by right.
      + intros a k' b E. apply app_split_at in E as [(b1 & E & ->)|(a1 & -> & E)].
        * destruct a as [|k0 a]; cbn [app] in E.
          -- injection E as <- _. left. exists [], subs. subst k. done.
          -- injection E as <- E. right. destruct (Hc _ _ _ E) as (p & Hp & ?). eauto.
        * destruct (Ho _ _ _ E) as [(pre & post & -> & E1 & E2 & _)|(p & Hp & ?)].
          -- left. exists (m :: pre), post. done.
          -- right. exists p. split; [|done]. apply elem_of_app. by right.
  Qed.

  Lemma exec_call_spec gas e : forall sender st tr m st' tr' d, exec_call gas e sender st tr m = Ok (st', tr', d) ->
    good_call e sender st tr m st' tr'.
  Proof.
    induction gas as [|g IH]; intros sender st tr m st' tr' d; cbn [SystemModel.exec_call]; [done|].
    intros ([[c subs] data] & H1 & ([st1 tr1] & H2 & H3)%rbind_ok)%rbind_ok. injection H3 as -> -> _. cbn [fst snd] in H2.
    set (k := {| k_chain := st; k_env := e; k_index := length tr; k_sender := sender; k_sub := m |}) in *.
    destruct (run_subs_spec (exec_call g e (sb_to m)) e (sb_to m) (fun st0 tr0 m0 st0' tr0' d0 => IH (sb_to m) st0 tr0 m0 st0' tr0' d0) _ _ _ _ _ H2)
      as (new & -> & Hs & Hcp & Hx & Ho).
    assert (Hr : received k = Ok (c, subs, data)) by exact H1.
    exists k, new. rewrite <- app_assoc. split; [done|]. split; [done|]. split; [by apply (steps_call k c subs data)|]. split.
    - intros a x b E. destruct (Ho _ _ _ E) as [(pre & post & -> & E1 & E2 & E3)|(p & Hp & Hc)].
      + exists k. split; [left|]. exists c, (pre ++ k_sub x :: post), data, pre, post. done.
      + exists p. split; [by right|done].
    - intros p c' subs' d' [->|Hp]%elem_of_cons Hr' x Hin.
      + rewrite Hr in Hr'. injection Hr' as <- <- <-. destruct (Hx _ Hin) as (k' & ? & ? & ?). exists k'. split; [by right|done].
      + destruct (Hcp _ _ _ _ Hp Hr' x Hin) as (k' & ? & ?). exists k'. split; [by right|done].
  Qed.

  Lemma system_step_spec st t st' l : system_step st t = Ok (st', l) ->
    st !! tx_sender t = None /\ good_call (tx_env t) (tx_sender t) st [] (tx_sub t) st' l.
  Proof.
    unfold SystemModel.system_step. intros (u & H1%ensure_ok & ([[st1 tr1] d] & H2 & H3)%rbind_ok)%rbind_ok.
    injection H3 as -> ->. split; [by apply bool_decide_eq_true in H1|]. by eapply exec_call_spec.
  Qed.

  (** ** Whole histories *)
  Notation calls_of l := (l ≫= snd).
  Lemma history_steps st txs : steps st (calls_of (log system_step st txs)) (run system_step st txs).
  Proof.
    revert st. induction txs as [|t txs IH]; intros st; cbn [run log]; [constructor|].
    rewrite bind_app. eapply steps_app; [|apply IH].
    unfold log1, exec. destruct (system_step st t) as [[st' l]| |] eqn:E; [|constructor..].
    cbn. rewrite app_nil_r. apply system_step_spec in E as (_ & k & rest & -> & -> & H & _). exact H.
  Qed.

  (** A call of a transaction was made by its sender, or carries out a message
      of an earlier call of the transaction. *)
  Lemma trace_origin st txs t l a k b : (t, l) ∈ log system_step st txs -> l = a ++ k :: b ->
    (k_sender k = tx_sender t /\ k_sub k = tx_sub t /\ k_env k = tx_env t /\ k_chain k !! k_sender k = None) \/
    exists p, p ∈ a /\ child_of p k.
  Proof.
    intros (txs1 & txs2 & s' & -> & H)%log_elem ->.
    apply system_step_spec in H as (Hn & k0 & rest & E & Hk0 & _ & Hc & _).
    cbn [app] in *. destruct a as [|k1 a]; cbn [app] in E.
    - injection E as -> _. left. subst k0. done.
    - injection E as -> E. right. by apply (Hc _ _ b).
  Qed.
  Lemma history_origin st txs a k b : calls_of (log system_step st txs) = a ++ k :: b ->
    (exists t, k_sender k = tx_sender t /\ k_sub k = tx_sub t /\ k_env k = tx_env t /\ k_chain k !! k_sender k = None) \/
    exists p, p ∈ a /\ child_of p k.
  Proof.
    assert (Hall : forall t l, (t, l) ∈ log system_step st txs -> forall a k b, l = a ++ k :: b ->
      (exists t, k_sender k = tx_sender t /\ k_sub k = tx_sub t /\ k_env k = tx_env t /\ k_chain k !! k_sender k = None) \/
      exists p, p ∈ a /\ child_of p k).
    { intros t l Hin a' k' b' E. destruct (trace_origin _ _ _ _ _ _ _ Hin E); eauto. }
    revert a. induction (log system_step st txs) as [|[t l] lg IH]; intros a; cbn [mbind list_bind snd]; [by destruct a|].
    intros E. apply app_split_at in E as [(b1 & E & ->)|(a1 & -> & E)].
    - eapply Hall; [left|done].
    - destruct (IH (fun t l H => Hall t l (elem_of_list_further _ _ _ H)) _ E) as [H|(p & Hp & Hc)]; [by left|].
      right. exists p. split; [|done]. apply elem_of_app. by right.
  Qed.
  Lemma trace_complete st txs t l : (t, l) ∈ log system_step st txs -> complete l.
  Proof.
    intros (txs1 & txs2 & s' & -> & H)%log_elem.
    apply system_step_spec in H as (Hn & k0 & rest & -> & Hk0 & _ & Hc & Hcp). done.
  Qed.
  Lemma calls_elem (l : list (tx * list call)) k : k ∈ calls_of l <-> exists t tr, (t, tr) ∈ l /\ k ∈ tr.
  Proof.
    rewrite elem_of_list_bind. split.
    - intros ([t tr] & H1 & H2). eauto.
    - intros (t & tr & H1 & H2). by exists (t, tr).
  Qed.
End Flat.
