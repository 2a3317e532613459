(** What enters, and what daemons send. *)
From Verif Require Import Base BaseLemmas MapLemmas Text TextLemmas StdModel StdSpec StdProofs RouterTypes RegistryTypes OperatorsModel MultisigTypes
  EncodingModel VerifierModel RewardsModel RewardsSpec RegistryModel RouterModel GatewayModel NexusModel MultisigModel ProverModel
  SystemModel SystemSpec EventsModel HandlersModel DaemonModel JsonModel JsonSpec JsonProofs JsonProofs4 WireModel WireSpec WireProofs WireProofs2 WireProofs3
  WireSystemModel WireSystemSpec WireProofs4 WireProofs5 WireProofs6 WireProofs7.

(** ** Calls to deployed contracts are understood *)
Definition dom_ok (d : gmap addr deployed) (st : gmap addr contract) : Prop := forall a, is_Some (d !! a) -> is_Some (st !! a).
Definition served (d : gmap addr deployed) (w : wenv) (k : wcall) : Prop :=
  wk_env k = w /\ (is_Some (d !! wb_to (wk_sub k)) -> exists b, understood (wb_text (wk_sub k)) = Some b /\ proper_body b).

Section Served.
  Context (keccak : string -> string) (wshash : worker_set -> string)
          (sec1 : string -> option string)
          (crypto : key_type -> string -> string -> string -> option bool).
  Notation wreceive := (wreceive keccak wshash sec1 crypto).
  Notation wexec_call := (wexec_call keccak wshash sec1 crypto).
  Notation wsystem_step := (wsystem_step keccak wshash sec1 crypto).

  Lemma receive_served w n (st : gmap addr contract) a m r : wreceive w n st a m = Ok r -> is_Some (st !! wb_to m) ->
    exists b, understood (wb_text m) = Some b /\ proper_body b.
  Proof.
    intros H [c Hc]. unfold WireSystemModel.wreceive, chain in H. rewrite Hc in H.
    destruct c; apply rbind_ok in H as (op & Hop & _); apply of_option_ok in Hop;
      rewrite ?rt_reads, ?gw_reads, ?nx_reads, ?vv_reads, ?rw_reads, ?sr_reads, ?ms_reads, ?pr_reads in Hop;
      (destruct (understood (wb_text m)) as [b|] eqn:E; [|discriminate Hop]); exists b; (split; [reflexivity|exact (understood_proper _ _ E)]).
  Qed.
  Lemma settle_dom d (st : gmap addr contract) a c : dom_ok d st -> dom_ok d (settle st a c).
  Proof.
    intros Hd b Hb. unfold settle, chain. destruct c as [c|]; [|by apply Hd]. destruct (decide (b = a)) as [->|Hne].
    - rewrite lookup_insert. by eexists.
    - rewrite lookup_insert_ne by done. by apply Hd.
  Qed.
  Lemma reply_dom d (st : gmap addr contract) me data st' : dom_ok d st -> reply st me data = Ok st' -> dom_ok d st'.
  Proof.
    intros Hd H. unfold reply, chain in H. destruct (st !! me) as [[]|] eqn:E; try (injection H as <-; exact Hd).
    apply rbind_ok in H as ([s' ?] & _ & H). injection H as <-. exact (settle_dom d st me (Some (CProver c s')) Hd).
  Qed.
  Lemma subs_served d w me wcall1 :
    (forall st tr m r, dom_ok d st -> Forall (served d w) tr -> wcall1 st tr m = Ok r -> dom_ok d r.1.1 /\ Forall (served d w) r.1.2) ->
    forall (subs : list wsub) st tr r, dom_ok d st -> Forall (served d w) tr -> wrun_subs wcall1 me st tr subs = Ok r ->
      dom_ok d r.1 /\ Forall (served d w) r.2.
  Proof.
    intros Hc subs. induction subs as [|m subs IH]; intros st tr r Hd Ht H; cbn [wrun_subs] in H; [by injection H as <-|].
    apply rbind_ok in H as ([r1 data] & H1 & H). apply rbind_ok in H as (st2 & H2 & H).
    destruct (Hc _ _ _ _ Hd Ht H1) as [Hd1 Ht1]. cbn in Hd1, Ht1. eapply IH; [|exact Ht1|exact H].
    destruct (wb_reply m); [by eapply reply_dom|]. injection H2 as <-. exact Hd1.
  Qed.
  Lemma exec_served d w gas : forall a st tr m r, dom_ok d st -> Forall (served d w) tr ->
    wexec_call gas w a st tr m = Ok r -> dom_ok d r.1.1 /\ Forall (served d w) r.1.2.
  Proof.
    induction gas as [|g IH]; intros a st tr m r Hd Ht H; [discriminate H|].
    cbn [WireSystemModel.wexec_call] in H. apply rbind_ok in H as ([r1 data] & H1 & H). apply rbind_ok in H as ([st' tr'] & H2 & H).
    injection H as <-. cbn [fst snd]. refine (subs_served d w (wb_to m) _ (IH (wb_to m)) _ _ _ _ _ _ H2).
    - by apply settle_dom.
    - apply Forall_app. split; [exact Ht|]. constructor; [|constructor]. split; [reflexivity|]. intros Hto. cbn [wk_sub] in *.
      eapply receive_served; [exact H1|]. by apply Hd.
  Qed.
  Lemma log_served d ts : forall st, dom_ok d st -> forall t l, (t, l) ∈ log wsystem_step st ts -> Forall (served d (wx_env t)) l.
  Proof.
    induction ts as [|x ts IH]; intros st Hd t l Hin; cbn [log] in Hin; [by apply elem_of_nil in Hin|].
    assert (forall r, wsystem_step st x = Ok r -> dom_ok d r.1 /\ Forall (served d (wx_env x)) r.2) as Hstep.
    { intros r H. unfold WireSystemModel.wsystem_step in H. apply rbind_ok in H as (? & _ & H). apply rbind_ok in H as ([r1 data] & H1 & H).
      injection H as <-. destruct (exec_served d (wx_env x) _ _ _ _ _ _ Hd (Forall_nil_2 _) H1) as [Hd1 Hl1]. by split. }
    apply elem_of_app in Hin as [Hin|Hin].
    - unfold log1 in Hin. destruct (wsystem_step st x) as [[st' tr]| |]; try by apply elem_of_nil in Hin.
      apply elem_of_list_singleton in Hin as [= <- <-]. by apply (Hstep _ eq_refl).
    - eapply IH; [|exact Hin]. unfold exec. destruct (wsystem_step st x) as [[st' tr]| |]; [by apply (Hstep _ eq_refl)|exact Hd..].
  Qed.
  Lemma history_served d ts t l k : (t, l) ∈ wsyslog keccak wshash sec1 crypto d ts -> k ∈ l -> served d (wx_env t) k.
  Proof.
    intros Hin Hk. assert (dom_ok d (system_init d)) as Hd.
    { intros a [x Hx]. unfold system_init. rewrite lookup_fmap, Hx. by eexists. }
    pose proof (log_served d ts _ Hd _ _ Hin) as HF. rewrite Forall_forall in HF. by apply HF.
  Qed.
  (** the history of the messages *)
  Lemma read_history d ts k : k ∈ (read_entry d <$> wsyslog keccak wshash sec1 crypto d ts) ≫= snd -> exists t l w,
    (t, l) ∈ wsyslog keccak wshash sec1 crypto d ts /\ w ∈ l /\ k = read_call d w.
  Proof.
    intros H. apply elem_of_list_bind in H as (x & Hk & Hx). apply elem_of_list_fmap in Hx as ([t l] & -> & Hin).
    cbn in Hk. apply elem_of_list_fmap in Hk as (w & -> & Hw). by exists t, l, w.
  Qed.
  Lemma history_proper d ts k : k ∈ (read_entry d <$> wsyslog keccak wshash sec1 crypto d ts) ≫= snd -> is_Some (d !! sb_to (k_sub k)) ->
    proper_body (sb_body (k_sub k)).
  Proof.
    intros H Hd. apply read_history in H as (t & l & w & Hin & Hw & ->). destruct (history_served d ts _ _ _ Hin Hw) as [_ Hs].
    destruct (Hs Hd) as (b & Hb & Hp). cbn. by rewrite Hb.
  Qed.
  Lemma log_tx (ts : list wtx) : forall st t l, (t, l) ∈ log wsystem_step st ts -> t ∈ ts.
  Proof.
    induction ts as [|x ts IH]; intros st t l Hin; cbn [log] in Hin; [by apply elem_of_nil in Hin|]. apply elem_of_cons.
    apply elem_of_app in Hin as [Hin|Hin]; [left|right; by eapply IH].
    unfold log1 in Hin. destruct (wsystem_step st x) as [[st' tr]| |]; try by apply elem_of_nil in Hin.
    by apply elem_of_list_singleton in Hin as [= <- <-].
  Qed.
  Lemma history_height d ts k : Forall proper_tx ts -> k ∈ (read_entry d <$> wsyslog keccak wshash sec1 crypto d ts) ≫= snd ->
    en_height (k_env k) < 2 ^ 64.
  Proof.
    intros Hts H. apply read_history in H as (t & l & w & Hin & Hw & ->). destruct (history_served d ts _ _ _ Hin Hw) as [He _].
    cbn. rewrite He. apply log_tx in Hin. rewrite Forall_forall in Hts. by apply Hts.
  Qed.
  Lemma history_rewards d ts R : Forall proper_tx ts -> is_Some (d !! R) ->
    Forall valid_rop (rewards_ops R ((read_entry d <$> wsyslog keccak wshash sec1 crypto d ts) ≫= snd)).
  Proof.
    intros Hts HR. apply Forall_forall. intros op Hop. unfold rewards_ops, calls_to in Hop.
    apply elem_of_list_omap in Hop as (k & Hk & Hop). case_decide as Ek; [|discriminate Hop].
    pose proof (history_height d ts k Hts Hk) as Hh. pose proof (history_proper d ts k Hk) as Hp.
    assert (sb_to (k_sub k) = R) as Eto by exact Ek. rewrite Eto in Hp. specialize (Hp HR).
    destruct (sb_body (k_sub k)); try discriminate Hop; injection Hop as <-; (split; [|try exact I]);
      try (intros x [= <-]; exact Hh); try discriminate.
    destruct Hp as (H1 & _ & H2 & H3). split; [exact H1|exact H2].
  Qed.
End Served.

(** ** The requirements of the other theorems *)
Lemma rewards_valid h a funds t op : rw_call h a funds t = Some op -> h < U64 -> valid_rop op.
Proof.
  intros Ht Hh. rewrite rw_reads in Ht. destruct (understood t) as [b|] eqn:E; [|discriminate Ht].
  apply understood_proper in E. cbn in Ht. destruct b; try discriminate Ht; injection Ht as <-; (split; [|try exact I]);
    try (intros x [= <-]; exact Hh); try discriminate.
  destruct E as (H1 & _ & H2 & H3). split; [exact H1|exact H2].
Qed.

(** ** Different messages are different texts *)
Lemma texts_apart b b' : proper_body b -> proper_body b' -> to_json (e_body b) = to_json (e_body b') -> b = b'.
Proof. intros H1 H2 E. apply written_understood in H1. apply written_understood in H2. congruence. Qed.

(** ** Daemons *)
Definition body_of (b : tx_body) : body :=
  match b with BodyVote p vs => BVote p vs | BodySignature s sg => BSubmitSignature s sg end.
Lemma tx_understood b : proper_body (body_of b) -> understood (tx_text b) = Some (body_of b).
Proof. destruct b; intros H; [exact (written_understood (BVote poll votes) H)|exact (written_understood (BSubmitSignature session sig) H)]. Qed.

Lemma de_uint_bound b at' k n : de_attr at' k (de_uint b) = Some n -> n < b.
Proof. unfold de_attr. destruct (at' !! k) as [[]|]; try discriminate. apply parse_uint_bound. Qed.
Lemma de_u64_bound at' k n : de_attr at' k de_u64 = Some n -> n < U64.
Proof.
  unfold de_attr, de_u64. destruct (at' !! k) as [[]|]; try discriminate. destruct (N.ltb_spec n0 U64); [|discriminate]. by intros [= <-].
Qed.
Lemma submit_some open tx tx' : submit open tx = Ok (Some tx') -> tx' = tx.
Proof. unfold submit. destruct open; [by intros [= <-]|discriminate]. Qed.
Lemma evm_poll_bound {A} acc key (item : jval -> option A) at' p : de_evm_poll acc key item at' = Some p -> ep_poll p < U64.
Proof.
  unfold de_evm_poll. destruct (de_attr at' "_contract_address" _); [|discriminate].
  destruct (de_attr at' "poll_id" _) eqn:E; [|discriminate]. apply de_uint_bound in E. repeat case_match; try discriminate. by intros [= <-].
Qed.
Lemma sui_poll_bound {A} acc key (item : jval -> option A) at' p : de_sui_poll acc key item at' = Some p -> sp_poll p < U64.
Proof.
  unfold de_sui_poll. destruct (de_attr at' "_contract_address" _); [|discriminate].
  destruct (de_attr at' "poll_id" _) eqn:E; [|discriminate]. apply de_uint_bound in E. repeat case_match; try discriminate. by intros [= <-].
Qed.
Lemma handle_proper acc b58 de_key worker c v ev tx : handle acc b58 de_key worker c v ev = Ok (Some tx) ->
  wt_sender tx = worker /\ proper_body (body_of (wt_body tx)).
Proof.
  unfold handle. intros H.
  destruct c; cbn in H;
    unfold evm_msg_handler, evm_ws_handler, sui_msg_handler, sui_ws_handler, multisig_handler, typed in H;
    destruct ev as [| |ty at']; try discriminate H; (destruct (String.eqb ty _); [|discriminate H]).
  - destruct (de_evm_messages acc at') as [p|] eqn:E; [|discriminate H]. apply evm_poll_bound in E.
    destruct (evm_relevant _ _ p); [|discriminate H]. apply rbind_ok in H as (rs & _ & H). apply submit_some in H as ->. by split.
  - destruct (de_evm_worker_set acc at') as [p|] eqn:E; [|discriminate H]. apply evm_poll_bound in E.
    destruct (evm_relevant _ _ p); [|discriminate H]. apply rbind_ok in H as (rs & _ & H). apply submit_some in H as ->. by split.
  - destruct (de_signing acc de_key at') as [s|] eqn:E; [|discriminate H]. unfold de_signing in E.
    destruct (de_attr at' "_contract_address" _); [|discriminate E]. destruct (de_attr at' "session_id" de_u64) eqn:Es; [|discriminate E].
    apply de_u64_bound in Es. repeat case_match; try discriminate E; try discriminate H. injection E as <-.
    apply rbind_ok in H as (sg & _ & H). apply submit_some in H as ->. by split.
  - destruct (de_sui_messages acc b58 at') as [p|] eqn:E; [|discriminate H]. apply sui_poll_bound in E.
    destruct (sui_relevant _ _ p); [|discriminate H]. apply rbind_ok in H as (rs & _ & H). apply submit_some in H as ->. by split.
  - destruct (de_sui_worker_set acc b58 at') as [p|] eqn:E; [|discriminate H]. apply sui_poll_bound in E.
    destruct (sui_relevant _ _ p); [|discriminate H]. apply rbind_ok in H as (rs & _ & H). apply rbind_ok in H as (vt & _ & H).
    apply submit_some in H as ->. by split.
Qed.
(** the contract that gets the text runs the vote or the signature *)
Lemma daemon_heard acc b58 de_key worker c v ev tx : handle acc b58 de_key worker c v ev = Ok (Some tx) ->
  match wt_body tx with
  | BodyVote p vs => forall h reg, vv_call h worker reg (tx_text (wt_body tx)) = Some (Vote h worker p vs)
  | BodySignature s sg => forall h, ms_call h worker (tx_text (wt_body tx)) = Some (SubmitSignature h worker s sg)
  end.
Proof.
  intros H. apply handle_proper in H as [_ Hp]. pose proof (tx_understood _ Hp) as Hu. destruct (wt_body tx) as [p vs|s sg].
  - intros h reg. rewrite vv_reads, Hu. reflexivity.
  - intros h. rewrite ms_reads, Hu. reflexivity.
Qed.
Definition proper_command (key : string) (c : command) : Prop :=
  match c with
  | CmdBond _ _ _ => True
  | CmdDeclare _ chains => Forall proper_chain chains
  | CmdRegisterKey => proper_key {| pk_type := KEcdsa; pk_bytes := key |}
  end.
Lemma command_heard account cf key c a m : command_msg account cf key c = Ok (a, m) -> proper_command key c ->
  understood (wb_text (write m)) = Some (sb_body m).
Proof.
  intros H Hp. unfold write. cbn [wb_text]. apply written_understood. destruct c; cbn in H.
  - injection H as <- <-. exact I.
  - injection H as <- <-. exact Hp.
  - apply rbind_ok in H as (x & _ & H). injection H as <- <-. exact Hp.
Qed.

(** ** The nexus module *)
Lemma to_nexus_proper m : proper_message m -> proper_nmessage (to_nexus m).
Proof.
  intros ([Hc Hi] & Hs & Hd & Ha & Hh). unfold to_nexus. destruct (NexusModel.parse_message_id (cc_id (m_cc m))) as [[tx i]|] eqn:E.
  - unfold proper_nmessage. cbn. split; [done|]. split; [done|]. split; [done|]. split; [done|]. split; [done|].
    unfold NexusModel.parse_message_id in E. destruct (split _ _) as [|x [|y [|]]]; try discriminate E.
    destruct (of_hex (trim_0x x)) as [t|]; [|discriminate E]. destruct t as [|c t]; [discriminate E|]. cbn [is_empty] in E.
    destruct (parse_u64 y) as [j|] eqn:Ej; [|discriminate E]. injection E as <- <-. split; [done|]. by apply parse_uint_bound in Ej.
  - unfold proper_nmessage. cbn. repeat (split; [done|]). reflexivity.
Qed.
Lemma nexus_heard s a ms s' ns : Forall proper_message ms -> nexus_step s (NxRouteMessages a ms) = Ok (s', NxToNexus ns) ->
  Forall (fun n => (v ← of_wire (to_json (e_nmessage n)); d_nmessage v) = Some n) ns.
Proof.
  intros Hp H. cbn in H. unfold route_to_nexus in H. apply rbind_ok in H as (? & _ & H). injection H as _ <-.
  apply Forall_fmap, Forall_forall. intros m Hm. apply elem_of_list_filter in Hm as [_ Hm]. rewrite Forall_forall in Hp.
  apply Hp, to_nexus_proper in Hm. cbn. by apply (codec_text _ _ _ 2 ltac:(lia) codec_nmessage).
Qed.

(** ** Statements about messages hold of texts *)
Section System.
  Context (keccak : string -> string) (wshash : worker_set -> string)
          (sec1 : string -> option string)
          (crypto : key_type -> string -> string -> string -> option bool).
  Lemma c103_system d ts : proper_deployment d -> Forall proper_tx ts ->
    wsysrun keccak wshash sec1 crypto d ts = sysrun keccak wshash sec1 crypto d (read_tx d <$> ts) /\
    read_entry d <$> wsyslog keccak wshash sec1 crypto d ts = syslog keccak wshash sec1 crypto d (read_tx d <$> ts).
  Proof.
    intros Hd Hts. destruct (run_sim keccak wshash sec1 crypto d ts Hts (system_init d) (good_init d Hd)) as [H1 H2].
    split; [exact (eq_sym H1)|exact (eq_sym H2)].
  Qed.
  Lemma c103_transfer d (P : chain -> list (tx * list call) -> Prop) : proper_deployment d ->
    (forall ts, P (sysrun keccak wshash sec1 crypto d ts) (syslog keccak wshash sec1 crypto d ts)) ->
    forall ts, Forall proper_tx ts ->
      P (wsysrun keccak wshash sec1 crypto d ts) (read_entry d <$> wsyslog keccak wshash sec1 crypto d ts).
  Proof. intros Hd HP ts Hts. destruct (c103_system d ts Hd Hts) as [-> ->]. apply HP. Qed.
  Lemma c102_system d ts t l k : (t, l) ∈ wsyslog keccak wshash sec1 crypto d ts -> k ∈ l -> is_Some (d !! wb_to (wk_sub k)) ->
    exists b, understood (wb_text (wk_sub k)) = Some b /\ proper_body b.
  Proof. intros Hin Hk. exact (proj2 (history_served keccak wshash sec1 crypto d ts t l k Hin Hk)). Qed.
End System.

Lemma text_heard {A} (e : A -> jval) d P n : (n <= 127)%nat -> codec e d P n ->
  forall m, P m -> (v ← of_wire (to_json (e m)); d v) = Some m.
Proof. intros Hn H. exact (proj1 (codec_text e d P n Hn H)). Qed.
Lemma text_proper {A} (e : A -> jval) d P n : (n <= 127)%nat -> codec e d P n ->
  forall s m, (v ← of_wire s; d v) = Some m -> P m.
Proof. intros Hn H. exact (proj2 (codec_text e d P n Hn H)). Qed.
(** the names other theorems use *)
Lemma proper_message_wf m : proper_message m -> wf_message m.
Proof.
  intros ([Hc Hi] & Hs & Hd & Ha & Hh). unfold wf_message. apply proper_wf in Hc, Hd. exact (conj Hc (conj Hi (conj Hs (conj Hd (conj Ha Hh))))).
Qed.
Lemma one_meaning t :
  (forall a, rt_call a t = (b ← understood t; router_op a b)) /\
  (forall a ans, gw_call a ans t = (b ← understood t; gateway_op ans a b)) /\
  (forall a, nx_call a t = (b ← understood t; nexus_op a b)) /\
  (forall h a reg, vv_call h a reg t = (b ← understood t; verifier_op h reg a b)) /\
  (forall h a funds, rw_call h a funds t = (b ← understood t; rewards_op h a funds b)) /\
  (forall h a funds, sr_call h a funds t = (b ← understood t; registry_op h a funds b)) /\
  (forall h a, ms_call h a t = (b ← understood t; multisig_op h a b)) /\
  pr_call t = (b ← understood t; match b with BProver c => Some c | _ => None end).
Proof.
  split; [intros; apply rt_reads|]. split; [intros; apply gw_reads|]. split; [intros; apply nx_reads|]. split; [intros; apply vv_reads|].
  split; [intros; apply rw_reads|]. split; [intros; apply sr_reads|]. split; [intros; apply ms_reads|]. apply pr_reads.
Qed.
