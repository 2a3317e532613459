(** Exact texts, order and shape, together. *)
From Verif Require Import Base BaseLemmas Text StdModel RouterTypes RegistryTypes OperatorsModel MultisigTypes
  RouterModel GatewayModel NexusModel RewardsModel RegistryModel VerifierModel MultisigModel ProverModel
  SystemModel EventsModel HandlersModel JsonModel WireModel WireSpec WireSystemModel WireSystemSpec WireSpec2 WireProofs9 WireProofs10 WireProofs11.

Lemma ag_text ms : to_json (e_ag ms) = fill "{'verify_messages':{'messages':%}}" [t_messages ms].
Proof. change (e_ag ms) with (e_vv (VvVerifyMessages ms)). rewrite vv_text. unfold t_vv. reflexivity. Qed.
Lemma vote_tx_text id vs : tx_text (BodyVote id vs) = t_vv (VvVote id vs).
Proof. unfold tx_text. apply vv_text. Qed.
Lemma sig_tx_text id sg : tx_text (BodySignature id sg) = t_ms (MsSubmit id sg).
Proof. unfold tx_text. apply ms_text. Qed.
Lemma exact_texts :
  (forall m, to_json (e_vv m) = t_vv m) /\ (forall m, to_json (e_ms m) = t_ms m) /\ (forall m, to_json (e_rw m) = t_rw m) /\
  (forall m, to_json (e_gw m) = t_gw m) /\ (forall m, to_json (e_nx m) = t_nx m) /\ (forall m, to_json (e_rt m) = t_rt m) /\
  (forall m, to_json (e_pr m) = t_pr m) /\ (forall m, to_json (e_sr m) = t_sr m) /\
  (forall ms, to_json (e_ag ms) = fill "{'verify_messages':{'messages':%}}" [t_messages ms]) /\
  (forall n, to_json (e_nmessage n) = t_nmessage n) /\
  (forall id vs, tx_text (BodyVote id vs) = t_vv (VvVote id vs)) /\ (forall id sg, tx_text (BodySignature id sg) = t_ms (MsSubmit id sg)).
Proof.
  exact (conj vv_text (conj ms_text (conj rw_text (conj gw_text (conj nx_text (conj rt_text (conj pr_text (conj sr_text (conj ag_text
    (conj nmessage_text (conj vote_tx_text sig_tx_text))))))))))).
Qed.
Lemma order_of {A B} (d : jval -> option A) (g : A -> B) t t' v v' : inv d -> of_wire t = Some v -> of_wire t' = Some v' -> same v v' ->
  (w ← of_wire t; m ← d w; Some (g m)) = (w ← of_wire t'; m ← d w; Some (g m)).
Proof. intros Hd -> -> H. cbn. by rewrite (Hd v v' H). Qed.
Lemma order_free t t' v v' : of_wire t = Some v -> of_wire t' = Some v' -> same v v' ->
  (forall a, rt_call a t = rt_call a t') /\ (forall a ans, gw_call a ans t = gw_call a ans t') /\ (forall a, nx_call a t = nx_call a t') /\
  (forall h a reg, vv_call h a reg t = vv_call h a reg t') /\ (forall h a funds, rw_call h a funds t = rw_call h a funds t') /\
  (forall h a funds, sr_call h a funds t = sr_call h a funds t') /\ (forall h a, ms_call h a t = ms_call h a t') /\
  pr_call t = pr_call t' /\ ag_call t = ag_call t'.
Proof.
  intros H H' Hs. split; [|split; [|split; [|split; [|split; [|split; [|split; [|split]]]]]]].
  - intros a. exact (order_of _ _ _ _ _ _ rt_inv H H' Hs).
  - intros a ans. exact (order_of _ _ _ _ _ _ gw_inv H H' Hs).
  - intros a. exact (order_of _ _ _ _ _ _ nx_inv H H' Hs).
  - intros h a reg. exact (order_of _ _ _ _ _ _ vv_inv H H' Hs).
  - intros h a funds. exact (order_of _ _ _ _ _ _ rw_inv H H' Hs).
  - intros h a funds. exact (order_of _ _ _ _ _ _ sr_inv H H' Hs).
  - intros h a. exact (order_of _ _ _ _ _ _ ms_inv H H' Hs).
  - unfold pr_call. rewrite H, H'. exact (pr_inv v v' Hs).
  - unfold ag_call. rewrite H, H'. exact (ag_inv v v' Hs).
Qed.
Lemma shape_of t v : of_wire t = Some v ->
  (forall m, d_vv v = Some m -> fits v (e_vv m)) /\ (forall m, d_ms v = Some m -> plain_ms m -> fits v (e_ms m)) /\
  (forall m, d_rw v = Some m -> fits v (e_rw m)) /\ (forall m, d_gw v = Some m -> fits v (e_gw m)) /\
  (forall m, d_nx v = Some m -> plain_nx m -> fits v (e_nx m)) /\ (forall m, d_rt v = Some m -> fits v (e_rt m)) /\
  (forall m, d_pr v = Some m -> fits v (e_pr m)) /\ (forall m, d_sr v = Some m -> fits v (e_sr m)) /\
  (forall ms, d_ag v = Some ms -> fits v (e_ag ms)).
Proof.
  intros _. exact (conj (vv_fits v) (conj (ms_fits v) (conj (rw_fits v) (conj (gw_fits v) (conj (nx_fits v) (conj (rt_fits v)
    (conj (pr_fits v) (conj (sr_fits v) (ag_fits v))))))))).
Qed.

(** The text of a freeze, with the members of a call turned around, a name in
    capitals, and a further member. *)
Definition wq (s : string) : string := fill s [].
Definition wz_turned : string := wq "{'freeze_chain':{'direction':'Incoming','chain':'sui'}}".
Definition wz_straight : string := wq "{'freeze_chain':{'chain':'sui','direction':'Incoming'}}".
Definition wz_more : string := wq "{'freeze_chain':{'chain':'sui','direction':'Incoming','note':'x'}}".
Definition wz_twice : string := wq "{'freeze_chain':{'chain':'sui','chain':'sui','direction':'Incoming'}}".
Definition wz_number (n : string) : string := wq "{'end_poll':{'poll_id':'" +:+ n +:+ wq "'}}".
