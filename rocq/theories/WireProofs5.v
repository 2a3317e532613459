(** A contract runs on a text as on the message the text is. *)
From Verif Require Import Base BaseLemmas MapLemmas Text TextLemmas StdModel RouterTypes RegistryTypes OperatorsModel MultisigTypes
  EncodingModel VerifierModel RewardsModel RegistryModel RouterModel GatewayModel NexusModel MultisigModel ProverModel
  SystemModel EventsModel JsonModel JsonSpec JsonProofs WireModel WireSpec WireProofs WireProofs2 WireProofs3
  WireSystemModel WireSystemSpec WireProofs4.

Lemma call_of {M Op} (d : jval -> option M) (inj : M -> body) (f : body -> bool) (op : M -> Op) (g : body -> option Op) t :
  (forall v, inj <$> d v = only f (d_body v)) -> (forall m, g (inj m) = Some (op m)) -> (forall b, f b = false -> g b = None) ->
  (v ← of_wire t; m ← d v; Some (op m)) = (b ← understood t; g b).
Proof.
  intros H1 H2 H3. unfold understood. destruct (of_wire t) as [v|]; [|reflexivity]. cbn [mbind option_bind].
  specialize (H1 v). destruct (d v) as [m|]; cbn [fmap option_fmap option_map mbind option_bind] in *.
  - destruct (d_body v) as [b|]; cbn [only] in H1; [|discriminate H1]. destruct (f b); [|discriminate H1]. injection H1 as <-.
    cbn. by rewrite H2.
  - destruct (d_body v) as [b|]; [|reflexivity]. cbn [only mbind option_bind] in *. destruct (f b) eqn:E; [discriminate H1|].
    by rewrite (H3 b E).
Qed.

Lemma rt_reads a t : rt_call a t = (b ← understood t; router_op a b).
Proof.
  unfold rt_call. apply (call_of d_rt b_rt for_rt).
  - intros v. apply agrees.
  - by intros [].
  - by intros [].
Qed.
Lemma gw_reads a ans t : gw_call a ans t = (b ← understood t; gateway_op ans a b).
Proof.
  unfold gw_call. apply (call_of d_gw b_gw for_gw).
  - intros v. apply agrees.
  - by intros [].
  - by intros [].
Qed.
Lemma nx_reads a t : nx_call a t = (b ← understood t; nexus_op a b).
Proof.
  unfold nx_call. apply (call_of d_nx b_nx for_nx).
  - intros v. apply agrees.
  - by intros [].
  - by intros [].
Qed.
Lemma vv_reads h a reg t : vv_call h a reg t = (b ← understood t; verifier_op h reg a b).
Proof.
  unfold vv_call. apply (call_of d_vv b_vv for_vv).
  - intros v. apply agrees.
  - by intros [].
  - by intros [].
Qed.
Lemma rw_reads h a funds t : rw_call h a funds t = (b ← understood t; rewards_op h a funds b).
Proof.
  unfold rw_call. apply (call_of d_rw b_rw for_rw).
  - intros v. apply agrees.
  - by intros [].
  - by intros [].
Qed.
Lemma sr_reads h a funds t : sr_call h a funds t = (b ← understood t; registry_op h a funds b).
Proof.
  unfold sr_call. apply (call_of d_sr b_sr for_sr).
  - intros v. apply agrees.
  - by intros [].
  - by intros [].
Qed.
Lemma ms_reads h a t : ms_call h a t = (b ← understood t; multisig_op h a b).
Proof.
  unfold ms_call. apply (call_of d_ms b_ms for_ms).
  - intros v. apply agrees.
  - by intros [].
  - by intros [].
Qed.
Lemma pr_reads t : pr_call t = (b ← understood t; match b with BProver c => Some c | _ => None end).
Proof.
  rewrite <- (call_of d_pr BProver for_pr id (fun b => match b with BProver c => Some c | _ => None end)).
  - unfold pr_call. destruct (of_wire t) as [v|]; [|reflexivity]. cbn. by destruct (d_pr v).
  - intros v. apply agrees.
  - done.
  - by intros [].
Qed.

(** what is understood is proper *)
Lemma understood_proper t b : understood t = Some b -> proper_body b.
Proof.
  unfold understood. destruct (of_wire t) as [v|]; [|discriminate]. cbn [mbind option_bind]. unfold d_body.
  destruct (d_rt v) as [m|] eqn:E1; cbn [fmap option_fmap option_map orelse].
  { intros [= <-]. apply (proj2 codec_rt) in E1. by destruct m. }
  destruct (d_gw v) as [m|] eqn:E2; cbn [fmap option_fmap option_map orelse].
  { intros [= <-]. apply (proj2 codec_gw) in E2. by destruct m. }
  destruct (d_nx v) as [m|] eqn:E3; cbn [fmap option_fmap option_map orelse].
  { intros [= <-]. apply (proj2 codec_nx) in E3. by destruct m. }
  destruct (d_vv v) as [m|] eqn:E4; cbn [fmap option_fmap option_map orelse].
  { intros [= <-]. apply (proj2 codec_vv) in E4. by destruct m. }
  destruct (d_rw v) as [m|] eqn:E5; cbn [fmap option_fmap option_map orelse].
  { intros [= <-]. apply (proj2 codec_rw) in E5. by destruct m. }
  destruct (d_sr v) as [m|] eqn:E6; cbn [fmap option_fmap option_map orelse].
  { intros [= <-]. apply (proj2 codec_sr) in E6. by destruct m. }
  destruct (d_ms v) as [m|] eqn:E7; cbn [fmap option_fmap option_map orelse].
  { intros [= <-]. apply (proj2 codec_ms) in E7. destruct m as [| | |[]| |]; exact E7. }
  destruct (d_pr v) as [m|] eqn:E8; cbn [fmap option_fmap option_map]; [|discriminate].
  intros [= <-]. by apply (proj2 codec_pr) in E8.
Qed.

(** what is written is understood *)
Lemma written {A} (e : A -> jval) d P n (inj : A -> body) f m :
  (n <= 127)%nat -> codec e d P n -> (forall v, inj <$> d v = only f (d_body v)) -> P m ->
  understood (to_json (e m)) = Some (inj m).
Proof.
  intros Hn Hc Ha Hm. destruct (proj1 Hc m Hm) as [R D]. unfold understood.
  rewrite of_wire_to_json by (by eapply readable_mono). cbn [mbind option_bind]. specialize (Ha (e m)). rewrite D in Ha. cbn in Ha.
  destruct (d_body (e m)) as [b|]; cbn [only] in Ha; [|discriminate Ha]. destruct (f b); [exact (eq_sym Ha)|discriminate Ha].
Qed.
Lemma written_understood b : proper_body b -> understood (to_json (e_body b)) = Some b.
Proof.
  assert (forall m, proper_rt m -> understood (to_json (e_rt m)) = Some (b_rt m)) as Hrt
    by (intros m; apply (written e_rt d_rt proper_rt 4 b_rt for_rt); [lia|apply codec_rt|intros v; apply agrees]).
  assert (forall m, proper_gw m -> understood (to_json (e_gw m)) = Some (b_gw m)) as Hgw
    by (intros m; apply (written e_gw d_gw proper_gw 4 b_gw for_gw); [lia|apply codec_gw|intros v; apply agrees]).
  assert (forall m, proper_nx m -> understood (to_json (e_nx m)) = Some (b_nx m)) as Hnx
    by (intros m; apply (written e_nx d_nx proper_nx 4 b_nx for_nx); [lia|apply codec_nx|intros v; apply agrees]).
  assert (forall m, proper_vv m -> understood (to_json (e_vv m)) = Some (b_vv m)) as Hvv
    by (intros m; apply (written e_vv d_vv proper_vv 6 b_vv for_vv); [lia|apply codec_vv|intros v; apply agrees]).
  assert (forall m, proper_rw m -> understood (to_json (e_rw m)) = Some (b_rw m)) as Hrw
    by (intros m; apply (written e_rw d_rw proper_rw 5 b_rw for_rw); [lia|apply codec_rw|intros v; apply agrees]).
  assert (forall m, proper_sr m -> understood (to_json (e_sr m)) = Some (b_sr m)) as Hsr
    by (intros m; apply (written e_sr d_sr proper_sr 4 b_sr for_sr); [lia|apply codec_sr|intros v; apply agrees]).
  assert (forall m, proper_ms m -> understood (to_json (e_ms m)) = Some (b_ms m)) as Hms
    by (intros m; apply (written e_ms d_ms proper_ms 6 b_ms for_ms); [lia|apply codec_ms|intros v; apply agrees]).
  assert (forall m, proper_pr m -> understood (to_json (e_pr m)) = Some (BProver m)) as Hpr
    by (intros m; apply (written e_pr d_pr proper_pr 4 BProver for_pr); [lia|apply codec_pr|intros v; apply agrees]).
  destruct b; intros Hp; cbn [e_body proper_body] in *.
  - exact (Hrt (RtmRoute ms) Hp).
  - exact (Hrt (RtmRegister _ _) Hp).
  - exact (Hrt (RtmUpgrade _ _) Hp).
  - exact (Hrt (RtmFreeze _ _) Hp).
  - exact (Hrt (RtmUnfreeze _ _) Hp).
  - exact (Hgw (GwmVerify _) Hp).
  - exact (Hnx (NxmFromNexus _) Hp).
  - exact (Hvv (VvVerifyMessages _) Hp).
  - exact (Hvv (VvVerifyWorkerSet _ _) Hp).
  - exact (Hvv (VvVote _ _) Hp).
  - exact (Hvv (VvEndPoll _) Hp).
  - exact (Hrw (RwRecord _ _) Hp).
  - exact (Hrw (RwAdd _) Hp).
  - exact (Hrw (RwDistribute _ _) Hp).
  - exact (Hrw (RwUpdate _) Hp).
  - exact (Hsr (SrmRegister _) Hp).
  - exact (Hsr (SrmAuthorize _ _) Hp).
  - exact (Hsr (SrmUnauthorize _ _) Hp).
  - exact (Hsr (SrmDeclare _ _) Hp).
  - exact (Hsr (SrmBond _) Hp).
  - exact (Hsr (SrmUnbond _) Hp).
  - exact (Hsr (SrmClaim _) Hp).
  - exact (Hms (MsStart _ _ _ None) Hp).
  - exact (Hms (MsSubmit _ _) Hp).
  - exact (Hms (MsRegisterSet _) Hp).
  - exact (Hms (MsRegisterKey {| pk_type := t; pk_bytes := bytes |}) Hp).
  - destruct auth; [exact (Hms (MsAuthorize _) Hp)|exact (Hms (MsUnauthorize _) Hp)].
  - exact (Hpr _ Hp).
Qed.
Lemma read_write d m : proper_body (sb_body m) -> read_sub d (write m) = m.
Proof.
  intros H. unfold read_sub, write. cbn [wb_to wb_text wb_funds wb_reply]. rewrite written_understood by done. by destruct m.
Qed.
