(** The messages of each contract. *)
From Verif Require Import Base BaseLemmas MapLemmas Text TextLemmas StdModel RouterTypes RegistryTypes OperatorsModel MultisigTypes
  EncodingModel VerifierModel RewardsModel RegistryModel RouterModel GatewayModel NexusModel MultisigModel ProverModel
  EventsModel JsonModel JsonSpec JsonProofs WireModel WireSpec WireProofs WireProofs2.

Lemma codec_text {A} (e : A -> jval) d P n : (n <= 127)%nat -> codec e d P n -> text_ok e d P.
Proof.
  intros Hn [H1 H2]. split.
  - intros m Hm. destruct (H1 m Hm) as [R D]. rewrite of_wire_to_json by (by eapply readable_mono). exact D.
  - intros s m H. destruct (of_wire s) as [v|]; [|done]. cbn in H. by eapply H2.
Qed.
Lemma codec_u64 : codec e_uint (d_uint U64) (fun n => n < 2 ^ 64) 0.
Proof. exact (codec_uint U64). Qed.
Lemma codec_opt_str : codec (e_opt JStr) (d_opt d_str) (fun _ => True) 0.
Proof.
  eapply codec_impl; [|apply (codec_opt _ _ _ _ codec_str); done]. intros o. split; done.
Qed.
Lemma codec_opt_num b : b <= 2 ^ 64 -> codec (e_opt JNum) (d_opt (d_num b)) (fun o => forall k, o = Some k -> k < b) 0.
Proof. intros Hb. by apply (codec_opt _ _ _ _ (codec_num b Hb)). Qed.
Lemma codec_strs : codec (e_list JStr) (d_vec d_str) (fun _ => True) 1.
Proof. eapply codec_impl; [|apply codec_list, codec_str]. intros l. split; [done|]. intros _. by apply Forall_forall. Qed.
Lemma codec_chains : codec (e_list JStr) (d_vec d_chain) (Forall proper_chain) 1.
Proof. apply codec_list, codec_chain. Qed.
Lemma codec_ids : codec (e_list e_ccid) (d_vec d_ccid) (Forall proper_id) 2.
Proof. apply codec_list, codec_ccid. Qed.
Lemma codec_nmessages : codec (e_list e_nmessage) (d_vec d_nmessage) (Forall proper_nmessage) 3.
Proof. apply codec_list, codec_nmessage. Qed.

Ltac eqbs := repeat match goal with
  | |- context [String.eqb ?a ?b] => let r := eval compute in (String.eqb a b) in change (String.eqb a b) with r; cbn iota
  end.
Ltac tag := match goal with |- context [variant ?v] =>
  match v with JObj [(?n, ?b)] => change (variant v) with (Some (n, b)) end end;
  cbn [mbind option_bind fst snd]; eqbs; cbn [fst snd].
Ltac tags H :=
  match type of H with context [variant ?v] => destruct (variant v) as [[? ?]|]; [|discriminate H] end;
  cbn [mbind option_bind fst snd] in H;
  repeat match type of H with context [if String.eqb ?a ?b then _ else _] => destruct (String.eqb a b) end;
  try discriminate H.

Lemma codec_vv : codec e_vv d_vv proper_vv 6.
Proof.
  split.
  - intros [id|id vs|ms|i o] Hp; cbn [proper_vv e_vv] in *; unfold tagged.
    + destruct (proj1 codec_u64 id Hp) as [R1 D1]. split; [obj; obj; lift R1|]. unfold d_vv. tag. to_fields. done.
    + destruct (proj1 codec_u64 id Hp) as [R1 D1], (proj1 codec_votes vs I) as [R2 D2].
      split; [obj; obj; [lift R1|lift R2]|]. unfold d_vv. tag. to_fields. done.
    + destruct (proj1 codec_messages ms Hp) as [R1 D1]. split; [obj; obj; lift R1|]. unfold d_vv. tag. to_fields. done.
    + destruct Hp as [Hi Ho]. destruct (proj1 codec_nonempty i Hi) as [R1 D1], (proj1 codec_operators o Ho) as [R2 D2].
      split; [obj; obj; [lift R1|lift R2]|]. unfold d_vv. tag. to_fields. done.
  - intros v m H. unfold d_vv in H. tags H; inv_fields H; injection H as <-; cbn [proper_vv].
    + by eapply codec_u64.
    + by eapply codec_u64.
    + by eapply codec_messages.
    + split; [by eapply codec_nonempty|by eapply codec_operators].
Qed.
Lemma codec_ms : codec e_ms d_ms proper_ms 6.
Proof.
  split.
  - intros [w d c s|id sg|w|k|a|a] Hp; cbn [proper_ms e_ms] in *; unfold tagged.
    + destruct (proj1 codec_str w I) as [R1 D1], (proj1 codec_hex d I) as [R2 D2], (proj1 codec_chain c Hp) as [R3 D3],
        (proj1 codec_opt_str s I) as [R4 D4].
      split; [obj; obj; [lift R1|lift R2|lift R3|lift R4]|]. unfold d_ms. tag. to_fields. done.
    + destruct (proj1 codec_u64 id Hp) as [R1 D1], (proj1 codec_hex sg I) as [R2 D2].
      split; [obj; obj; [lift R1|lift R2]|]. unfold d_ms. tag. to_fields. done.
    + destruct (proj1 codec_worker_set w Hp) as [R1 D1]. split; [obj; obj; lift R1|]. unfold d_ms. tag. to_fields. done.
    + destruct (proj1 codec_key k Hp) as [R1 D1]. split; [obj; obj; lift R1|]. unfold d_ms. tag. to_fields. done.
    + destruct (proj1 codec_str a I) as [R1 D1]. split; [obj; obj; lift R1|]. unfold d_ms. tag. to_fields. done.
    + destruct (proj1 codec_str a I) as [R1 D1]. split; [obj; obj; lift R1|]. unfold d_ms. tag. to_fields. done.
  - intros v m H. unfold d_ms in H. tags H; inv_fields H; injection H as <-; cbn [proper_ms]; try exact I.
    + by eapply codec_chain.
    + by eapply codec_u64.
    + by eapply codec_worker_set.
    + by eapply codec_key.
Qed.
Lemma codec_rw : codec e_rw d_rw proper_rw 5.
Proof.
  pose proof (codec_opt_num U64 ltac:(reflexivity)) as Hon.
  split.
  - intros [ev w|c n|c|p] Hp; cbn [proper_rw e_rw] in *; unfold tagged.
    + destruct (proj1 codec_nonempty ev Hp) as [R1 D1], (proj1 codec_str w I) as [R2 D2].
      split; [obj; obj; [lift R1|lift R2]|]. unfold d_rw. tag. to_fields. done.
    + destruct (proj1 codec_str c I) as [R1 D1], (proj1 Hon n Hp) as [R2 D2].
      split; [obj; obj; [lift R1|lift R2]|]. unfold d_rw. tag. to_fields. done.
    + destruct (proj1 codec_str c I) as [R1 D1]. split; [obj; obj; lift R1|]. unfold d_rw. tag. to_fields. done.
    + destruct (proj1 codec_params p Hp) as [R1 D1]. split; [obj; obj; lift R1|]. unfold d_rw. tag. to_fields. done.
  - intros v m H. unfold d_rw in H. tags H; inv_fields H; injection H as <-; cbn [proper_rw]; try exact I.
    + by eapply codec_nonempty.
    + match goal with E : _ = None \/ _ |- _ => destruct E as [-> | (x & _ & Ex)]; [done|] end. by eapply Hon.
    + by eapply codec_params.
Qed.
Lemma codec_gw : codec e_gw d_gw proper_gw 4.
Proof.
  split.
  - intros [ms|ms] Hp; cbn [proper_gw e_gw] in *;
      destruct (proj1 codec_messages ms Hp) as [R1 D1]; (split; [obj; lift R1|]); unfold d_gw; tag; by rewrite D1.
  - intros v m H. unfold d_gw in H.
    tags H; (destruct (d_vec d_message _) as [ms|] eqn:E; [|discriminate H]); injection H as <-; by eapply codec_messages.
Qed.
Lemma codec_ag : codec e_ag d_ag (Forall proper_message) 5.
Proof.
  split.
  - intros ms Hp. unfold e_ag, tagged. destruct (proj1 codec_messages ms Hp) as [R1 D1].
    split; [obj; obj; lift R1|]. unfold d_ag. tag. to_fields. done.
  - intros v m H. unfold d_ag in H. tags H. inv_fields H. injection H as <-. by eapply codec_messages.
Qed.
Lemma codec_nx : codec e_nx d_nx proper_nx 4.
Proof.
  split.
  - intros [ms|ns] Hp; cbn [proper_nx e_nx] in *.
    + destruct (proj1 codec_messages ms Hp) as [R1 D1]. split; [obj; lift R1|]. unfold d_nx. tag. by rewrite D1.
    + destruct (proj1 codec_nmessages ns Hp) as [R1 D1]. split; [obj; lift R1|]. unfold d_nx. tag. by rewrite D1.
  - intros v m H. unfold d_nx in H. tags H.
    + destruct (d_vec d_message _) as [ms|] eqn:E; [|discriminate H]. injection H as <-. by eapply codec_messages.
    + destruct (d_vec d_nmessage _) as [ms|] eqn:E; [|discriminate H]. injection H as <-. by eapply codec_nmessages.
Qed.
Lemma codec_rt : codec e_rt d_rt proper_rt 4.
Proof.
  split.
  - intros [c g|c g|c d|c d|ms] Hp; cbn [proper_rt e_rt] in *; unfold tagged.
    + destruct (proj1 codec_chain c Hp) as [R1 D1], (proj1 codec_str g I) as [R2 D2].
      split; [obj; obj; [lift R1|lift R2]|]. unfold d_rt. tag. to_fields. done.
    + destruct (proj1 codec_chain c Hp) as [R1 D1], (proj1 codec_str g I) as [R2 D2].
      split; [obj; obj; [lift R1|lift R2]|]. unfold d_rt. tag. to_fields. done.
    + destruct (proj1 codec_chain c Hp) as [R1 D1], (proj1 codec_direction d I) as [R2 D2].
      split; [obj; obj; [lift R1|lift R2]|]. unfold d_rt. tag. to_fields. done.
    + destruct (proj1 codec_chain c Hp) as [R1 D1], (proj1 codec_direction d I) as [R2 D2].
      split; [obj; obj; [lift R1|lift R2]|]. unfold d_rt. tag. to_fields. done.
    + destruct (proj1 codec_messages ms Hp) as [R1 D1]. split; [obj; lift R1|]. unfold d_rt. tag. by rewrite D1.
  - intros v m H. unfold d_rt in H. tags H; inv_fields H;
      try (destruct (d_vec d_message _) as [ms|] eqn:E; [|discriminate H]); injection H as <-; cbn [proper_rt];
      try by eapply codec_chain. by eapply codec_messages.
Qed.
Lemma codec_pr : codec e_pr d_pr proper_pr 4.
Proof.
  split.
  - intros [ids| |] Hp; cbn [proper_pr e_pr] in *; unfold tagged.
    + destruct (proj1 codec_ids ids Hp) as [R1 D1]. split; [obj; obj; lift R1|]. unfold d_pr. cbv iota beta. tag. to_fields. done.
    + split; [constructor|reflexivity].
    + split; [constructor|reflexivity].
  - intros v m H. destruct v as [| | | | | |l]; cbn [d_pr] in H; try discriminate H.
    + destruct (String.eqb _ _); [by injection H as <-|]. destruct (String.eqb _ _); [by injection H as <-|discriminate H].
    + tags H. inv_fields H. injection H as <-. by eapply codec_ids.
Qed.
Lemma codec_sr : codec e_sr d_sr proper_sr 4.
Proof.
  pose proof (codec_opt_num U16 ltac:(discriminate)) as Hon. pose proof (codec_num U16 ltac:(discriminate)) as Hn.
  split.
  - intros [s|ws s|ws s|s cs|s|s|s] Hp; cbn [proper_sr e_sr] in *; unfold tagged.
    + destruct s as [n c mn mx b dn ud ds], Hp as (H1 & H2 & H3 & H4).
      cbn [sv_name sv_contract sv_min_workers sv_max_workers sv_min_bond sv_denom sv_unbonding_days sv_description] in *.
      destruct (proj1 codec_str n I) as [R1 D1], (proj1 codec_str c I) as [R2 D2], (proj1 Hn mn H1) as [R3 D3],
        (proj1 Hon mx H2) as [R4 D4], (proj1 (codec_uint U128) b H3) as [R5 D5], (proj1 codec_str dn I) as [R6 D6],
        (proj1 Hn ud H4) as [R7 D7], (proj1 codec_str ds I) as [R8 D8].
      split; [obj; obj; [lift R1|lift R2|lift R3|lift R4|lift R5|lift R6|lift R7|lift R8]|]. unfold d_sr. tag. to_fields. done.
    + destruct (proj1 codec_strs ws I) as [R1 D1], (proj1 codec_str s I) as [R2 D2].
      split; [obj; obj; [lift R1|lift R2]|]. unfold d_sr. tag. to_fields. done.
    + destruct (proj1 codec_strs ws I) as [R1 D1], (proj1 codec_str s I) as [R2 D2].
      split; [obj; obj; [lift R1|lift R2]|]. unfold d_sr. tag. to_fields. done.
    + destruct (proj1 codec_str s I) as [R1 D1], (proj1 codec_chains cs Hp) as [R2 D2].
      split; [obj; obj; [lift R1|lift R2]|]. unfold d_sr. tag. to_fields. done.
    + destruct (proj1 codec_str s I) as [R1 D1]. split; [obj; obj; lift R1|]. unfold d_sr. tag. to_fields. done.
    + destruct (proj1 codec_str s I) as [R1 D1]. split; [obj; obj; lift R1|]. unfold d_sr. tag. to_fields. done.
    + destruct (proj1 codec_str s I) as [R1 D1]. split; [obj; obj; lift R1|]. unfold d_sr. tag. to_fields. done.
  - intros v m H. unfold d_sr in H. tags H; inv_fields H; injection H as <-; cbn [proper_sr]; try exact I.
    + unfold proper_service. cbn [sv_min_workers sv_max_workers sv_min_bond sv_unbonding_days].
      split; [by eapply Hn|]. split; [|split; [by eapply (codec_uint U128)|by eapply Hn]].
      match goal with E : _ = None \/ _ |- _ => destruct E as [-> | (x & _ & Ex)]; [done|] end. by eapply Hon.
    + by eapply codec_chains.
Qed.
