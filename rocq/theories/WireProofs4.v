(** Texts and messages. *)
From Verif Require Import Base BaseLemmas MapLemmas Text TextLemmas StdModel RouterTypes RegistryTypes OperatorsModel MultisigTypes
  EncodingModel VerifierModel RewardsModel RegistryModel RouterModel GatewayModel NexusModel MultisigModel ProverModel
  SystemModel EventsModel JsonModel JsonSpec JsonProofs WireModel WireSpec WireProofs WireProofs2 WireProofs3
  WireSystemModel WireSystemSpec.

(** every variant belongs to one contract, [route_messages] and
    [verify_messages] apart *)
Definition for_rt (b : body) : bool :=
  match b with BRoute _ | BRegisterChain _ _ | BUpgradeGateway _ _ | BFreezeChain _ _ | BUnfreezeChain _ _ => true | _ => false end.
Definition for_gw (b : body) : bool := match b with BRoute _ | BGatewayVerify _ => true | _ => false end.
Definition for_nx (b : body) : bool := match b with BRoute _ | BFromNexus _ => true | _ => false end.
Definition for_vv (b : body) : bool :=
  match b with BVerify _ | BVerifyWorkerSet _ _ | BVote _ _ | BEndPoll _ => true | _ => false end.
Definition for_rw (b : body) : bool :=
  match b with BRecord _ _ | BAddRewards _ | BDistribute _ _ | BUpdateParams _ => true | _ => false end.
Definition for_sr (b : body) : bool :=
  match b with BRegisterService _ | BAuthorize _ _ | BUnauthorize _ _ | BDeclareChains _ _ | BBond _ | BUnbond _ | BClaim _ => true
  | _ => false end.
Definition for_ms (b : body) : bool :=
  match b with BStartSession _ _ _ | BSubmitSignature _ _ | BRegisterWorkerSet _ | BRegisterPublicKey _ _ | BSetCaller _ _ => true
  | _ => false end.
Definition for_pr (b : body) : bool := match b with BProver _ => true | _ => false end.
Definition only (f : body -> bool) (o : option body) : option body :=
  match o with Some b => if f b then Some b else None | None => None end.

Definition agree_on (v : jval) : Prop :=
  b_rt <$> d_rt v = only for_rt (d_body v) /\ b_gw <$> d_gw v = only for_gw (d_body v) /\
  b_nx <$> d_nx v = only for_nx (d_body v) /\ b_vv <$> d_vv v = only for_vv (d_body v) /\
  b_rw <$> d_rw v = only for_rw (d_body v) /\ b_sr <$> d_sr v = only for_sr (d_body v) /\
  b_ms <$> d_ms v = only for_ms (d_body v) /\ BProver <$> d_pr v = only for_pr (d_body v).

Ltac each := repeat match goal with |- _ /\ _ => split end.
Ltac ifs := repeat match goal with
  | |- context [if String.eqb ?a ?b then _ else _] =>
      let r := eval compute in (String.eqb a b) in
      match r with true => idtac | false => idtac end; change (String.eqb a b) with r; cbn iota
  end.
Ltac payload := repeat match goal with
  | |- context [struct ?l ?f ?w] => let E := fresh in destruct (struct l f w) as [?m|] eqn:E; cbn [fmap option_fmap option_map];
       [inv_fields E; injection E as <-|]
  | |- context [d_vec ?f ?w] => destruct (d_vec f w) as [?l|]; cbn [fmap option_fmap option_map]
  end.

Lemma by_variant n w : agree_on (JObj [(n, w)]).
Proof.
  unfold agree_on, d_body, d_rt, d_gw, d_nx, d_vv, d_rw, d_sr, d_ms, d_pr. cbv iota beta.
  change (variant (JObj [(n, w)])) with (Some (n, w)). cbn [mbind option_bind fst snd].
  destruct (String.eqb_spec n "verify_messages") as [->|N0].
  { ifs. cbn [fmap option_fmap option_map]. destruct w; cbn [struct d_vec]; try (each; reflexivity).
    - destruct (d_all d_message l); each; reflexivity.
    - match goal with |- context [if ?b then _ else None] => destruct b end; [|each; reflexivity].
      match goal with |- context [fld ?l ?n ?d ?k] => destruct (fld l n d k) as [m|] eqn:E end; [|each; reflexivity].
      inv_fields E. injection E as <-. each; reflexivity. }
  Ltac one N := match goal with |- context [String.eqb ?n ?b] => is_var n;
    destruct (String.eqb_spec n b) as [->|N]; [ifs; payload; each; reflexivity|] end.
  do 27 (let N := fresh "N" in one N).
  each; reflexivity.
Qed.
Lemma agrees v : agree_on v.
Proof.
  destruct v as [| | | |s|l|[|[n w] [|p l]]]; try (unfold agree_on; each; reflexivity); [|apply by_variant].
  unfold agree_on, d_body, d_rt, d_gw, d_nx, d_vv, d_rw, d_sr, d_ms. cbn [variant mbind option_bind fmap option_fmap option_map orelse].
  unfold d_pr. destruct (String.eqb s "update_worker_set"); [each; reflexivity|].
  destruct (String.eqb s "confirm_worker_set"); each; reflexivity.
Qed.
