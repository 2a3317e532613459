(** The history of SystemExamples with coins, and a worker without a bond. *)
From Verif Require Import Base BaseLemmas Text StdModel RouterTypes RegistryTypes OperatorsModel MultisigTypes
  RouterModel RouterSpec GatewayModel GatewaySpec NexusModel RewardsModel RewardsSpec RegistryModel RegistrySpec VerifierModel VerifierSpec
  MultisigModel MultisigSpec MultisigExamples EncodingModel EncodingSpec EncodingExamples ProverModel ProverSpec ProverExamples
  SigningModel SigningSpec SigningExamples SystemModel SystemSpec SystemProofs6 SystemExamples BankModel BankSpec.

Definition bk_coins : bank := list_to_map [
  (("alice", "uaxl"), 150); (("bob", "uaxl"), 100); (("carol", "uaxl"), 100); (("dave", "uaxl"), 100); (("donor", "uaxl"), 107)].
Definition alone (t : tx) : btx := {| bt_tx := t; bt_others := fun _ => [] |}.
Notation bk_step zero := (funded_step ex_keccak ex_wshash ex_sec1 ex_crypto zero).
Notation bk_run zero ts := (funded_run ex_keccak ex_wshash ex_sec1 ex_crypto zero sys_dep bk_coins ts).
(** the donor also sends seven coins to the registry, which nobody owns *)
Definition bk_all : list btx := (alone <$> sys_all) ++
  [{| bt_tx := send 320 "anyone" "router" (BFreezeChain "sui" DOutgoing);
      bt_others := fun n => match n with O => [{| mv_from := "donor"; mv_to := "registry"; mv_denom := "uaxl"; mv_amount := 7 |}] | _ => [] end |};
   {| bt_tx := send 320 "admin" "router" (BFreezeChain "sui" DOutgoing);
      bt_others := fun n => match n with O => [{| mv_from := "donor"; mv_to := "registry"; mv_denom := "uaxl"; mv_amount := 7 |}] | _ => [] end |}].
Definition registry_of (st : chain) : option srstate :=
  match st !! "registry" with Some (CRegistry g) => Some g | _ => None end.
Lemma registry_found st s : registry_of st = Some s -> st !! "registry" = Some (CRegistry s).
Proof. unfold registry_of. destruct (st !! "registry") as [[]|]; congruence. Qed.
Lemma rewards_found st s : rewards_of st = Some s -> st !! "rewards" = Some (CRewards s).
Proof. unfold rewards_of. destruct (st !! "rewards") as [[]|]; congruence. Qed.

Definition bk_summary (s : chain * bank) : list N * option (N * N) :=
  ((fun a => balance s.2 a "uaxl") <$> ["alice"; "bob"; "carol"; "dave"; "donor"; "registry"; "rewards"],
   match registry_of s.1, rewards_of s.1 with Some r, Some w => Some (owed_in r "uaxl", pooled w) | _, _ => None end).
Lemma bk_end : bk_summary (bk_run false bk_all) = ([80; 30; 0; 0; 0; 407; 40], Some (400, 40)).
Proof. vm_compute. reflexivity. Qed.
Lemma bk_calls : length (funded_history ex_keccak ex_wshash ex_sec1 ex_crypto false sys_dep bk_coins bk_all) = 54%nat.
Proof. vm_compute. reflexivity. Qed.

(** carol, after seven days *)
Definition bk_days : env :=
  {| en_height := 400; en_time := 150 + 7 * 86400000000000; en_other := fun _ => None; en_is_verified := fun _ _ _ => None;
     en_set_verified := fun _ _ _ => None; en_messages := fun _ _ _ => None; en_active := fun _ _ _ _ => None;
     en_key := fun _ _ _ _ => None |}.
Definition bk_claim : btx := simple 0 bk_days "carol" "registry" (BClaim "validators").
Definition bk_can_claim (s : chain * bank) : option (string * N * bonding_state) :=
  match registry_of s.1 with
  | Some s => match sr_services s !! "validators", sr_workers s !! ("validators", "carol") with
              | Some sv, Some w => Some (sv_denom sv, sv_unbonding_days sv, w_bond w)
              | _, _ => None
              end
  | None => None
  end.
Lemma bk_can_claim_is s d n w : bk_can_claim s = Some (d, n, w) -> exists r sv wk, s.1 !! "registry" = Some (CRegistry r) /\
  sr_services r !! "validators" = Some sv /\ sr_workers r !! ("validators", "carol") = Some wk /\
  sv_denom sv = d /\ sv_unbonding_days sv = n /\ w_bond wk = w.
Proof.
  unfold bk_can_claim. destruct (registry_of s.1) as [r|] eqn:E; [|done]. apply registry_found in E.
  destruct (sr_services r !! "validators") as [sv|] eqn:E1; [|done].
  destruct (sr_workers r !! ("validators", "carol")) as [wk|] eqn:E2; [|done]. intros [= <- <- <-]. eauto 10.
Qed.
Lemma bk_claimable : bk_can_claim (bk_run false bk_all) = Some ("uaxl", 7, Unbonding 100 150) /\
  bool_decide ((bk_run false bk_all).1 !! "carol" = None) = true.
Proof. split; vm_compute; reflexivity. Qed.
Lemma bk_claimed : bk_summary (bk_run false (bk_all ++ [bk_claim])) = ([80; 30; 100; 0; 0; 307; 40], Some (300, 40)).
Proof. vm_compute. reflexivity. Qed.

(** distributing, before it is done *)
Definition bk_before : list btx := alone <$> take 39 sys_all.
Definition bk_distribution (st : chain) : option (list (addr * N)) :=
  match rewards_of st with
  | Some s => match rewards_step s (Distribute 310 "ver-eth" None) with Ok (_, l) => Some l | _ => None end
  | None => None
  end.
Lemma bk_distributable : bk_distribution (bk_run false bk_before).1 = Some [("alice", 30); ("bob", 30)].
Proof. vm_compute. reflexivity. Qed.

(** who cannot pay: the donor, more than they have; erin, for a bond they do
    not have *)
Definition bk_error (r : res (syserror + berror) (chain * bank * list call)) : option berror :=
  match r with Err (inr e) => Some e | _ => None end.
Lemma bk_error_is r e : bk_error r = Some e -> r = Err (inr e).
Proof. destruct r as [?|[?|?]|]; cbn; congruence. Qed.
Lemma bk_uncovered :
  bk_error (bk_step false (bk_run false bk_before) (alone (pay 300 "donor" "rewards" (BAddRewards "ver-eth") 8))) = Some (Uncovered "donor" "uaxl").
Proof. vm_compute. reflexivity. Qed.

(** erin joins without a bond, and leaves *)
Definition bk_erin : list btx := alone <$>
  [send 1 "gov" "registry" (BRegisterService sys_service); send 2 "erin" "registry" (BBond "validators");
   send 30 "erin" "registry" (BUnbond "validators")].
Definition bk_erin_claim : btx := simple 0 bk_days "erin" "registry" (BClaim "validators").
Lemma bk_zero :
  bk_error (bk_step false (bk_run false bk_erin) bk_erin_claim) = Some (ZeroPaid "registry") /\
  is_ok (bk_step true (bk_run true bk_erin) bk_erin_claim) = true.
Proof. split; vm_compute; reflexivity. Qed.
