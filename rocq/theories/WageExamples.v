(** Wages in the history of BankExamples, and a signature that comes too late. *)
From stdpp Require Import sorting.
From Verif Require Import Base BaseLemmas Text StdModel RouterTypes RegistryTypes OperatorsModel MultisigTypes
  RouterModel RouterSpec GatewayModel GatewaySpec NexusModel RewardsModel RewardsSpec RegistryModel RegistrySpec VerifierModel VerifierSpec
  MultisigModel MultisigSpec MultisigExamples EncodingModel EncodingSpec EncodingExamples ProverModel ProverSpec ProverExamples
  SigningModel SigningSpec SigningExamples SystemModel SystemSpec SystemProofs6 SystemProofs8 SystemExamples DeliverySpec DeliveryExamples
  BankModel BankSpec BankProofs2 BankExamples WageSpec WageProofs WageProofs2.

Notation wg_history ts := (funded_history ex_keccak ex_wshash ex_sec1 ex_crypto false sys_dep bk_coins ts).

(** ** Poll 1 at ethereum: alice and bob voted as the poll ended, carol did not *)
Lemma wg_ops : rewards_ops "rewards" (wg_history bk_all) = rewards_ops "rewards" (sys_history sys_all).
Proof. rewrite sys_valid_ops. vm_compute. reflexivity. Qed.
Lemma wg_blocks : in_blocks (bt_tx <$> bk_all).
Proof. apply (blocks_checked 1). vm_compute. reflexivity. Qed.
Lemma wg_valid : valid_rinit sys_ri /\ Forall valid_rop (rewards_ops "rewards" (wg_history bk_all)).
Proof. rewrite wg_ops. exact sys_valid. Qed.
Definition wg_next (st : chain) (c : addr) : option N := (fun s => next_epoch s c) <$> rewards_of st.
Lemma wg_coins : (fun x => coins_paid "rewards" "ver-eth" x (wg_history bk_all)) <$> ["alice"; "bob"; "carol"; "dave"] = [30; 30; 0; 0] /\
  wg_next (bk_run false bk_all).1 "ver-eth" = Some 2.
Proof. split; vm_compute; reflexivity. Qed.
Lemma wg_wages : let l := wg_history bk_all in
  wage (poll_attended "ver-eth" l) sys_ri (rewards_ops "rewards" l) "ver-eth" 0 "alice" 30 /\
  wage (poll_attended "ver-eth" l) sys_ri (rewards_ops "rewards" l) "ver-eth" 0 "carol" 0.
Proof.
  cbn zeta. destruct wg_valid as [Hi Hops].
  assert (Ho : RewardsSpec.owed (rrun sys_ri (rewards_ops "rewards" (wg_history bk_all))) "ver-eth" 0 "alice" = 30 /\
               RewardsSpec.owed (rrun sys_ri (rewards_ops "rewards" (wg_history bk_all))) "ver-eth" 0 "carol" = 0).
  { rewrite wg_ops, sys_valid_ops. split; vm_compute; reflexivity. }
  destruct Ho as [Ha Hc].
  assert (HV : sys_dep !! "ver-eth" = Some (DVerifier (sys_vc "ethereum"))) by reflexivity.
  assert (HR : sys_dep !! vc_rewards (sys_vc "ethereum") = Some (DRewards "gov" "uaxl" sys_rp 1)) by reflexivity.
  destruct (c90_histories ex_keccak ex_wshash ex_sec1 ex_crypto false sys_dep bk_coins bk_all) as (txs & _ & _ & E).
  destruct (c82_polls ex_keccak ex_wshash ex_sec1 ex_crypto sys_dep txs _ _ _ _ _ _ HV HR) as (Hrec & Hnd & _). rewrite <- E in Hrec, Hnd.
  split; [rewrite <- Ha|rewrite <- Hc]; apply owed_wage; assumption.
Qed.

(** ** Session 1: alice signs in epoch 0, which is paid in epoch 3; bob signs then *)
Definition wg_late : list btx := alone <$>
  (sys_setup ++ sys_voting ++ sys_routing ++ take 2 sys_proving ++
   [pay 300 "donor" "rewards" (BAddRewards "multisig") 100; send 310 "anyone" "rewards" (BDistribute "multisig" None);
    send 320 "bob" "multisig" (BSubmitSignature 1 (repeat_char 64 "t"))]).
Lemma wg_late_ops : rewards_ops "rewards" (wg_history wg_late) =
  [Record_ 20 "ver-eth" "1" "alice"; Record_ 20 "ver-eth" "1" "bob"; Record_ 23 "multisig" "1" "alice";
   AddRewards "multisig" [("uaxl", 100)]; Distribute 310 "multisig" None; Record_ 320 "multisig" "1" "bob"].
Proof. vm_compute. reflexivity. Qed.
Lemma wg_late_blocks : in_blocks (bt_tx <$> wg_late).
Proof. apply (blocks_checked 1). vm_compute. reflexivity. Qed.
Lemma wg_late_valid : valid_rinit sys_ri /\ Forall valid_rop (rewards_ops "rewards" (wg_history wg_late)).
Proof.
  split; [apply sys_valid|]. rewrite wg_late_ops.
  repeat constructor; cbn; try (intros h [= <-]; by vm_compute); done.
Qed.
Lemma wg_late_coins : (fun x => coins_paid "rewards" "multisig" x (wg_history wg_late)) <$> ["alice"; "bob"] = [60; 0].
Proof. vm_compute. reflexivity. Qed.
Lemma wg_late_owed : RewardsSpec.owed (rrun sys_ri
  [Record_ 20 "ver-eth" "1" "alice"; Record_ 20 "ver-eth" "1" "bob"; Record_ 23 "multisig" "1" "alice";
   AddRewards "multisig" [("uaxl", 100)]; Distribute 310 "multisig" None; Record_ 320 "multisig" "1" "bob"]) "multisig" 0 "bob" = 30.
Proof. vm_compute. reflexivity. Qed.
Lemma wg_late_wages : let l := wg_history wg_late in
  wage (session_attended "multisig" l) sys_ri (rewards_ops "rewards" l) "multisig" 0 "bob" 30.
Proof.
  assert (HM : sys_dep !! "multisig" = Some (DMultisig "gov" "rewards" 10)) by (vm_compute; reflexivity).
  assert (HR : sys_dep !! "rewards" = Some (DRewards "gov" "uaxl" sys_rp 1)) by (vm_compute; reflexivity).
  pose proof wg_late_valid as [Hi Hops]. pose proof wg_late_ops as Eo.
  destruct (c90_histories ex_keccak ex_wshash ex_sec1 ex_crypto false sys_dep bk_coins wg_late) as (txs & _ & _ & E).
  cbn zeta. revert Hops Eo E. generalize (wg_history wg_late). intros l Hops Eo E.
  pose proof (c82_sessions ex_keccak ex_wshash ex_sec1 ex_crypto sys_dep txs _ _ _ _ _ _ _ _ HM HR) as Hs. cbn zeta in Hs.
  rewrite <- E in Hs. change {| ri_gov := "gov"; ri_denom := "uaxl"; ri_params := sys_rp; ri_height := 1 |} with sys_ri in Hs.
  destruct Hs as (Hrec & Hnd & _).
  pose proof (owed_wage (session_attended "multisig" l) sys_ri (rewards_ops "rewards" l) "multisig" 0 "bob" Hi Hops Hrec Hnd) as Hw.
  pose proof wg_late_owed as Ha. rewrite <- Eo in Ha. rewrite Ha in Hw. exact Hw.
Qed.
Lemma wg_late_next : wg_next (bk_run false wg_late).1 "multisig" = Some 2.
Proof. vm_compute. reflexivity. Qed.
Lemma wg_next_is st c n : wg_next st c = Some n -> exists s, st !! "rewards" = Some (CRewards s) /\ next_epoch s c = n.
Proof.
  unfold wg_next. destruct (rewards_of st) as [s|] eqn:E; [|discriminate].
  apply rewards_found in E. intros [= <-]. eauto.
Qed.
Lemma wg_late_paid : exists s, (bk_run false wg_late).1 !! "rewards" = Some (CRewards s) /\ next_epoch s "multisig" = 2.
Proof. exact (wg_next_is _ _ _ wg_late_next). Qed.
