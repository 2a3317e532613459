(** C90: the composed system with the coins of the chain it runs on. *)
From Verif Require Import Base BaseLemmas Text StdModel RouterTypes RegistryTypes OperatorsModel MultisigTypes
  RewardsModel RegistryModel RegistrySpec MultisigModel MultisigExamples EncodingModel EncodingExamples ProverModel ProverExamples SigningExamples
  SystemModel SystemSpec SystemExamples BankModel BankSpec BankProofs2 BankProofs3 BankExamples.

(** With coins a history is one of those C61-C87 are about: the chain after it
    and the calls made are those of the transactions that could be paid. *)
Theorem C90_histories : forall keccak wshash sec1 crypto zero dep b ts, exists txs, txs `sublist_of` (bt_tx <$> ts) /\
  (funded_run keccak wshash sec1 crypto zero dep b ts).1 = sysrun keccak wshash sec1 crypto dep txs /\
  funded_history keccak wshash sec1 crypto zero dep b ts = history keccak wshash sec1 crypto dep txs.
Proof. exact c90_histories. Qed.
Print Assumptions C90_histories.
Example C90_history : length bk_all = 42%nat /\
  length (funded_history ex_keccak ex_wshash ex_sec1 ex_crypto false sys_dep bk_coins bk_all) = 54%nat.
Proof. split; [vm_compute; reflexivity|exact bk_calls]. Qed.

(** A rewards contract holds the coins of all its pools. *)
Theorem C90_rewards_solvent : forall keccak wshash sec1 crypto zero dep b ts a s,
  (funded_run keccak wshash sec1 crypto zero dep b ts).1 !! a = Some (CRewards s) ->
  pooled s <= balance (funded_run keccak wshash sec1 crypto zero dep b ts).2 a (r_denom s).
Proof. exact c90_rewards_solvent. Qed.
Print Assumptions C90_rewards_solvent.
(** A registry holds, in each denomination, all bonds it owes. *)
Theorem C90_registry_solvent : forall keccak wshash sec1 crypto zero dep b ts a s d,
  (funded_run keccak wshash sec1 crypto zero dep b ts).1 !! a = Some (CRegistry s) ->
  owed_in s d <= balance (funded_run keccak wshash sec1 crypto zero dep b ts).2 a d.
Proof. exact c90_registry_solvent. Qed.
Print Assumptions C90_registry_solvent.
(** balances of alice, bob, carol, dave, the donor, the registry, the rewards
    contract; owed by the registry, in the pools *)
Example C90_balances : bk_summary (bk_run false bk_all) = ([80; 30; 0; 0; 0; 407; 40], Some (400, 40)).
Proof. exact bk_end. Qed.

(** If a transaction fails for lack of coins, they are lacking to an account or
    another contract: the modelled contracts can always pay. *)
Theorem C90_only_outsiders_lack : forall keccak wshash sec1 crypto zero dep b ts t a d,
  funded_step keccak wshash sec1 crypto zero (funded_run keccak wshash sec1 crypto zero dep b ts) t = Err (inr (Uncovered a d)) ->
  (funded_run keccak wshash sec1 crypto zero dep b ts).1 !! a = None.
Proof. exact c90_only_outsiders_lack. Qed.
Print Assumptions C90_only_outsiders_lack.
Example C90_donor_lacks : bk_step false (bk_run false bk_before) (alone (pay 300 "donor" "rewards" (BAddRewards "ver-eth") 8)) =
  Err (inr (Uncovered "donor" "uaxl")).
Proof. exact (bk_error_is _ _ bk_uncovered). Qed.
(** If a transaction fails because zero coins are paid, a worker claims a bond
    of zero coins. *)
Theorem C90_zero : forall keccak wshash sec1 crypto zero dep b ts t a,
  funded_step keccak wshash sec1 crypto zero (funded_run keccak wshash sec1 crypto zero dep b ts) t = Err (inr (ZeroPaid a)) ->
  zero = false /\ exists st calls k,
    system_step keccak wshash sec1 crypto (funded_run keccak wshash sec1 crypto zero dep b ts).1 (bt_tx t) = Ok (st, calls) /\
    k ∈ calls /\ k_to k = a /\ zero_claim k.
Proof. exact c90_zero. Qed.
Print Assumptions C90_zero.
(** It happens: who bonded nothing cannot claim it, unless the chain lets
    contracts pay zero coins. *)
Example C90_zero_happens : bk_step false (bk_run false bk_erin) bk_erin_claim = Err (inr (ZeroPaid "registry")) /\
  is_ok (bk_step true (bk_run true bk_erin) bk_erin_claim) = true.
Proof. split; [exact (bk_error_is _ _ (proj1 bk_zero))|exact (proj2 bk_zero)]. Qed.
(** A transaction the contracts accept, to which nobody attached coins and in
    which no others pay, is not refused by the bank, save for those claims. *)
Theorem C90_free : forall keccak wshash sec1 crypto zero dep b ts t st' calls,
  system_step keccak wshash sec1 crypto (funded_run keccak wshash sec1 crypto zero dep b ts).1 (bt_tx t) = Ok (st', calls) ->
  nobody_else t -> Forall (fun k => sb_funds (k_sub k) = []) calls ->
  zero = true \/ Forall (fun k => ~ zero_claim k) calls ->
  exists b', funded_step keccak wshash sec1 crypto zero (funded_run keccak wshash sec1 crypto zero dep b ts) t = Ok (st', b', calls).
Proof. exact c90_free. Qed.
Print Assumptions C90_free.

(** No coins appear or vanish. *)
Theorem C90_supply : forall keccak wshash sec1 crypto zero dep b ts d,
  supply (funded_run keccak wshash sec1 crypto zero dep b ts).2 d = supply b d.
Proof. exact c90_supply. Qed.
Print Assumptions C90_supply.
(** The balances after a transaction are those before it and its payments. *)
Theorem C90_moves : forall keccak wshash sec1 crypto zero s t st' b' calls,
  funded_step keccak wshash sec1 crypto zero s t = Ok (st', b', calls) -> forall a d,
  balance b' a d + moved d (filter (fun m => mv_from m = a) (tx_moves (bt_others t) 0 calls)) =
  balance s.2 a d + moved d (filter (fun m => mv_to m = a) (tx_moves (bt_others t) 0 calls)).
Proof. exact c90_moves. Qed.
Print Assumptions C90_moves.

(** A worker whose unbonding period has passed gets their bond, exactly and
    from the registry, whatever else happened. *)
Theorem C90_claim : forall keccak wshash sec1 crypto zero dep b ts g e w a svc s sv wk n t0,
  (funded_run keccak wshash sec1 crypto zero dep b ts).1 !! a = Some (CRegistry s) ->
  (funded_run keccak wshash sec1 crypto zero dep b ts).1 !! w = None ->
  sr_services s !! svc = Some sv -> sr_workers s !! (svc, w) = Some wk -> w_bond wk = Unbonding n t0 ->
  t0 + period sv <= en_time e -> en_time e < U64 -> 0 < n \/ zero = true ->
  exists st' b' calls,
    funded_step keccak wshash sec1 crypto zero (funded_run keccak wshash sec1 crypto zero dep b ts) (simple g e w a (BClaim svc)) = Ok (st', b', calls) /\
    balance b' w (sv_denom sv) = balance (funded_run keccak wshash sec1 crypto zero dep b ts).2 w (sv_denom sv) + n /\
    balance b' a (sv_denom sv) + n = balance (funded_run keccak wshash sec1 crypto zero dep b ts).2 a (sv_denom sv) /\
    forall x d, (x <> w /\ x <> a) \/ d <> sv_denom sv ->
      balance b' x d = balance (funded_run keccak wshash sec1 crypto zero dep b ts).2 x d.
Proof. exact c90_claim. Qed.
Print Assumptions C90_claim.
Example C90_carol_claims : (exists r sv wk, (bk_run false bk_all).1 !! "registry" = Some (CRegistry r) /\
    sr_services r !! "validators" = Some sv /\ sr_workers r !! ("validators", "carol") = Some wk /\
    sv_denom sv = "uaxl" /\ sv_unbonding_days sv = 7 /\ w_bond wk = Unbonding 100 150) /\
  (bk_run false bk_all).1 !! "carol" = None /\
  bk_summary (bk_run false (bk_all ++ [bk_claim])) = ([80; 30; 100; 0; 0; 307; 40], Some (300, 40)).
Proof.
  split; [exact (bk_can_claim_is _ _ _ _ (proj1 bk_claimable))|]. split; [exact (proj1 (bool_decide_eq_true _) (proj2 bk_claimable))|exact bk_claimed].
Qed.
(** A distribution the rewards contract computes is paid: each worker gets
    their shares, the contract loses what the pool does. *)
Theorem C90_distribute : forall keccak wshash sec1 crypto zero dep b ts g e w a c lim s s' l,
  (funded_run keccak wshash sec1 crypto zero dep b ts).1 !! a = Some (CRewards s) ->
  (funded_run keccak wshash sec1 crypto zero dep b ts).1 !! w = None ->
  rewards_step s (Distribute (en_height e) c lim) = Ok (s', l) ->
  exists st' b' calls,
    funded_step keccak wshash sec1 crypto zero (funded_run keccak wshash sec1 crypto zero dep b ts) (simple g e w a (BDistribute c lim)) = Ok (st', b', calls) /\
    st' !! a = Some (CRewards s') /\
    forall x d, balance b' x d + (if bool_decide (x = a /\ d = r_denom s) then pooled s - pooled s' else 0) =
      balance (funded_run keccak wshash sec1 crypto zero dep b ts).2 x d +
      (if bool_decide (d = r_denom s) then lsum (fun y => if bool_decide (y.1 = x) then y.2 else 0) l else 0).
Proof. exact c90_distribute. Qed.
Print Assumptions C90_distribute.
Example C90_distribution : bk_distribution (bk_run false bk_before).1 = Some [("alice", 30); ("bob", 30)].
Proof. exact bk_distributable. Qed.
