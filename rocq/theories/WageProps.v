(** C101: workers are paid for their work, and for nothing else. *)
From stdpp Require Import sorting.
From Verif Require Import Base BaseLemmas Text StdModel RouterTypes RegistryTypes OperatorsModel MultisigTypes
  RewardsModel RewardsSpec RegistryModel VerifierModel MultisigModel MultisigExamples EncodingModel EncodingExamples ProverModel ProverExamples SigningExamples
  SystemModel SystemSpec SystemExamples DeliverySpec BankModel BankSpec BankExamples WageSpec WageProofs WageProofs2 WageExamples.

(** Polls: over the whole history of a system in block order, the coins a
    rewards contract has sent to anybody for a verifier's polls are the wages of
    the epochs paid so far, told from the votes and ends of polls alone. *)
Theorem C101_polls : forall keccak wshash sec1 crypto zero dep b ts V vc g0 d0 p0 h0,
  dep !! V = Some (DVerifier vc) -> dep !! vc_rewards vc = Some (DRewards g0 d0 p0 h0) ->
  let i := {| ri_gov := g0; ri_denom := d0; ri_params := p0; ri_height := h0 |} in
  let l := funded_history keccak wshash sec1 crypto zero dep b ts in
  let ops := rewards_ops (vc_rewards vc) l in
  valid_rinit i -> Forall valid_rop ops -> in_blocks (bt_tx <$> ts) ->
  exists s wages, (funded_run keccak wshash sec1 crypto zero dep b ts).1 !! vc_rewards vc = Some (CRewards s) /\
    (forall n x, wage (poll_attended V l) i ops V n x (wages n x)) /\
    forall x, coins_paid (vc_rewards vc) V x l = lsum (fun n => wages n x) (between 0 (next_epoch s V)).
Proof. exact c101_polls. Qed.
Print Assumptions C101_polls.
Example C101_in_order : in_blocks (bt_tx <$> bk_all) /\ valid_rinit sys_ri /\ Forall valid_rop (rewards_ops "rewards" (wg_history bk_all)) /\
  (fun x => coins_paid "rewards" "ver-eth" x (wg_history bk_all)) <$> ["alice"; "bob"; "carol"; "dave"] = [30; 30; 0; 0] /\
  wg_next (bk_run false bk_all).1 "ver-eth" = Some 2.
Proof. split; [exact wg_blocks|]. split; [exact (proj1 wg_valid)|]. split; [exact (proj2 wg_valid)|]. exact wg_coins. Qed.
Example C101_wages : let l := wg_history bk_all in
  wage (poll_attended "ver-eth" l) sys_ri (rewards_ops "rewards" l) "ver-eth" 0 "alice" 30 /\
  wage (poll_attended "ver-eth" l) sys_ri (rewards_ops "rewards" l) "ver-eth" 0 "carol" 0.
Proof. exact wg_wages. Qed.

(** A wage is one number. *)
Theorem C101_wage_unique : forall att i ops c n w v v', wage att i ops c n w v -> wage att i ops c n w v' -> v = v'.
Proof. exact wage_unique. Qed.
Print Assumptions C101_wage_unique.

(** A distribution the contract alone accepts is carried out, whoever asks; it
    pays at least one epoch, and adds to everybody's coins their wages of the
    epochs paid, and nothing else. For polls and for signing sessions. *)
Theorem C101_poll_distribution : forall keccak wshash sec1 crypto zero dep b ts V vc g0 d0 p0 h0,
  dep !! V = Some (DVerifier vc) -> dep !! vc_rewards vc = Some (DRewards g0 d0 p0 h0) ->
  let i := {| ri_gov := g0; ri_denom := d0; ri_params := p0; ri_height := h0 |} in
  let l := funded_history keccak wshash sec1 crypto zero dep b ts in
  let st := funded_run keccak wshash sec1 crypto zero dep b ts in
  let R := vc_rewards vc in
  valid_rinit i -> Forall valid_rop (rewards_ops R l) ->
  forall g e a lim s s' out, st.1 !! R = Some (CRewards s) -> st.1 !! a = None ->
  rewards_step s (Distribute (en_height e) V lim) = Ok (s', out) ->
  exists st' b' calls wages, funded_step keccak wshash sec1 crypto zero st (simple g e a R (BDistribute V lim)) = Ok (st', b', calls) /\
    st' !! R = Some (CRewards s') /\ next_epoch s V < next_epoch s' V /\
    (forall n x, wage (poll_attended V l) i (rewards_ops R l) V n x (wages n x)) /\
    (forall x, x <> R -> balance b' x d0 = balance st.2 x d0 +
      lsum (fun n => wages n x) (between (next_epoch s V) (next_epoch s' V))) /\
    forall x d, d <> d0 -> balance b' x d = balance st.2 x d.
Proof. exact c101_poll_distribution. Qed.
Print Assumptions C101_poll_distribution.
Theorem C101_session_distribution : forall keccak wshash sec1 crypto zero dep b ts M gv R gr g0 d0 p0 h0,
  dep !! M = Some (DMultisig gv R gr) -> dep !! R = Some (DRewards g0 d0 p0 h0) ->
  let i := {| ri_gov := g0; ri_denom := d0; ri_params := p0; ri_height := h0 |} in
  let l := funded_history keccak wshash sec1 crypto zero dep b ts in
  let st := funded_run keccak wshash sec1 crypto zero dep b ts in
  valid_rinit i -> Forall valid_rop (rewards_ops R l) ->
  forall g e a lim s s' out, st.1 !! R = Some (CRewards s) -> st.1 !! a = None ->
  rewards_step s (Distribute (en_height e) M lim) = Ok (s', out) ->
  exists st' b' calls wages, funded_step keccak wshash sec1 crypto zero st (simple g e a R (BDistribute M lim)) = Ok (st', b', calls) /\
    st' !! R = Some (CRewards s') /\ next_epoch s M < next_epoch s' M /\
    (forall n x, wage (session_attended M l) i (rewards_ops R l) M n x (wages n x)) /\
    (forall x, x <> R -> balance b' x d0 = balance st.2 x d0 +
      lsum (fun n => wages n x) (between (next_epoch s M) (next_epoch s' M))) /\
    forall x d, d <> d0 -> balance b' x d = balance st.2 x d.
Proof. exact c101_session_distribution. Qed.
Print Assumptions C101_session_distribution.
Example C101_distributable : bk_distribution (bk_run false bk_before).1 = Some [("alice", 30); ("bob", 30)].
Proof. exact bk_distributable. Qed.

(** The rewards contract alone: if every event is reported at one height, what
    somebody was paid is what the epochs paid owe them now: a paid epoch does
    not change any more. *)
Theorem C101_total : forall i ops c w, valid_rinit i -> Forall valid_rop ops -> StronglySorted N.le (heights ops) -> one_height ops c ->
  got c w (rlog i ops) = lsum (fun n => owed (rrun i ops) c n w) (between 0 (next_epoch (rrun i ops) c)).
Proof. exact c101_total. Qed.
Print Assumptions C101_total.

(** For signing sessions this is false: who signs after the epoch of the
    session's first signature was paid gets nothing for it. *)
Theorem C101_late_signature_refuted : exists keccak wshash sec1 crypto zero dep b ts M gv R gr g0 d0 p0 h0 s x v,
  dep !! M = Some (DMultisig gv R gr) /\ dep !! R = Some (DRewards g0 d0 p0 h0) /\
  let i := {| ri_gov := g0; ri_denom := d0; ri_params := p0; ri_height := h0 |} in
  let l := funded_history keccak wshash sec1 crypto zero dep b ts in
  let ops := rewards_ops R l in
  valid_rinit i /\ Forall valid_rop ops /\ in_blocks (bt_tx <$> ts) /\
  (funded_run keccak wshash sec1 crypto zero dep b ts).1 !! R = Some (CRewards s) /\ 0 < next_epoch s M /\
  wage (session_attended M l) i ops M 0 x v /\ 0 < v /\ coins_paid R M x l = 0.
Proof.
  destruct wg_late_paid as (s & Hs & Hn).
  exists ex_keccak, ex_wshash, ex_sec1, ex_crypto, false, sys_dep, bk_coins, wg_late, "multisig", "gov", "rewards", 10, "gov", "uaxl", sys_rp, 1, s, "bob", 30.
  split; [vm_compute; reflexivity|]. split; [vm_compute; reflexivity|]. cbn zeta.
  split; [exact (proj1 wg_late_valid)|]. split; [exact (proj2 wg_late_valid)|]. split; [exact wg_late_blocks|].
  split; [exact Hs|]. split; [rewrite Hn; reflexivity|]. split; [exact wg_late_wages|]. split; [reflexivity|].
  exact (f_equal (fun l => nth 1 l 0) wg_late_coins).
Qed.
Print Assumptions C101_late_signature_refuted.
