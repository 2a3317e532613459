(** Prices and fees of concrete configurations, and what the theorems combine to. *)
From Verif Require Import Base BaseLemmas Text QueueModel BroadcasterModel BroadcasterSpec BroadcasterExamples
  FeeModel FeeSpec FeeProofs FeeProofs2 FeeProofs3 FeeProofs4.

Ltac each := repeat match goal with |- _ /\ _ => split end.

(** the check of cosmrs, as the tests of dec_coin.rs use it *)
Fixpoint ex_denom_ok (s : string) : bool :=
  match s with
  | EmptyString => true
  | String c r => (is_numeric c || is_alphabetic c || Ascii.eqb c "/") && ex_denom_ok r
  end.

Lemma ex_price_reads : dec_coin_of_text ex_denom_ok "0.00005uaxl" = Ok {| dc_denom := "uaxl"; dc_amount := default_price |}.
Proof. vm_compute. reflexivity. Qed.
Lemma ex_price_rest :
  dec_coin_of_text ex_denom_ok "10a0u/axl" = Ok {| dc_denom := "a0u/axl"; dc_amount := decimal false 10 0 |} /\
  dec_coin_of_text ex_denom_ok "10a0u/-xl" = Err CParsingFailed /\
  dec_coin_of_text ex_denom_ok "uaxl6" = Err CParsingFailed /\
  dec_coin_of_text ex_denom_ok "-1uaxl" = Err CParsingFailed /\
  dec_coin_new ex_denom_ok FNan "uaxl" = Err CAmountIsNaN /\
  dec_coin_new ex_denom_ok default_price "" = Err CDenomIsEmpty /\
  dec_coin_of_proto ex_denom_ok "uaxl" "NaN" = Err CAmountIsNaN /\
  dec_coin_of_proto ex_denom_ok "uaxl" "1e-3" = Ok {| dc_denom := "uaxl"; dc_amount := decimal false 1 (-3) |}.
Proof. each; vm_compute; reflexivity. Qed.
Lemma ex_decimal_text : decimal_text "0.00005" 5 5 /\ starts_with_letter "uaxl" /\ ex_denom_ok "uaxl" = true.
Proof.
  split; [|split; [by exists "u"%char, "axl"|done]]. exists "0", "00005". split; [done|]. split; [done|]. split; [done|]. by left.
Qed.

(** one more than needed is paid *)
Lemma ex_above : 100 * 7 < 2 ^ 51 /\ fee_amount (decimal false 7 (-2)) 100 = 8 /\ div_up (100 * 7) (10 ^ 2) = 7.
Proof. each; vm_compute; reflexivity. Qed.
(** less than needed is paid *)
Lemma fee_below : exists n k limit, k <= 300 /\ 0 < n /\ limit < 2 ^ 53 /\
  fee_amount (decimal false n (- Z.of_N k)) limit < div_up (limit * n) (10 ^ k).
Proof. exists 100000000000000001, 18, 10. each; vm_compute; try reflexivity; discriminate. Qed.
Lemma limit_below : exists gas, gas < U64 /\ gas_limit default_adjustment gas < gas.
Proof. exists (2 ^ 53 + 1). split; vm_compute; reflexivity. Qed.

(** coins that are not read back *)
Lemma coin_lost : exists c c' : dec_coin,
  dec_coin_new ex_denom_ok (dc_amount c) (dc_denom c) = Ok c /\
  dec_coin_text (fun _ => "10") c = "100uaxl" /\ parse_f64 "10" = Some (dc_amount c) /\
  dec_coin_of_text ex_denom_ok "100uaxl" = Ok c' /\ dc_amount c' <> dc_amount c.
Proof.
  exists {| dc_denom := "0uaxl"; dc_amount := decimal false 10 0 |}, {| dc_denom := "uaxl"; dc_amount := decimal false 100 0 |}.
  each; try (vm_compute; reflexivity). vm_compute. intros H. discriminate H.
Qed.
Lemma coin_negative : exists c : dec_coin,
  dec_coin_new ex_denom_ok (dc_amount c) (dc_denom c) = Ok c /\ parse_f64 "-1" = Some (dc_amount c) /\
  dec_coin_of_text ex_denom_ok (dec_coin_text (fun _ => "-1") c) = Err CParsingFailed.
Proof. exists {| dc_denom := "uaxl"; dc_amount := decimal true 1 0 |}. each; vm_compute; reflexivity. Qed.

Lemma fee_zero p m e : to_uint U128 (fceil (fmul (of_N 0) (FFin p m e))) = 0.
Proof.
  assert (of_N 0 = FFin false 0 0) as -> by (by vm_compute). cbn [fmul xorb]. rewrite !N.mul_0_l. destruct p; by vm_compute.
Qed.
Lemma bad_adjustment adj p m e gas : match adj with FNan | FInf true | FFin true _ _ => True | _ => False end ->
  configured_fee adj (FFin p m e) gas = {| f_amount := 0; f_gas := 0 |}.
Proof. intros H. unfold configured_fee, fee_amount. rewrite (limit_bad adj gas H). by rewrite fee_zero. Qed.

Lemma fee_default_all gas : gas * 5 < 2 ^ 51 ->
  configured_fee default_adjustment default_price gas = {| f_amount := div_up gas 20000; f_gas := gas |}.
Proof.
  intros H. unfold configured_fee. rewrite limit_default.
  2: { change (2 ^ 53) with (4 * 2 ^ 51). lia. }
  by rewrite fee_default.
Qed.
Lemma fee_enough n k limit : k <= 300 -> 0 < n -> limit * n < 2 ^ 51 ->
  limit * n <= fee_amount (decimal false n (- Z.of_N k)) limit * 10 ^ k.
Proof.
  intros Hk Hn Hl. assert (HD : 0 < 10 ^ k) by (apply N.neq_0_lt_0, N.pow_nonzero; done).
  destruct (fee_pays n k limit Hk Hn Hl) as [->|[Hm ->]]; [by apply div_up_spec|].
  pose proof (N.div_mod (limit * n) (10 ^ k) ltac:(lia)) as Hd. rewrite Hm in Hd. lia.
Qed.
Lemma transactions_fee W M simulate sign broadcast_tx get_tx cfg adj n k (c : client (W:=W) (M:=M)) rs c' alive l1 t a l2 :
  (forall g, bc_fee cfg g = configured_fee adj (decimal false n (- Z.of_N k)) g) -> cl_log c = [] ->
  requests simulate sign broadcast_tx get_tx cfg c rs = (c', alive) -> cl_log c' = l1 ++ RBroadcast t a :: l2 ->
  exists l0 g, l1 = l0 ++ [RSimulate (dummy_tx (tx_msgs t) (tx_seq t)) (Some (Some g)); RSign t true] /\
    (g < 2 ^ 53 -> at_least adj 1 1 -> g <= f_gas (tx_fee t)) /\
    (k <= 300 -> 0 < n -> f_gas (tx_fee t) * n < 2 ^ 51 -> f_gas (tx_fee t) * n <= f_amount (tx_fee t) * 10 ^ k).
Proof.
  intros Hfee H0 Hr Hl. destruct (transactions_paid _ _ _ _ _ _ _ _ _ _ _ _ _ H0 Hr Hl) as (l0 & g & -> & Hf).
  exists l0, g. rewrite Hf, Hfee. cbn [configured_fee f_gas f_amount]. split; [done|]. split.
  - intros Hg Ha. by apply limit_covers.
  - apply fee_enough.
Qed.

Definition ex_paying : bconfig :=
  {| bc_chain := "axelar-dojo-1"; bc_acc := 7; bc_max_retries := 2; bc_fee := configured_fee default_adjustment default_price |}.
Lemma ex_paying_run :
  requests ex_simulate ex_sign ex_broadcast_tx ex_get_tx ex_paying (ex_client [TCode 0]) [ReqBroadcast [1]] =
  ({| cl_seq := 12; cl_world := [];
      cl_log := let t := {| tx_msgs := [1]; tx_fee := {| f_amount := 1; f_gas := 100 |}; tx_seq := 11; tx_chain := "axelar-dojo-1"; tx_acc := 7 |} in
        [RSimulate (dummy_tx [1] 11) (Some (Some 100)); RSign t true; RBroadcast t (Some "hash"); RGetTx "hash" (TCode 0)] |}, true).
Proof. vm_compute. reflexivity. Qed.

Lemma ex_rounding : round false 7 100 = FFin false 5044031582654956 1018 /\ round false (2 ^ 53 + 1) 1 = FFin false (2 ^ 52) 1075.
Proof. split; vm_compute; reflexivity. Qed.
Lemma ex_one_half : decimal false 15 (-1) = FFin false 6755399441055744 1022.
Proof. vm_compute. reflexivity. Qed.
Lemma ex_one_half_at_least : at_least (FFin false 6755399441055744 1022) 1 1.
Proof. cbn [at_least]. apply N.leb_le. vm_compute. reflexivity. Qed.
Lemma ex_adjustment : at_least (decimal false 15 (-1)) 1 1 /\ gas_limit (decimal false 15 (-1)) 100001 = 150001.
Proof. rewrite ex_one_half. split; [exact ex_one_half_at_least|vm_compute; reflexivity]. Qed.
