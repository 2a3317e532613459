(** C95, C96: gas limits and fees of a worker's transactions; the price. *)
From Verif Require Import Base Text QueueModel BroadcasterModel BroadcasterSpec BroadcasterExamples FeeModel FeeSpec
  FeeProofs FeeProofs2 FeeProofs3 FeeProofs4 FeeExamples.

(** The arithmetic is that of f64: a fraction becomes the nearest f64, one
    with an even mantissa if two are as near. *)
Theorem C95_rounding : forall n d x y, 0 < d -> round false n d = x -> x <> FInf false -> is_f64 y ->
  is_f64 x /\
  forall dx dy, distance x n d = Some dx -> distance y n d = Some dy ->
    dx <= dy /\ (dx = dy -> forall m e m' e', x = FFin false m e -> y = FFin false m' e' -> m * 2 ^ e = m' * 2 ^ e' \/ N.even m = true).
Proof. exact round_nearest. Qed.
Print Assumptions C95_rounding.
Example C95_ex_rounding : round false 7 100 = FFin false 5044031582654956 1018 /\ round false (2 ^ 53 + 1) 1 = FFin false (2 ^ 52) 1075.
Proof. exact ex_rounding. Qed.

(** With an adjustment of at least 1 the gas limit covers the gas used in the
    simulation, below 2^53. *)
Theorem C95_limit_covers : forall adj gas, at_least adj 1 1 -> gas < 2 ^ 53 -> gas <= gas_limit adj gas.
Proof. exact limit_covers. Qed.
Print Assumptions C95_limit_covers.
Example C95_ex_adjustment : at_least (decimal false 15 (-1)) 1 1 /\ gas_limit (decimal false 15 (-1)) 100001 = 150001.
Proof. exact ex_adjustment. Qed.

(** In general it is the product, rounded up or down. *)
Theorem C95_limit_lower : forall adj a b gas, 0 < b -> gas < 2 ^ 53 -> at_least adj a b -> gas * a / b < 2 ^ 53 ->
  gas * a / b <= gas_limit adj gas.
Proof. exact limit_ge. Qed.
Print Assumptions C95_limit_lower.
Theorem C95_limit_upper : forall adj a b gas, 0 < b -> gas < 2 ^ 53 -> at_most adj a b -> div_up (gas * a) b < 2 ^ 53 ->
  gas_limit adj gas <= div_up (gas * a) b.
Proof. exact limit_le. Qed.
Print Assumptions C95_limit_upper.

(** Above 2^53 it may be less than the gas used, with an adjustment of 1. *)
Theorem C95_limit_covers_refuted : exists gas, gas < U64 /\ gas_limit default_adjustment gas < gas.
Proof. exact limit_below. Qed.
Print Assumptions C95_limit_covers_refuted.

(** Nothing stops a configured adjustment that is negative or not a number:
    all transactions then have no gas. *)
Theorem C95_bad_adjustment : forall adj p m e gas,
  match adj with FNan | FInf true | FFin true _ _ => True | _ => False end ->
  configured_fee adj (FFin p m e) gas = {| f_amount := 0; f_gas := 0 |}.
Proof. exact bad_adjustment. Qed.
Print Assumptions C95_bad_adjustment.

(** The fee is the price of the gas limit, rounded up; or one more, if the
    price of the limit is an integer. The price n / 10^k is any decimal number
    such that limit * n < 2^51. *)
Theorem C95_fee : forall n k limit, k <= 300 -> 0 < n -> limit * n < 2 ^ 51 ->
  let f := fee_amount (decimal false n (- Z.of_N k)) limit in
  f = div_up (limit * n) (10 ^ k) \/
  (limit * n mod 10 ^ k = 0 /\ f = limit * n / 10 ^ k + 1).
Proof. exact fee_pays. Qed.
Print Assumptions C95_fee.
(** so it is enough *)
Theorem C95_fee_enough : forall n k limit, k <= 300 -> 0 < n -> limit * n < 2 ^ 51 ->
  limit * n <= fee_amount (decimal false n (- Z.of_N k)) limit * 10 ^ k.
Proof. exact fee_enough. Qed.
Print Assumptions C95_fee_enough.
(** one more: 0.07 for each of 100 *)
Example C95_ex_above : 100 * 7 < 2 ^ 51 /\ fee_amount (decimal false 7 (-2)) 100 = 8 /\ div_up (100 * 7) (10 ^ 2) = 7.
Proof. exact ex_above. Qed.
(** A price with many digits is not paid in full. *)
Theorem C95_fee_enough_refuted : exists n k limit, k <= 300 /\ 0 < n /\ limit < 2 ^ 53 /\
  fee_amount (decimal false n (- Z.of_N k)) limit < div_up (limit * n) (10 ^ k).
Proof. exact fee_below. Qed.
Print Assumptions C95_fee_enough_refuted.

(** The default configuration: the gas used, and its price rounded up. *)
Theorem C95_default : forall gas, gas * 5 < 2 ^ 51 ->
  configured_fee default_adjustment default_price gas = {| f_amount := div_up gas 20000; f_gas := gas |}.
Proof. exact fee_default_all. Qed.
Print Assumptions C95_default.

(** So every transaction handed to the node has been simulated just before,
    has enough gas for what it used, and pays for its gas. *)
Theorem C95_transactions : forall W M simulate sign broadcast_tx get_tx cfg adj n k (c : client (W:=W) (M:=M)) rs c' alive l1 t a l2,
  (forall g, bc_fee cfg g = configured_fee adj (decimal false n (- Z.of_N k)) g) -> cl_log c = [] ->
  requests simulate sign broadcast_tx get_tx cfg c rs = (c', alive) -> cl_log c' = l1 ++ RBroadcast t a :: l2 ->
  exists l0 g, l1 = l0 ++ [RSimulate (dummy_tx (tx_msgs t) (tx_seq t)) (Some (Some g)); RSign t true] /\
    (g < 2 ^ 53 -> at_least adj 1 1 -> g <= f_gas (tx_fee t)) /\
    (k <= 300 -> 0 < n -> f_gas (tx_fee t) * n < 2 ^ 51 -> f_gas (tx_fee t) * n <= f_amount (tx_fee t) * 10 ^ k).
Proof. exact transactions_fee. Qed.
Print Assumptions C95_transactions.
Example C95_ex_transactions :
  requests ex_simulate ex_sign ex_broadcast_tx ex_get_tx ex_paying (ex_client [TCode 0]) [ReqBroadcast [1]] =
  ({| cl_seq := 12; cl_world := [];
      cl_log := let t := {| tx_msgs := [1]; tx_fee := {| f_amount := 1; f_gas := 100 |}; tx_seq := 11; tx_chain := "axelar-dojo-1"; tx_acc := 7 |} in
        [RSimulate (dummy_tx [1] 11) (Some (Some 100)); RSign t true; RBroadcast t (Some "hash"); RGetTx "hash" (TCode 0)] |}, true).
Proof. exact ex_paying_run. Qed.

(** A price is read exactly if it is a decimal number followed by a
    denomination that starts with a letter and passes the check; it becomes
    the nearest f64, which is not negative. *)
Theorem C96_reads : forall denom_ok t n k d m e, decimal_text t n k -> decimal false n (- Z.of_N k) = FFin false m e ->
  denom_ok d = true -> starts_with_letter d ->
  dec_coin_of_text denom_ok (t +:+ d) = Ok {| dc_denom := d; dc_amount := FFin false m e |}.
Proof. exact coin_reads. Qed.
Print Assumptions C96_reads.
Theorem C96_read : forall denom_ok s coin, dec_coin_of_text denom_ok s = Ok coin ->
  exists t n k m e, s = t +:+ dc_denom coin /\ decimal_text t n k /\ decimal false n (- Z.of_N k) = FFin false m e /\
    dc_amount coin = FFin false m e /\ denom_ok (dc_denom coin) = true /\ starts_with_letter (dc_denom coin).
Proof. exact coin_read. Qed.
Print Assumptions C96_read.
Example C96_ex : dec_coin_of_text ex_denom_ok "0.00005uaxl" = Ok {| dc_denom := "uaxl"; dc_amount := default_price |} /\
  decimal_text "0.00005" 5 5 /\ starts_with_letter "uaxl" /\ ex_denom_ok "uaxl" = true.
Proof. exact (conj ex_price_reads ex_decimal_text). Qed.
Example C96_ex_tests :
  dec_coin_of_text ex_denom_ok "10a0u/axl" = Ok {| dc_denom := "a0u/axl"; dc_amount := decimal false 10 0 |} /\
  dec_coin_of_text ex_denom_ok "10a0u/-xl" = Err CParsingFailed /\
  dec_coin_of_text ex_denom_ok "uaxl6" = Err CParsingFailed /\
  dec_coin_of_text ex_denom_ok "-1uaxl" = Err CParsingFailed /\
  dec_coin_new ex_denom_ok FNan "uaxl" = Err CAmountIsNaN /\
  dec_coin_new ex_denom_ok default_price "" = Err CDenomIsEmpty /\
  dec_coin_of_proto ex_denom_ok "uaxl" "NaN" = Err CAmountIsNaN /\
  dec_coin_of_proto ex_denom_ok "uaxl" "1e-3" = Ok {| dc_denom := "uaxl"; dc_amount := decimal false 1 (-3) |}.
Proof. exact ex_price_rest. Qed.

(** What was written is read back, if numbers are written as decimal numbers
    that read back; [show] is the standard library's. *)
Theorem C96_read_back : forall denom_ok show coin n k, denom_ok (dc_denom coin) = true -> starts_with_letter (dc_denom coin) ->
  decimal_text (show (dc_amount coin)) n k -> decimal false n (- Z.of_N k) = dc_amount coin ->
  finite_amount (dc_amount coin) = Ok (dc_amount coin) ->
  dec_coin_of_text denom_ok (dec_coin_text show coin) = Ok coin.
Proof. exact coin_read_back. Qed.
Print Assumptions C96_read_back.
(** Not if the denomination starts with a digit: another price is read. *)
Theorem C96_read_back_refuted : exists c c' : dec_coin,
  dec_coin_new ex_denom_ok (dc_amount c) (dc_denom c) = Ok c /\
  dec_coin_text (fun _ => "10") c = "100uaxl" /\ parse_f64 "10" = Some (dc_amount c) /\
  dec_coin_of_text ex_denom_ok "100uaxl" = Ok c' /\ dc_amount c' <> dc_amount c.
Proof. exact coin_lost. Qed.
Print Assumptions C96_read_back_refuted.
(** Nor if the amount is negative. *)
Theorem C96_negative_refuted : exists c : dec_coin,
  dec_coin_new ex_denom_ok (dc_amount c) (dc_denom c) = Ok c /\ parse_f64 "-1" = Some (dc_amount c) /\
  dec_coin_of_text ex_denom_ok (dec_coin_text (fun _ => "-1") c) = Err CParsingFailed.
Proof. exact coin_negative. Qed.
Print Assumptions C96_negative_refuted.
