(** ampd/src/broadcaster.rs:170-178: from the gas a transaction used when
    simulated to its gas limit and fee; ampd/src/broadcaster/dec_coin.rs: the
    configured price. Both compute with f64. *)
From Verif Require Import Base Text QueueModel BroadcasterModel.

(** ** f64
    Rust's f64 is IEEE 754 binary64, with rounding to nearest, ties to even.
    Every finite f64 is a multiple of 2^-1074, the unit: [FFin neg m e] is
    plus or minus m * 2^e units with m < 2^53. *)
Inductive f64 := FNan | FInf (neg : bool) | FFin (neg : bool) (m e : N).

(** How many units make 1. *)
Definition UNIT : N := 2 ^ 1074.
Global Arguments UNIT : simpl never.

(** a / b to the nearest integer, ties to even *)
Definition rne (a b : N) : N :=
  let q := a / b in let r := a mod b in
  if 2 * r <? b then q else if b <? 2 * r then q + 1 else if N.even q then q else q + 1.

(** n / d to the nearest f64. The largest exponent is 971 above 1. *)
Definition round (neg : bool) (n d : N) : f64 :=
  let e := N.log2 (n * UNIT / d) - 52 in
  let m := rne (n * UNIT) (d * 2 ^ e) in
  let '(m, e) := if m =? 2 ^ 53 then (2 ^ 52, e + 1) else (m, e) in
  if 2045 <? e then FInf neg else FFin neg m e.

(** [n as f64] for an unsigned integer *)
Definition of_N (n : N) : f64 := round false n 1.

(** [x * y] *)
Definition fmul (x y : f64) : f64 :=
  match x, y with
  | FNan, _ | _, FNan => FNan
  | FInf a, FInf b => FInf (xorb a b)
  | FInf a, FFin b m _ | FFin b m _, FInf a => if m =? 0 then FNan else FInf (xorb a b)
  | FFin a m e, FFin b m' e' => round (xorb a b) (m * m' * 2 ^ (e + e')) (UNIT * UNIT)
  end.

(** [x.ceil()] *)
Definition fceil (x : f64) : f64 :=
  match x with
  | FFin false m e => round false ((m * 2 ^ e + (UNIT - 1)) / UNIT) 1
  | FFin true m e => round true (m * 2 ^ e / UNIT) 1
  | _ => x
  end.

(** [x as u64], [x as u128]: towards zero, within the bounds; 0 for NaN *)
Definition to_uint (bound : N) (x : f64) : N :=
  match x with
  | FFin false m e => N.min (m * 2 ^ e / UNIT) (bound - 1)
  | FInf false => bound - 1
  | _ => 0
  end.

(** ** [str::parse::<f64>]: the nearest f64 to a decimal number, an infinity or
    NaN, as documented (Sign? ('inf' | 'infinity' | 'nan' | Number)). *)
Definition strip_sign (s : string) : bool * string :=
  match s with
  | String c r => if Ascii.eqb c "-" then (true, r) else if Ascii.eqb c "+" then (false, r) else (false, s)
  | EmptyString => (false, s)
  end.
Definition decimal (neg : bool) (n : N) (x : Z) : f64 :=
  round neg (n * 10 ^ Z.to_N x) (10 ^ Z.to_N (- x)).
(** ( Digit+ | Digit+ '.' Digit* | Digit* '.' Digit+ ): the digits and how many
    of them are decimals *)
Definition parse_mantissa (s : string) : option (N * N) :=
  let '(i, f) := match split_once "." s with Some p => p | None => (s, "") end in
  if is_empty i && is_empty f then None
  else option_map (fun n => (n, N.of_nat (String.length f))) (undec (i +:+ f) 0).
Definition parse_exponent (s : string) : option Z :=
  let (neg, r) := strip_sign s in
  if is_empty r then None
  else option_map (fun n => if neg : bool then (- Z.of_N n)%Z else Z.of_N n) (undec r 0).
Definition parse_f64 (s : string) : option f64 :=
  let (neg, r) := strip_sign s in
  let r := lower r in
  if bool_decide (r = "inf") || bool_decide (r = "infinity") then Some (FInf neg)
  else if bool_decide (r = "nan") then Some FNan
  else
    let '(ms, x) := match split_once "e" r with
                    | Some (ms, xs) => (ms, parse_exponent xs)
                    | None => (r, Some 0%Z)
                    end in
    match parse_mantissa ms, x with
    | Some (n, k), Some x => Some (decimal neg n (x - Z.of_N k))
    | _, _ => None
    end.

(** ** dec_coin.rs *)
(** dec_coin.rs:15-23 [Error] *)
Inductive cerr := CParsingFailed | CAmountIsNaN | CDenomIsEmpty.
(** dec_coin.rs:25-30 [DecCoin] *)
Record dec_coin := { dc_denom : string; dc_amount : f64 }.

(** dec_coin.rs:120-127 [FiniteAmount::try_from(f64)] *)
Definition finite_amount (x : f64) : res cerr f64 :=
  match x with FFin _ _ _ => Ok x | _ => Err CAmountIsNaN end.
(** dec_coin.rs:129-136 [FiniteAmount::from_str] *)
Definition amount_of_text (s : string) : res cerr f64 :=
  let? x := of_option CParsingFailed (parse_f64 s) in finite_amount x.

Section Coin.
  (** the check of the crate cosmrs, which is not in /repo *)
  Context (denom_ok : string -> bool).

  (** dec_coin.rs:164-180 [Denom::from_str], [Denom::try_from] *)
  Definition denom_of_text (s : string) : res cerr string :=
    let? _ := ensure (denom_ok s) CParsingFailed in
    let? _ := ensure (negb (is_empty s)) CDenomIsEmpty in
    Ok s.

  (** dec_coin.rs:32-39 [DecCoin::new] *)
  Definition dec_coin_new (amount : f64) (denom : string) : res cerr dec_coin :=
    let? a := finite_amount amount in
    let? d := denom_of_text denom in
    Ok {| dc_denom := d; dc_amount := a |}.

  (** dec_coin.rs:50-59 [TryFrom<proto DecCoin>] *)
  Definition dec_coin_of_proto (denom amount : string) : res cerr dec_coin :=
    let? a := amount_of_text amount in
    let? d := denom_of_text denom in
    Ok {| dc_denom := d; dc_amount := a |}.

  (** [str::find] with a test of characters: bytes, as all texts here. Only
      ASCII digits and letters are recognized: the code's [is_numeric] and
      [is_alphabetic] accept others, which then fail to parse. *)
  Fixpoint find_char (p : ascii -> bool) (s : string) : option nat :=
    match s with
    | EmptyString => None
    | String c r => if p c then Some O else option_map S (find_char p r)
    end.
  Definition is_numeric (c : ascii) : bool := match undigit c with Some _ => true | None => false end.
  Definition is_alphabetic (c : ascii) : bool :=
    let n := N_of_ascii (lower_ascii c) in (97 <=? n) && (n <=? 122).
  Fixpoint split_at (i : nat) (s : string) : string * string :=
    match i, s with
    | S i, String c r => let (a, b) := split_at i r in (String c a, b)
    | _, _ => ("", s)
    end.

  (** dec_coin.rs:67-92 [TryFrom<String>], [TryFrom<&str>]: how the
      configuration is read. The denomination is parsed first. *)
  Definition dec_coin_of_text (s : string) : res cerr dec_coin :=
    match find_char is_numeric s, find_char is_alphabetic s with
    | Some O, Some i =>
        let (amount, denom) := split_at i s in
        let? d := denom_of_text denom in
        let? a := amount_of_text amount in
        Ok {| dc_denom := d; dc_amount := a |}
    | _, _ => Err CParsingFailed
    end.

  (** dec_coin.rs:103-108 [Display for DecCoin], 154-158: how the configuration
      is written; [show] is the standard library's [Display for f64]. *)
  Definition dec_coin_text (show : f64 -> string) (c : dec_coin) : string := show (dc_amount c) +:+ dc_denom c.
End Coin.

(** broadcaster.rs:170-178. The denomination of the fee is the price's (left
    out of [fee]). *)
Definition gas_limit (adjustment : f64) (gas : N) : N := to_uint U64 (fmul (of_N gas) adjustment).
Definition fee_amount (price : f64) (limit : N) : N := to_uint U128 (fceil (fmul (of_N limit) price)).
Definition configured_fee (adjustment price : f64) (gas : N) : fee :=
  {| f_amount := fee_amount price (gas_limit adjustment gas); f_gas := gas_limit adjustment gas |}.

(** broadcaster.rs:65-78 [Config::default]: adjustment 1.0, price 0.00005. The
    literals are the nearest f64. *)
Definition default_adjustment : f64 := decimal false 10 (-1).
Definition default_price : f64 := decimal false 5 (-5).
