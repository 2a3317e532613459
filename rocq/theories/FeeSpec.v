(** What is asked of gas limits, fees and prices. *)
From Verif Require Import Base Text QueueModel BroadcasterModel BroadcasterSpec FeeModel.

(** a / b rounded up *)
Definition div_up (a b : N) : N := (a + (b - 1)) / b.

(** The finite f64 [x] is at least, at most, or equal to the fraction a / b. *)
Definition at_least (x : f64) (a b : N) : Prop :=
  match x with FFin false m e => a * UNIT <= m * 2 ^ e * b | _ => False end.
Definition at_most (x : f64) (a b : N) : Prop :=
  match x with FFin false m e => m * 2 ^ e * b <= a * UNIT | FFin true _ _ => True | _ => False end.

(** The distance of a non-negative f64 from a / b, in units of 1 / b. *)
Definition distance (x : f64) (a b : N) : option N :=
  match x with
  | FFin false m e => Some (m * 2 ^ e * b - a * UNIT + (a * UNIT - m * 2 ^ e * b))
  | _ => None
  end.
(** [x] is an f64: the mantissa has at most 53 bits, the exponent at most 971
    (2045 units). *)
Definition is_f64 (x : f64) : Prop :=
  match x with FFin _ m e => m < 2 ^ 53 /\ e <= 2045 | _ => True end.

(** A decimal number as in a configuration: digits, and possibly a point and
    digits after it. [n] are all the digits, [k] is how many are decimals. *)
Definition decimal_text (s : string) (n k : N) : Prop :=
  exists i f, is_empty i = false /\ undec (i +:+ f) 0 = Some n /\ k = N.of_nat (String.length f) /\
    (s = i +:+ String "." f \/ (s = i /\ f = "")).

(** A denomination starts with a letter. *)
Definition starts_with_letter (s : string) : Prop :=
  exists c r, s = String c r /\ is_alphabetic c = true.
