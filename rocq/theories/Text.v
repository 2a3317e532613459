(** Text functions of the Rust standard library and hex/serde helpers that
    the contracts use. A Rust [String] is the list of its UTF-8 bytes; a Coq
    [string] is an arbitrary byte list, so theorems over all Coq strings
    cover all Rust strings. *)
From Verif Require Import Base.

(** [s.is_empty()] *)
Definition is_empty (s : string) : bool := match s with EmptyString => true | _ => false end.

(** [s.contains(c)] for an ASCII character *)
Fixpoint contains (c : ascii) (s : string) : bool :=
  match s with
  | EmptyString => false
  | String d s' => Ascii.eqb c d || contains c s'
  end.

(** [str::to_lowercase], on ASCII letters only. Simplification: Rust also
    folds non-ASCII letters. *)
Definition lower_ascii (c : ascii) : ascii :=
  let n := N_of_ascii c in
  if (65 <=? n) && (n <=? 90) then ascii_of_N (n + 32) else c.
Fixpoint lower (s : string) : string :=
  match s with
  | EmptyString => EmptyString
  | String c s' => String (lower_ascii c) (lower s')
  end.

(** [str::split(c)]: n separators give n+1 pieces. *)
Fixpoint split (c : ascii) (s : string) : list string :=
  match s with
  | EmptyString => [EmptyString]
  | String d s' =>
      if Ascii.eqb c d then EmptyString :: split c s'
      else match split c s' with
           | [] => [String d EmptyString]
           | p :: ps => String d p :: ps
           end
  end.

(** [str::split_once(c)] *)
Fixpoint split_once (c : ascii) (s : string) : option (string * string) :=
  match s with
  | EmptyString => None
  | String d s' =>
      if Ascii.eqb c d then Some (EmptyString, s')
      else match split_once c s' with
           | None => None
           | Some (a, b) => Some (String d a, b)
           end
  end.

(** Decimal digits. *)
Definition digit (n : N) : ascii := ascii_of_N (48 + n).
Definition undigit (c : ascii) : option N :=
  let n := N_of_ascii c in
  if (48 <=? n) && (n <=? 57) then Some (n - 48) else None.

(** [to_string] of an unsigned integer. The fuel is its bit length, which
    bounds the number of decimal digits. *)
Fixpoint dec_go (fuel : nat) (n : N) (acc : string) : string :=
  match fuel with
  | O => acc
  | S f =>
      let acc' := String (digit (n mod 10)) acc in
      if n <? 10 then acc' else dec_go f (n / 10) acc'
  end.
Definition dec (n : N) : string := dec_go (S (N.to_nat (N.size n))) n EmptyString.

(** value of a digit string, most significant digit first *)
Fixpoint undec (s : string) (acc : N) : option N :=
  match s with
  | EmptyString => Some acc
  | String c s' => match undigit c with Some d => undec s' (acc * 10 + d) | None => None end
  end.

(** [str::parse::<u64>()] (and u32, ...): an optional [+], then at least one
    digit, no overflow. Rust checks the range at every digit, which rejects
    exactly the values outside the range. *)
Definition parse_uint (bound : N) (s : string) : option N :=
  let body := match s with
              | String c s' => if Ascii.eqb c "+" then s' else s
              | EmptyString => s
              end in
  if is_empty body then None
  else match undec body 0 with
       | Some n => if n <? bound then Some n else None
       | None => None
       end.
Definition parse_u64 : string -> option N := parse_uint U64.

(** Hex: [HexBinary::to_hex], [hex::encode] (lower case). *)
Definition hex_digit (n : N) : ascii :=
  if n <? 10 then ascii_of_N (48 + n) else ascii_of_N (87 + n).
Fixpoint to_hex (s : string) : string :=
  match s with
  | EmptyString => EmptyString
  | String c s' =>
      let n := N_of_ascii c in
      String (hex_digit (n / 16)) (String (hex_digit (n mod 16)) (to_hex s'))
  end.
(** [hex::decode]: both cases accepted. *)
Definition unhex_digit (c : ascii) : option N :=
  let n := N_of_ascii c in
  if (48 <=? n) && (n <=? 57) then Some (n - 48)
  else if (97 <=? n) && (n <=? 102) then Some (n - 87)
  else if (65 <=? n) && (n <=? 70) then Some (n - 55)
  else None.
Fixpoint of_hex (s : string) : option string :=
  match s with
  | EmptyString => Some EmptyString
  | String a (String b s') =>
      match unhex_digit a, unhex_digit b, of_hex s' with
      | Some x, Some y, Some r => Some (String (ascii_of_N (16 * x + y)) r)
      | _, _, _ => None
      end
  | String _ EmptyString => None
  end.

(** big-endian bytes of a number, exactly [len] of them ([to_be_bytes]) *)
Fixpoint be_bytes_go (len : nat) (n : N) (acc : string) : string :=
  match len with
  | O => acc
  | S l => be_bytes_go l (n / 256) (String (ascii_of_N (n mod 256)) acc)
  end.
Definition be_bytes (len : nat) (n : N) : string := be_bytes_go len n EmptyString.

(** [join] *)
Fixpoint join (sep : string) (l : list string) : string :=
  match l with
  | [] => EmptyString
  | [a] => a
  | a :: l' => a +:+ sep +:+ join sep l'
  end.
