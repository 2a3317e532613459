(** Model of the text the worker daemon reads its events from: the JSON the
    contracts write into event attributes with serde_json's [to_string], the
    base64 in which the node hands attributes out, and the way back through
    packages/events/src/event.rs, which takes an attribute that is JSON for
    the value it stands for and anything else for a string. *)
From Verif Require Import Base Text StdModel RouterTypes OperatorsModel VerifierModel EncodingModel EventsModel.

Notation code c := (N_of_ascii c).

(** ** Writing JSON: [serde_json::to_string] (compact form), as used in
    contracts/voting-verifier/src/events.rs:63-109 and
    contracts/multisig/src/events.rs:53-57 *)

(** serde_json's table of escapes: the quote, the backslash and the control
    characters; everything else, DEL and the bytes of non-ASCII characters
    included, is written as it is. *)
Definition escape (c : ascii) : string :=
  let n := code c in
  if n =? 34 then "\"""
  else if n =? 92 then "\\"
  else if n =? 8 then "\b"
  else if n =? 9 then "\t"
  else if n =? 10 then "\n"
  else if n =? 12 then "\f"
  else if n =? 13 then "\r"
  else if n <? 32 then "\u00" +:+ String (hex_digit (n / 16)) (String (hex_digit (n mod 16)) "")
  else String c "".
Fixpoint escaped (s : string) : string :=
  match s with
  | EmptyString => ""
  | String c r => escape c +:+ escaped r
  end.
Definition quoted (s : string) : string := String """" (escaped s +:+ """").

(** Simplification: numbers that are not unsigned integers have no text here
    (the contracts write none). *)
Fixpoint to_json (v : jval) : string :=
  match v with
  | JNull => "null"
  | JBool true => "true"
  | JBool false => "false"
  | JNum n => dec n
  | JOtherNum => ""
  | JStr s => quoted s
  | JArr l => "[" +:+ join "," (List.map to_json l) +:+ "]"
  | JObj l => "{" +:+ join "," (List.map (fun p => quoted p.1 +:+ ":" +:+ to_json p.2) l) +:+ "}"
  end.

(** ** Reading JSON: [serde_json::from_str::<Value>] (event.rs:60) *)

Definition is_ws (c : ascii) : bool :=
  let n := code c in (n =? 32) || (n =? 9) || (n =? 10) || (n =? 13).
Fixpoint skip_ws (s : string) : string :=
  match s with
  | EmptyString => ""
  | String c r => if is_ws c then skip_ws r else s
  end.

(** four hexadecimal digits of either case *)
Definition hex4 (a b c d : ascii) : option N :=
  match unhex_digit a, unhex_digit b, unhex_digit c, unhex_digit d with
  | Some x, Some y, Some z, Some w => Some (4096 * x + 256 * y + 16 * z + w)
  | _, _, _, _ => None
  end.
(** the UTF-8 bytes of a scalar value ([char::encode_utf8]) *)
Definition utf8_of (n : N) : string :=
  if n <? 128 then String (ascii_of_N n) ""
  else if n <? 2048 then
    String (ascii_of_N (192 + n / 64)) (String (ascii_of_N (128 + n mod 64)) "")
  else if n <? 65536 then
    String (ascii_of_N (224 + n / 4096)) (String (ascii_of_N (128 + (n / 64) mod 64))
      (String (ascii_of_N (128 + n mod 64)) ""))
  else
    String (ascii_of_N (240 + n / 262144)) (String (ascii_of_N (128 + (n / 4096) mod 64))
      (String (ascii_of_N (128 + (n / 64) mod 64)) (String (ascii_of_N (128 + n mod 64)) ""))).
Definition unescape (c : ascii) : option ascii :=
  let n := code c in
  if n =? 34 then Some c
  else if n =? 92 then Some c
  else if n =? 47 then Some c
  else if n =? 98 then Some (ascii_of_N 8)
  else if n =? 102 then Some (ascii_of_N 12)
  else if n =? 110 then Some (ascii_of_N 10)
  else if n =? 114 then Some (ascii_of_N 13)
  else if n =? 116 then Some (ascii_of_N 9)
  else None.
Definition prepend (t : string) (x : option (string * string)) : option (string * string) :=
  (fun p => (t +:+ p.1, p.2)) <$> x.

(** what follows an opening quote: the string, and the text behind the closing
    one. Control characters must be escaped, and an escaped surrogate must be
    the first half of a pair. *)
Fixpoint str_body (s : string) : option (string * string) :=
  match s with
  | EmptyString => None
  | String c r =>
      if code c =? 34 then Some ("", r)
      else if code c =? 92 then
        match r with
        | EmptyString => None
        | String e r1 =>
            if code e =? 117 then
              match r1 with
              | String x1 (String x2 (String x3 (String x4 r2))) =>
                  match hex4 x1 x2 x3 x4 with
                  | None => None
                  | Some n =>
                      if (56320 <=? n) && (n <=? 57343) then None
                      else if (55296 <=? n) && (n <=? 56319) then
                        match r2 with
                        | String b (String u (String y1 (String y2 (String y3 (String y4 r3))))) =>
                            if (code b =? 92) && (code u =? 117) then
                              match hex4 y1 y2 y3 y4 with
                              | Some m =>
                                  if (56320 <=? m) && (m <=? 57343)
                                  then prepend (utf8_of (65536 + 1024 * (n - 55296) + (m - 56320))) (str_body r3)
                                  else None
                              | None => None
                              end
                            else None
                        | _ => None
                        end
                      else prepend (utf8_of n) (str_body r2)
                  end
              | _ => None
              end
            else match unescape e with
                 | Some x => prepend (String x "") (str_body r1)
                 | None => None
                 end
        end
      else if code c <? 32 then None
      else prepend (String c "") (str_body r)
  end.

(** the longest run of decimal digits, and what follows *)
Fixpoint digits (s : string) : string * string :=
  match s with
  | String c r =>
      match undigit c with
      | Some _ => let '(d, t) := digits r in (String c d, t)
      | None => ("", s)
      end
  | EmptyString => ("", "")
  end.

(** the text after a word *)
Fixpoint after (w s : string) : option string :=
  match w, s with
  | EmptyString, _ => Some s
  | String a w', String b s' => if Ascii.eqb a b then after w' s' else None
  | _, _ => None
  end.

Section Read.
  (** Whether the decimal number with a fraction, an exponent or too many
      digits for 64 bits stays below the largest double; serde_json refuses
      it otherwise. Left abstract. *)
  Context (finite : string -> bool).

  (** a fraction: a point, at least one digit; nothing is also fine *)
  Definition fraction (s : string) : option (string * string) :=
    match s with
    | String c r =>
        if code c =? 46 then
          match digits r with
          | (EmptyString, _) => None
          | (d, t) => Some (String c d, t)
          end
        else Some ("", s)
    | EmptyString => Some ("", "")
    end.
  (** an exponent: e or E, possibly a sign, at least one digit *)
  Definition exponent (s : string) : option (string * string) :=
    match s with
    | String c r =>
        if (code c =? 101) || (code c =? 69) then
          let '(sg, r') := match r with
                           | String d t => if (code d =? 43) || (code d =? 45) then (String d "", t) else ("", r)
                           | EmptyString => ("", "")
                           end in
          match digits r' with
          | (EmptyString, _) => None
          | (d, t) => Some (String c (sg +:+ d), t)
          end
        else Some ("", s)
    | EmptyString => Some ("", "")
    end.
  (** a number, without its sign; a zero must not be followed by a digit. *)
  Definition number (negative : bool) (s : string) : option (jval * string) :=
    match digits s with
    | (EmptyString, _) => None
    | (String d ds as whole, r) =>
        if (code d =? 48) && negb (is_empty ds) then None
        else
          match fraction r with
          | None => None
          | Some (f, r1) =>
              match exponent r1 with
              | None => None
              | Some (x, r2) =>
                  let small := match undec whole 0 with Some n => n <? U64 | None => false end in
                  if is_empty f && is_empty x && small
                  then Some (if negative then JOtherNum else JNum (default 0 (undec whole 0)), r2)
                  else if finite ((if negative then "-" else "") +:+ whole +:+ f +:+ x)
                  then Some (JOtherNum, r2) else None
              end
          end
    end.

  Section Containers.
    Context (value : string -> option (jval * string)).
    (** the elements of an array, after the first bracket and known not to be
        empty: values separated by commas, closed by a bracket. [n] bounds
        their number. *)
    Fixpoint elements (n : nat) (s : string) : option (list jval * string) :=
      match n with
      | O => None
      | S n' =>
          match value s with
          | None => None
          | Some (v, r) =>
              match skip_ws r with
              | String c r' =>
                  if code c =? 44 then (fun p => (v :: p.1, p.2)) <$> elements n' r'
                  else if code c =? 93 then Some ([v], r') else None
              | EmptyString => None
              end
          end
      end.
    (** the members of an object, likewise *)
    Fixpoint members (n : nat) (s : string) : option (list (string * jval) * string) :=
      match n with
      | O => None
      | S n' =>
          match skip_ws s with
          | String q r =>
              if code q =? 34 then
                match str_body r with
                | None => None
                | Some (k, r1) =>
                    match skip_ws r1 with
                    | String c r2 =>
                        if code c =? 58 then
                          match value r2 with
                          | None => None
                          | Some (v, r3) =>
                              match skip_ws r3 with
                              | String e r4 =>
                                  if code e =? 44 then (fun p => ((k, v) :: p.1, p.2)) <$> members n' r4
                                  else if code e =? 125 then Some ([(k, v)], r4) else None
                              | EmptyString => None
                              end
                          end
                        else None
                    | EmptyString => None
                    end
                end
              else None
          | EmptyString => None
          end
      end.
  End Containers.

  (** of a repeated key the last value counts ([Map::insert]) *)
  Fixpoint last_wins (l : list (string * jval)) : list (string * jval) :=
    match l with
    | [] => []
    | (k, v) :: l' => if existsb (fun p => String.eqb k p.1) l' then last_wins l' else (k, v) :: last_wins l'
    end.

  (** a value; [depth] arrays and objects, less one, may be nested in each
      other. *)
  Fixpoint value (depth : nat) (s : string) : option (jval * string) :=
    match depth with
    | O => None
    | S d =>
        match skip_ws s with
        | EmptyString => None
        | String c r =>
            let n := code c in
            if n =? 110 then (fun t => (JNull, t)) <$> after "ull" r
            else if n =? 116 then (fun t => (JBool true, t)) <$> after "rue" r
            else if n =? 102 then (fun t => (JBool false, t)) <$> after "alse" r
            else if n =? 34 then (fun p => (JStr p.1, p.2)) <$> str_body r
            else if n =? 45 then number true r
            else if (48 <=? n) && (n <=? 57) then number false (String c r)
            else if n =? 91 then
              match d with
              | O => None
              | _ =>
                  match skip_ws r with
                  | String e t =>
                      if code e =? 93 then Some (JArr [], t)
                      else (fun p => (JArr p.1, p.2)) <$> elements (value d) (String.length r) r
                  | EmptyString => None
                  end
              end
            else if n =? 123 then
              match d with
              | O => None
              | _ =>
                  match skip_ws r with
                  | String e t =>
                      if code e =? 125 then Some (JObj [], t)
                      else (fun p => (JObj (last_wins p.1), p.2)) <$> members (value d) (String.length r) r
                  | EmptyString => None
                  end
              end
            else None
        end
    end.

  (** the whole text must be one value; serde_json's recursion limit is 128. *)
  Definition of_json (s : string) : option jval :=
    match value 128 s with
    | Some (v, r) => if is_empty (skip_ws r) then Some v else None
    | None => None
    end.
End Read.

(** ** base64 ([base64::engine::general_purpose::STANDARD], event.rs:71-73) *)

Definition b64_char (n : N) : ascii :=
  if n <? 26 then ascii_of_N (65 + n)
  else if n <? 52 then ascii_of_N (71 + n)
  else if n <? 62 then ascii_of_N (n - 4)
  else if n =? 62 then "+"%char else "/"%char.
Definition unb64_char (c : ascii) : option N :=
  let n := code c in
  if (65 <=? n) && (n <=? 90) then Some (n - 65)
  else if (97 <=? n) && (n <=? 122) then Some (n - 71)
  else if (48 <=? n) && (n <=? 57) then Some (n + 4)
  else if n =? 43 then Some 62
  else if n =? 47 then Some 63
  else None.
(** what the node does to the bytes of an attribute *)
Fixpoint to_base64 (s : string) : string :=
  match s with
  | EmptyString => ""
  | String a EmptyString =>
      String (b64_char (code a / 4)) (String (b64_char (code a mod 4 * 16)) "==")
  | String a (String b EmptyString) =>
      String (b64_char (code a / 4)) (String (b64_char (code a mod 4 * 16 + code b / 16))
        (String (b64_char (code b mod 16 * 4)) "="))
  | String a (String b (String c r)) =>
      String (b64_char (code a / 4)) (String (b64_char (code a mod 4 * 16 + code b / 16))
        (String (b64_char (code b mod 16 * 4 + code c / 64)) (String (b64_char (code c mod 64))
          (to_base64 r))))
  end.
(** Padding is required, and the bits it leaves unused must be zero. *)
Fixpoint of_base64 (s : string) : option string :=
  match s with
  | EmptyString => Some ""
  | String w (String x (String y (String z r))) =>
      match unb64_char w, unb64_char x with
      | Some w', Some x' =>
          let a := ascii_of_N (w' * 4 + x' / 16) in
          if code z =? 61 then
            if negb (is_empty r) then None
            else if code y =? 61 then
              if x' mod 16 =? 0 then Some (String a "") else None
            else
              match unb64_char y with
              | Some y' =>
                  if y' mod 4 =? 0
                  then Some (String a (String (ascii_of_N (x' mod 16 * 16 + y' / 4)) "")) else None
              | None => None
              end
          else
            match unb64_char y, unb64_char z, of_base64 r with
            | Some y', Some z', Some t =>
                Some (String a (String (ascii_of_N (x' mod 16 * 16 + y' / 4))
                        (String (ascii_of_N (y' mod 4 * 64 + z')) t)))
            | _, _, _ => None
            end
      | _, _ => None
      end
  | _ => None
  end.

(** ** UTF-8 ([String::from_utf8], event.rs:72) *)

Definition between (l h : N) (c : ascii) : bool := (l <=? code c) && (code c <=? h).
Definition cont (c : ascii) : bool := between 128 191 c.
Fixpoint utf8 (s : string) : bool :=
  match s with
  | EmptyString => true
  | String a r =>
      if code a <? 128 then utf8 r
      else if between 194 223 a then
        match r with String b r1 => cont b && utf8 r1 | _ => false end
      else if between 224 239 a then
        match r with
        | String b (String c r2) =>
            (if code a =? 224 then between 160 191 b
             else if code a =? 237 then between 128 159 b else cont b) && cont c && utf8 r2
        | _ => false
        end
      else if between 240 244 a then
        match r with
        | String b (String c (String d r3)) =>
            (if code a =? 240 then between 144 191 b
             else if code a =? 244 then between 128 143 b else cont b) && cont c && cont d && utf8 r3
        | _ => false
        end
      else false
  end.
(** event.rs:71-73 [base64_to_utf8] *)
Definition base64_to_utf8 (s : string) : option string :=
  match of_base64 s with
  | Some t => if utf8 t then Some t else None
  | None => None
  end.

(** ** The attributes as text *)

Definition text := list (string * string).
(** The wasm module puts the address of the contract first and the node writes
    keys and values in base64. *)
Definition served (l : text) : text := (fun p => (to_base64 p.1, to_base64 p.2)) <$> l.

(** contracts/voting-verifier/src/events.rs:60-83. [PollId] is a [Uint64],
    which serializes as a JSON string. *)
Definition metadata_text (m : poll_metadata) : text :=
  [("poll_id", to_json (JStr (dec (pm_poll_id m))));
   ("source_chain", pm_chain m);
   ("source_gateway_address", pm_gateway m);
   ("confirmation_height", dec (pm_confirmations m));
   ("expires_at", dec (pm_expires_at m));
   ("participants", to_json (JArr (JStr <$> pm_participants m)))].
(** events.rs:85-97 *)
Definition messages_text (contract : addr) (es : list tx_event) (m : poll_metadata) : text :=
  ("_contract_address", contract) ::
  ("messages", to_json (JArr (message_json <$> es))) :: metadata_text m.
(** events.rs:98-109 *)
Definition worker_set_text (contract : addr) (tx : string) (idx : N) (o : operators) (m : poll_metadata) : text :=
  ("_contract_address", contract) ::
  ("worker_set", to_json (worker_set_json tx idx o)) :: metadata_text m.
(** contracts/multisig/src/events.rs:46-64 *)
Definition signing_text (contract : addr) (session : N) (worker_set : string) (keys : list (string * jval))
    (digest chain : string) : text :=
  [("_contract_address", contract);
   ("session_id", dec session);
   ("worker_set_id", worker_set);
   ("pub_keys", to_json (JObj keys));
   ("msg", to_hex digest);
   ("chain", chain)].
