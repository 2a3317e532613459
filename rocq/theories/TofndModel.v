(** Model of ampd's client of the key daemon tofnd (ampd/src/tofnd): its two
    requests, how tofnd's answers are taken, and how a signature in DER is
    turned into the 64 bytes that are submitted. *)
From Verif Require Import Base Text StdModel EncodingModel DaemonModel.

(** ** Signatures in DER

    grpc.rs:100-104 [ecdsa::Signature::<Secp256k1>::from_der] and [to_vec].
    Those are the library's (ecdsa 0.16, der 0.7), written down here as the
    library does it: one sequence of two unsigned integers, each in its
    shortest form, nothing after them, both scalars of the curve other than 0.
    Simplification: lengths of 128 bytes or more, which the library can read,
    are refused right away: a sequence that long holds a number of more than
    33 bytes, or anything else than two numbers, and so is refused by the
    library too. *)

(** the order of secp256k1 *)
Definition CURVE_ORDER : N := 115792089237316195423570985008687907852837564279074904382605163141518161494337.

Fixpoint be_val (acc : N) (s : string) : N :=
  match s with EmptyString => acc | String c r => be_val (256 * acc + N_of_ascii c) r end.

(** der's [uint::decode_to_slice]: not empty, not negative, no needless zero *)
Definition shortest (b : string) : bool :=
  match b with
  | EmptyString => false
  | String c EmptyString => N_of_ascii c <? 128
  | String c (String d _) => if N_of_ascii c =? 0 then 128 <=? N_of_ascii d else N_of_ascii c <? 128
  end.
(** der's [UintRef::decode]: the number and what follows it *)
Definition der_uint (s : string) : option (N * string) :=
  match s with
  | String t (String l rest) =>
      let n := N.to_nat (N_of_ascii l) in
      if (N_of_ascii t =? 2) && (N_of_ascii l <? 128) && (n <=? String.length rest)%nat && shortest (stake n rest)
      then Some (be_val 0 (stake n rest), sdrop n rest) else None
  | _ => None
  end.
Definition scalar (n : N) : bool := (0 <? n) && (n <? CURVE_ORDER).
Definition from_der (s : string) : option string :=
  match s with
  | String t (String l body) =>
      if (N_of_ascii t =? 48) && (N_of_ascii l <? 128) && (slen body =? N_of_ascii l)
      then match der_uint body with
           | Some (r, rest) =>
               match der_uint rest with
               | Some (v, EmptyString) =>
                   if scalar r && scalar v then Some (be_bytes 32 r +:+ be_bytes 32 v) else None
               | _ => None
               end
           | None => None
           end
      else None
  | _ => None
  end.

(** ** The client *)

(** tonic's result and proto/tofnd/multisig.proto [KeygenResponse],
    [SignResponse]: the call failed, its answer was empty, an answer, a refusal *)
Inductive reply := CallFailed | NoAnswer | Answer (b : string) | Refusal (text : string).
(** tofnd/error.rs *)
Inductive tofnd_error := Grpc | KeygenFailed (text : string) | SignFailed (text : string) | ParsingFailed.

(** [KeygenRequest] and [SignRequest] (grpc.rs:51-54, 85-90) *)
Record keygen_request := { kr_key : string; kr_party : string }.
Record sign_request := { sq_key : string; sq_msg : string; sq_party : string; sq_pub_key : string }.

Section Client.
  (** [VerifyingKey::from_sec1_bytes] and the conversion to cosmrs' key: the
      bytes it is then written as, [None] if they are no key *)
  Context (read_key : string -> option string).
  (** tofnd *)
  Context (ask_keygen : keygen_request -> reply) (ask_sign : sign_request -> reply).
  (** grpc.rs:32-35 *)
  Context (party : string).

  (** grpc.rs:50-77 [keygen] *)
  Definition client_keygen (key : string) : res tofnd_error string :=
    match ask_keygen {| kr_key := key; kr_party := party |} with
    | CallFailed | NoAnswer => Err Grpc
    | Answer b => of_option ParsingFailed (read_key b)
    | Refusal t => Err (KeygenFailed t)
    end.
  (** grpc.rs:79-112 [sign]. [pk]: the bytes of the key ([to_bytes]) *)
  Definition client_sign (key msg pk : string) : res tofnd_error string :=
    match ask_sign {| sq_key := key; sq_msg := msg; sq_party := party; sq_pub_key := pk |} with
    | CallFailed | NoAnswer => Err Grpc
    | Answer b => of_option ParsingFailed (from_der b)
    | Refusal t => Err (SignFailed t)
    end.

  (** grpc.rs:115-136 [SharableEcdsaClient]: one request at a time, the same
      answers. What the handlers and commands of HandlersModel and DaemonModel
      see of it. *)
  Definition client : tofnd :=
    {| tf_keygen := fun key => match client_keygen key with Ok k => Some k | _ => None end;
       tf_sign := fun key msg pk => match client_sign key msg pk with Ok s => Some s | _ => None end |}.
End Client.
