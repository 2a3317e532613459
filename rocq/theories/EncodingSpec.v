(** Decoders for BCS (the Binary Canonical Serialization specification) and
    for the Solidity ABI, written from those specifications and not from the
    encoders; and what the C50-C52 theorems speak about. *)
From Verif Require Import Base Text StdModel RouterTypes MultisigTypes EncodingModel.

(** ** BCS: parsers consuming a prefix of the input *)
Definition parser (A : Type) := string -> option (A * string).
Definition p_ret {A} (a : A) : parser A := fun s => Some (a, s).
Definition p_bind {A B} (p : parser A) (k : A -> parser B) : parser B := fun s =>
  match p s with Some (a, r) => k a r | None => None end.
(** exactly [n] bytes *)
Definition p_take (n : nat) : parser string := fun s =>
  if (n <=? String.length s)%nat then Some (stake n s, sdrop n s) else None.
(** little-endian unsigned integer of [n] bytes *)
Fixpoint of_le (s : string) : N :=
  match s with EmptyString => 0 | String c r => N_of_ascii c + 256 * of_le r end.
Definition p_le (n : nat) : parser N := p_bind (p_take n) (fun b => p_ret (of_le b)).
(** ULEB128 of at most five bytes, in canonical (shortest) form *)
Fixpoint p_uleb_go (fuel : nat) : parser N := fun s =>
  match fuel, s with
  | S f, String c r =>
      let b := N_of_ascii c in
      if b <? 128 then Some (b, r)
      else match p_uleb_go f r with
           | Some (v, r') => if v =? 0 then None else Some (b - 128 + 128 * v, r')
           | None => None
           end
  | _, _ => None
  end.
Definition p_len : parser N := fun s =>
  match p_uleb_go 5 s with
  | Some (n, r) => if n <? 2 ^ 31 then Some (n, r) else None
  | None => None
  end.
Definition p_bytes : parser string := p_bind p_len (fun n => p_take (N.to_nat n)).
Fixpoint p_times {A} (n : nat) (p : parser A) : parser (list A) :=
  match n with
  | O => p_ret []
  | S n' => p_bind p (fun a => p_bind (p_times n' p) (fun l => p_ret (a :: l)))
  end.
Definition p_seq {A} (p : parser A) : parser (list A) := p_bind p_len (fun n => p_times (N.to_nat n) p).
Definition p_pair {A B} (p : parser A) (q : parser B) : parser (A * B) :=
  p_bind p (fun a => p_bind q (fun b => p_ret (a, b))).
(** nothing may be left over *)
Definition p_run {A} (p : parser A) (s : string) : option A :=
  match p s with Some (a, EmptyString) => Some a | _ => None end.

(** the receivers' view of each encoded value *)
Definition bcs_decode_data : string -> option (N * list string * list string * list string) :=
  p_run (p_pair (p_pair (p_pair (p_le 8) (p_seq (p_take 32))) (p_seq p_bytes)) (p_seq p_bytes)).
Definition bcs_decode_params : string -> option (string * string * string * string) :=
  p_run (p_pair (p_pair (p_pair p_bytes p_bytes) (p_take 32)) p_bytes).
Definition bcs_decode_operators : string -> option (list string * list N * N) :=
  p_run (p_pair (p_pair (p_seq p_bytes) (p_seq (p_le 16))) (p_le 16)).
Definition bcs_decode_proof : string -> option (list string * list N * N * list string) :=
  p_run (p_pair (p_pair (p_pair (p_seq p_bytes) (p_seq (p_le 16))) (p_le 16)) (p_seq p_bytes)).
Definition bcs_decode_execute : string -> option (string * string) := p_run (p_pair p_bytes p_bytes).

(** ** Solidity ABI: decoders given the whole input, the start of the
    enclosing tuple and the position of the head *)
Definition adec (A : Type) := string -> nat -> nat -> option A.
Definition sub (w : string) (pos len : nat) : option string :=
  if (pos + len <=? String.length w)%nat then Some (stake len (sdrop pos w)) else None.
(** big-endian *)
Fixpoint of_be_go (acc : N) (s : string) : N :=
  match s with EmptyString => acc | String c r => of_be_go (256 * acc + N_of_ascii c) r end.
Definition of_be (s : string) : N := of_be_go 0 s.
Definition a_uint : adec N := fun w _ p =>
  match sub w p 32 with Some b => Some (of_be b) | None => None end.
Definition a_bytes32 : adec string := fun w _ p => sub w p 32.
Definition a_address : adec string := fun w _ p =>
  match sub w p 32 with
  | Some b => if String.eqb (stake 12 b) (zeros 12) then Some (sdrop 12 b) else None
  | None => None
  end.
(** a number in the input used as a length or as a position *)
Definition a_index (w : string) (p : nat) : option nat :=
  match a_uint w 0%nat p with
  | Some n => if n <=? slen w then Some (N.to_nat n) else None
  | None => None
  end.
Definition a_bytes : adec string := fun w base p =>
  match a_index w p with
  | Some off =>
      match a_index w (base + off)%nat with
      | Some len => sub w (base + off + 32)%nat len
      | None => None
      end
  | None => None
  end.
Fixpoint a_elems {A} (d : adec A) (w : string) (base p n : nat) : option (list A) :=
  match n with
  | O => Some []
  | S n' => match d w base p with
            | Some a => match a_elems d w base (p + 32)%nat n' with Some l => Some (a :: l) | None => None end
            | None => None
            end
  end.
Definition a_array {A} (d : adec A) : adec (list A) := fun w base p =>
  match a_index w p with
  | Some off =>
      match a_index w (base + off)%nat with
      | Some n => a_elems d w (base + off + 32)%nat (base + off + 32)%nat n
      | None => None
      end
  | None => None
  end.
Definition a_pair {A B} (p : nat) (x : option A) (d : adec B) (w : string) : option (A * B) :=
  match x, d w 0%nat p with Some a, Some b => Some (a, b) | _, _ => None end.

Definition abi_decode_data (w : string) : option (N * list string * list string * list string) :=
  a_pair 96%nat (a_pair 64%nat (a_pair 32%nat (a_uint w 0%nat 0%nat) (a_array a_bytes32) w) (a_array a_bytes) w) (a_array a_bytes) w.
Definition abi_decode_params (w : string) : option (string * string * string * string) :=
  a_pair 96%nat (a_pair 64%nat (a_pair 32%nat (a_bytes w 0%nat 0%nat) a_bytes w) a_address w) a_bytes32 w.
Definition abi_decode_operators (w : string) : option (list string * list N * N) :=
  a_pair 64%nat (a_pair 32%nat (a_array a_address w 0%nat 0%nat) (a_array a_uint) w) a_uint w.
Definition abi_decode_proof (w : string) : option (list string * list N * N * list string) :=
  a_pair 96%nat (a_pair 64%nat (a_pair 32%nat (a_array a_address w 0%nat 0%nat) (a_array a_uint) w) a_uint w) (a_array a_bytes) w.
(** [execute(bytes)]: four selector bytes, then one [bytes] holding a pair *)
Definition abi_decode_execute (w : string) : option (string * string) :=
  match a_bytes (sdrop 4 w) 0%nat 0%nat with
  | Some i => a_pair 32%nat (a_bytes i 0%nat 0%nat) a_bytes i
  | None => None
  end.

(** What a receiver is meant to see. *)
Definition data_view (d : data) : N * list string * list string * list string :=
  (d_chain d, c_id <$> d_commands d, command_type_str ∘ c_ty <$> d_commands d, c_params <$> d_commands d).

(** The types' bounds: a [Uint256] and, for BCS, 32-byte command ids. *)
Definition data_ok (d : data) : Prop :=
  d_chain d < U256 /\ Forall (fun c => String.length (c_id c) = 32%nat) (d_commands d).

(** The members of a worker set, in no particular order. *)
Definition members (ws : worker_set) : list signer := (map_to_list (ws_signers ws)).*2.
Definition set_ok (ws : worker_set) : Prop :=
  ws_threshold ws < U256 /\ Forall (fun sg => sg_weight sg < U256) (members ws).
Definition signers_ok (quorum : N) (signers : list (signer * option signature)) : Prop :=
  quorum < U256 /\ Forall (fun x => sg_weight x.1 < U256) signers.

(** Ethabi computes offsets in 32 bits. *)
Definition fits (e : encoder) (s : string) : Prop := match e with Abi => slen s < 2 ^ 32 | Bcs => True end.
Definition decode_operators (e : encoder) : string -> option (list string * list N * N) :=
  match e with Abi => abi_decode_operators | Bcs => bcs_decode_operators end.
Definition decode_proof (e : encoder) : string -> option (list string * list N * N * list string) :=
  match e with Abi => abi_decode_proof | Bcs => bcs_decode_proof end.
Definition decode_data (e : encoder) : string -> option (N * list string * list string * list string) :=
  match e with Abi => abi_decode_data | Bcs => bcs_decode_data end.
Definition decode_params (e : encoder) : string -> option (string * string * string * string) :=
  match e with Abi => abi_decode_params | Bcs => bcs_decode_params end.
Definition decode_execute (e : encoder) : string -> option (string * string) :=
  match e with Abi => abi_decode_execute | Bcs => bcs_decode_execute end.

Definition ascending (l : list string) : Prop := StronglySorted (fun a b => String.leb a b = true) l.
Definition strictly_ascending (l : list string) : Prop := StronglySorted (fun a b => String.ltb a b = true) l.

Section Dest.
  Context (keccak : string -> string) (sec1 : string -> option string).
  (** how the destination chain names the owner of a public key *)
  Definition dest_addr (e : encoder) (pk : string) : option string :=
    match e with
    | Abi => match sec1 pk with Some p => Some (sdrop 12 (keccak p)) | None => None end
    | Bcs => Some pk
    end.
  Definition dest_entry (e : encoder) (sg : signer) : option (string * N) :=
    match dest_addr e (pk_bytes (sg_key sg)) with Some a => Some (a, sg_weight sg) | None => None end.
  Definition dest_operator (e : encoder) (x : signer * option signature) : option operator :=
    match dest_addr e (pk_bytes (sg_key x.1)) with
    | Some a => Some {| op_addr := a; op_weight := sg_weight x.1; op_sig := x.2 |}
    | None => None
    end.
End Dest.

(** The strings hashed to get a batch's digest, and absence of a collision
    among given strings. *)
Definition hashed (keccak : string -> string) (b : batch) : list string :=
  match b_encoder b, bcs_encode (b_data b) with
  | Abi, _ => [abi_encode_data (b_data b); abi_prefix +:+ keccak (abi_encode_data (b_data b))]
  | Bcs, Ok e => [bcs_prefix +:+ e]
  | Bcs, _ => []
  end.
Definition no_collision (keccak : string -> string) (l : list string) : Prop :=
  forall x y, x ∈ l -> y ∈ l -> keccak x = keccak y -> x = y.

(** Bytes of the destination address of a message. *)
Definition dest_bytes (e : encoder) (dst : string) : option string :=
  match e with
  | Abi => h160_of dst
  | Bcs => match of_hex (strip_0x dst) with Some b => bytes32 b | None => None end
  end.

(** Message ids without commas; message ids naming an event of a
    transaction, as the voting verifier demands (tx and log index). *)
Definition plain_id (i : ccid) : Prop :=
  contains ":" (cc_chain i) = false /\ contains "," (cc_chain i) = false /\ contains "," (cc_id i) = false.
Definition event_id (i : ccid) : Prop :=
  contains ":" (cc_chain i) = false /\
  exists tx n, contains ":" tx = false /\ cc_id i = tx +:+ ":" +:+ dec n.

(** What a command to approve a message says about it. *)
Definition meaning (e : encoder) (m : message) : ccid * string * option string * string :=
  (m_cc m, m_src m, dest_bytes e (m_daddr m), m_hash m).

(** The fields a receiver of the older format reads after the payload hash:
    a transaction hash and an event index. *)
Definition abi_decode_params6 (w : string) : option (string * string * string * string * string * N) :=
  a_pair 160%nat (a_pair 128%nat (abi_decode_params w) a_bytes32 w) a_uint w.

(** The signature the destination chain checks for a worker's signature: of a
    65-byte ECDSA signature the last byte says which of the candidate keys is
    meant, counted from 27 on EVM chains and from 0 elsewhere. A signature for
    which no candidate is the signer's key does not appear. *)
Definition dest_sig (recover : string -> string -> string -> option N) (e : encoder) (digest : string)
    (x : signer * option signature) : signer * option signature :=
  (x.1, match x.2 with
        | Some (SigEcdsa b) =>
            match recover digest (pk_bytes (sg_key x.1)) b, e with
            | Some r, Abi => Some (SigEcdsaRecoverable (b +:+ String (ascii_of_N (27 + r)) EmptyString))
            | Some r, Bcs => Some (SigEcdsaRecoverable (b +:+ String (ascii_of_N r) EmptyString))
            | None, _ => None
            end
        | other => other
        end).
