(** Model of contracts/multisig-prover/src/encoding and types.rs: command
    batches and their BCS and ABI forms. The bcs 0.1.5, ethabi 18.0.0 and
    fixed-hash crates are external; the parts used are modelled here from
    their definitions. *)
From Verif Require Import Base Text StdModel RouterTypes MultisigTypes OperatorsModel.

(** mod.rs:17-22 [Encoder] *)
Inductive encoder := Abi | Bcs.
Global Instance encoder_eq_dec : EqDecision encoder.
Proof. solve_decision. Defined.

(** types.rs:17-21 [CommandType], 23-30 [Display] *)
Inductive command_type := ApproveContractCall | TransferOperatorship.
Global Instance command_type_eq_dec : EqDecision command_type.
Proof. solve_decision. Defined.
Definition command_type_str (t : command_type) : string :=
  match t with ApproveContractCall => "approveContractCall" | TransferOperatorship => "transferOperatorship" end.

(** types.rs:32-37 [Command], mod.rs:129-133 [Data], types.rs:86-92
    [CommandBatch]; a batch id is the string of its bytes. *)
Record command := { c_id : string; c_ty : command_type; c_params : string }.
Record data := { d_chain : N; d_commands : list command }.
Record batch := { b_id : string; b_ids : list ccid; b_data : data; b_encoder : encoder }.

(** types.rs:94-100 [Operator] *)
Record operator := { op_addr : string; op_weight : N; op_sig : option signature }.

(** error.rs, the cases the modelled code raises *)
Inductive perror :=
| PStd | InvalidMessage | InvalidPublicKey | InvalidContractReply | PServiceRegistry | PNonEmpty | PBcs
| WorkerSetUnchanged | WorkerSetNotConfirmed | WorkerSetConfirmationInProgress | NoWorkerSet.

Definition slen (s : string) : N := N.of_nat (String.length s).
Fixpoint stake (n : nat) (s : string) : string :=
  match n, s with S n', String c s' => String c (stake n' s') | _, _ => EmptyString end.
Fixpoint sdrop (n : nat) (s : string) : string :=
  match n, s with S n', String _ s' => sdrop n' s' | _, _ => s end.
Fixpoint sconcat (l : list string) : string :=
  match l with [] => EmptyString | s :: l' => s +:+ sconcat l' end.
(** [<[u8; 32]>::try_from] *)
Definition bytes32 (s : string) : option string := if (String.length s =? 32)%nat then Some s else None.

(** ** BCS (bcs 0.1.5, ser.rs) *)

(** little-endian integers *)
Fixpoint le_bytes (len : nat) (n : N) : string :=
  match len with O => EmptyString | S l => String (ascii_of_N (n mod 256)) (le_bytes l (n / 256)) end.
(** [write_u32_as_uleb128]; a [u32] needs at most five bytes *)
Fixpoint uleb_go (fuel : nat) (n : N) : string :=
  match fuel with
  | O => EmptyString
  | S f => if n <? 128 then String (ascii_of_N n) EmptyString
           else String (ascii_of_N (n mod 128 + 128)) (uleb_go f (n / 128))
  end.
Definition uleb (n : N) : string := uleb_go 5 n.
(** [MAX_SEQUENCE_LENGTH], [serialize_seq]: longer sequences are an error *)
Definition BCS_MAX : N := 2 ^ 31 - 1.
Definition bcs_len (n : N) : option string := if n <=? BCS_MAX then Some (uleb n) else None.
(** [String] and [Vec<u8>]: length and bytes *)
Definition bcs_bytes (s : string) : option string :=
  match bcs_len (slen s) with Some l => Some (l +:+ s) | None => None end.
(** tuples: the fields one after the other *)
Fixpoint bcs_tuple (l : list (option string)) : option string :=
  match l with
  | [] => Some EmptyString
  | Some s :: l' => match bcs_tuple l' with Some r => Some (s +:+ r) | None => None end
  | None :: _ => None
  end.
(** [Vec<T>] *)
Definition bcs_seq {A} (f : A -> option string) (l : list A) : option string :=
  bcs_tuple (bcs_len (N.of_nat (length l)) :: (f <$> l)).

(** bcs.rs:184-190 [u256_to_u128], [u256_to_u64]: printed and parsed back *)
Definition u256_to_u128 (n : N) : res perror N := expect (parse_uint U128 (dec n)).
Definition u256_to_u64 (n : N) : res perror N := expect (parse_uint U64 (dec n)).

(** bcs.rs:118-142 [encode], 110-116 [make_command_id] *)
Definition bcs_encode (d : data) : res perror string :=
  let? chain := u256_to_u64 (d_chain d) in
  let? ids := try_map (fun c => expect (bytes32 (c_id c))) (d_commands d) in
  expect (bcs_tuple [Some (le_bytes 8 chain);
                     bcs_seq Some ids;
                     bcs_seq bcs_bytes (command_type_str ∘ c_ty <$> d_commands d);
                     bcs_seq bcs_bytes (c_params <$> d_commands d)]).

(** [strip_prefix("0x").unwrap_or] *)
Definition strip_0x (s : string) : string :=
  match s with String "0" (String "x" r) => r | _ => s end.

(** bcs.rs:79-108 [command_params]; [HexBinary::from_hex] *)
Definition bcs_command_params (chain src dst hash : string) : res perror string :=
  let? bytes := of_option PStd (of_hex (strip_0x dst)) in
  let? d := of_option InvalidMessage (bytes32 bytes) in
  expect (bcs_tuple [bcs_bytes chain; bcs_bytes src; Some d; bcs_bytes hash]).

(** ** ABI (ethabi 18.0.0, encoder.rs) *)

(** The tokens used by abi.rs. *)
Inductive token :=
| TAddress (b : string)
| TUint (n : N)
| TFixedBytes (b : string)
| TBytes (b : string)
| TString (b : string)
| TArray (l : list token).

(** [pad_u32]: 32 bytes. Simplification: offsets and lengths are exact,
    whereas ethabi computes them in [u32]; the theorems ask for encodings
    shorter than 2^32 bytes. *)
Definition word (n : N) : string := be_bytes 32 n.
Fixpoint zeros (n : nat) : string := match n with O => EmptyString | S n' => String Ascii.zero (zeros n') end.
(** [fixed_bytes_append]: right-padded to whole words *)
Definition pad_right (s : string) : string :=
  s +:+ zeros (((String.length s + 31) / 32) * 32 - String.length s)%nat.
(** [Token::is_dynamic] restricted to the tokens above, [encode_token]:
    [Raw] or [Prefixed] *)
Definition is_dynamic (t : token) : bool :=
  match t with TBytes _ | TString _ | TArray _ => true | _ => false end.
(** [encode_token_append] of a [Raw] token *)
Definition raw_head (t : token) : string :=
  match t with
  | TAddress b => zeros 12 +:+ b
  | TUint n => word n
  | TFixedBytes b => pad_right b
  | _ => EmptyString
  end.
(** [Mediate::head_len] *)
Definition head_len (t : token) : N := if is_dynamic t then 32 else slen (raw_head t).
(** [encode_head_tail_append]: heads, with the offsets of the tails, then
    tails; [encode_tail] is [tail_append]. *)
Fixpoint heads (off : N) (l : list (token * string)) : string :=
  match l with
  | [] => EmptyString
  | (t, tail) :: l' => (if is_dynamic t then word off else raw_head t) +:+ heads (off + slen tail) l'
  end.
Definition heads_tails (enc : list (token * string)) : string :=
  heads (lsum (fun x => head_len x.1) enc) enc +:+ sconcat enc.*2.
Fixpoint encode_tail (t : token) : string :=
  match t with
  | TBytes b | TString b => word (slen b) +:+ pad_right b
  | TArray l => word (N.of_nat (length l)) +:+ heads_tails (map (fun t => (t, encode_tail t)) l)
  | _ => EmptyString
  end.
(** [ethabi::encode] *)
Definition abi_encode (l : list token) : string := heads_tails (map (fun t => (t, encode_tail t)) l).

(** abi.rs:22-46 [encode] *)
Definition abi_encode_data (d : data) : string :=
  abi_encode [TUint (d_chain d);
              TArray (TFixedBytes ∘ c_id <$> d_commands d);
              TArray (TString ∘ command_type_str ∘ c_ty <$> d_commands d);
              TArray (TBytes ∘ c_params <$> d_commands d)].

(** [H160::from_str] (fixed-hash 0.8.0, rustc-hex 2.1.0): optional prefix,
    white space between the digits is skipped, exactly 20 bytes. *)
Definition is_hex_space (c : ascii) : bool :=
  match N_of_ascii c with 32 | 13 | 10 | 9 => true | _ => false end.
Fixpoint drop_spaces (s : string) : string :=
  match s with
  | EmptyString => EmptyString
  | String c s' => if is_hex_space c then drop_spaces s' else String c (drop_spaces s')
  end.
Definition h160_of (s : string) : option string :=
  match of_hex (drop_spaces (strip_0x s)) with
  | Some b => if (String.length b =? 20)%nat then Some b else None
  | None => None
  end.

(** abi.rs:215-236 [command_params] *)
Definition abi_command_params (chain src dst hash : string) : res perror string :=
  let? d := of_option InvalidMessage (h160_of dst) in
  Ok (abi_encode [TString chain; TString src; TAddress d; TFixedBytes hash; TFixedBytes ""; TUint 0]).

Section Encoding.
  (** Keccak-256 *)
  Context (keccak : string -> string).
  (** worker_set.rs:49-53 [WorkerSet::hash]: hash of the JSON form *)
  Context (wshash : worker_set -> string).
  (** k256: the 64 bytes of the uncompressed point of a SEC1 key, if valid *)
  Context (sec1 : string -> option string).
  (** k256: recovery id of a signature for a digest and a key, if any *)
  Context (recover : string -> string -> string -> option N).

  (** abi.rs:205-213 [evm_address] *)
  Definition evm_address (pk : string) : res perror string :=
    let? p := of_option InvalidPublicKey (sec1 pk) in Ok (sdrop 12 (keccak p)).
  (** ... followed by [expect] *)
  Definition evm_address_expect (pk : string) : res perror string :=
    match evm_address pk with Ok a => Ok a | _ => Panic end.

  (** [BTreeMap::values] *)
  Definition signers_of (ws : worker_set) : list signer := (btree_iter (ws_signers ws)).*2.

  (** abi.rs:134-144, 174-184 and bcs.rs:20-27, 30-35: addresses and weights *)
  Definition abi_operator_list (ws : worker_set) : res perror (list (string * N)) :=
    try_map (fun sg => let? a := evm_address_expect (pk_bytes (sg_key sg)) in Ok (a, sg_weight sg)) (signers_of ws).
  Definition bcs_operator_list (ws : worker_set) : list (string * N) :=
    (fun sg => (pk_bytes (sg_key sg), sg_weight sg)) <$> signers_of ws.

  (** mod.rs:149-154, abi.rs:133-146, bcs.rs:20-27 [make_operators] *)
  Definition make_operators (e : encoder) (ws : worker_set) : res perror operators :=
    match e with
    | Abi => let? l := abi_operator_list ws in Ok (operators_new l (ws_threshold ws))
    | Bcs => Ok (operators_new (bcs_operator_list ws) (ws_threshold ws))
    end.

  Definition sort_by_addr (l : list (string * N)) : list (string * N) :=
    isort (fun a b => String.leb a.1 b.1) l.

  (** abi.rs:173-203, bcs.rs:29-43 [transfer_operatorship_params];
      [Address::from_slice] panics unless 20 bytes long *)
  Definition address_token (a : string) : res perror token :=
    if (String.length a =? 20)%nat then Ok (TAddress a) else Panic.
  Definition abi_transfer_params (ws : worker_set) : res perror string :=
    let? l := abi_operator_list ws in
    let? addrs := try_map (fun o => address_token o.1) (sort_by_addr l) in
    Ok (abi_encode [TArray addrs; TArray (TUint ∘ snd <$> sort_by_addr l); TUint (ws_threshold ws)]).
  Definition bcs_transfer_params (ws : worker_set) : res perror string :=
    let l := sort_by_addr (bcs_operator_list ws) in
    let? weights := try_map (fun o => u256_to_u128 o.2) l in
    let? q := u256_to_u128 (ws_threshold ws) in
    of_option PBcs (bcs_tuple [bcs_seq bcs_bytes l.*1; bcs_seq (fun w => Some (le_bytes 16 w)) weights;
                               Some (le_bytes 16 q)]).

  (** mod.rs:144-147 [command_id] *)
  Definition command_id (id : ccid) : string := keccak (ccid_to_string id).

  (** mod.rs:24-43 [make_command] *)
  Definition make_command (e : encoder) (m : message) : res perror command :=
    let? params := match e with
                   | Abi => abi_command_params (cc_chain (m_cc m)) (m_src m) (m_daddr m) (m_hash m)
                   | Bcs => bcs_command_params (cc_chain (m_cc m)) (m_src m) (m_daddr m) (m_hash m)
                   end in
    Ok {| c_id := command_id (m_cc m); c_ty := ApproveContractCall; c_params := params |}.

  (** mod.rs:45-58 [make_transfer_operatorship] *)
  Definition make_transfer (e : encoder) (ws : worker_set) : res perror command :=
    let? params := match e with Abi => abi_transfer_params ws | Bcs => bcs_transfer_params ws end in
    Ok {| c_id := wshash ws; c_ty := TransferOperatorship; c_params := params |}.

  (** types.rs:70-83 [BatchId::new]: [HexBinary]'s [to_string] is its hex *)
  Definition batch_id_preimage (ids : list ccid) (ws : option worker_set) : string :=
    join "," (isort String.leb (ccid_to_string <$> ids) ++
              match ws with Some w => [to_hex (wshash w)] | None => [] end).
  Definition batch_id (ids : list ccid) (ws : option worker_set) : string :=
    keccak (batch_id_preimage ids ws).

  (** mod.rs:60-107 [CommandBatchBuilder]: [new], then [add_new_worker_set]
      if any, [add_message] for each message, [build] *)
  Definition build_batch (chain : N) (e : encoder) (ws : option worker_set) (msgs : list message)
    : res perror batch :=
    let? cs := match ws with Some w => let? c := make_transfer e w in Ok [c] | None => Ok [] end in
    let? ms := try_map (make_command e) msgs in
    Ok {| b_id := batch_id (m_cc <$> msgs) ws; b_ids := m_cc <$> msgs;
          b_data := {| d_chain := chain; d_commands := cs ++ ms |}; b_encoder := e |}.

  (** mod.rs:135-142 [Data::encode] *)
  Definition encode_data (e : encoder) (d : data) : res perror string :=
    match e with Abi => Ok (abi_encode_data d) | Bcs => bcs_encode d end.

  (** mod.rs:110-115, abi.rs:48-59, bcs.rs:144-152 [msg_digest] *)
  Definition abi_prefix : string := String (ascii_of_N 25) ("Ethereum Signed Message:" +:+ String (ascii_of_N 10) "32").
  Definition bcs_prefix : string := String (ascii_of_N 25) ("Sui Signed Message:" +:+ String (ascii_of_N 10) "").
  Definition msg_digest (b : batch) : res perror string :=
    match b_encoder b with
    | Abi => Ok (keccak (abi_prefix +:+ keccak (abi_encode_data (b_data b))))
    | Bcs => let? e := bcs_encode (b_data b) in Ok (keccak (bcs_prefix +:+ e))
    end.

  (** key.rs:31-53 [to_recoverable]; abi.rs:169-171 [add27]; bcs.rs passes
      [identity]. A signature that cannot be converted is dropped. *)
  Definition transform (e : encoder) (r : N) : N := match e with Abi => r + 27 | Bcs => r end.
  Definition convert_sig (e : encoder) (digest : string) (sg : signer) (sig : option signature)
    : option signature :=
    match sig with
    | Some (SigEcdsa b) =>
        match recover digest (pk_bytes (sg_key sg)) b with
        | Some r => Some (SigEcdsaRecoverable (b +:+ String (ascii_of_N (transform e r)) ""))
        | None => None
        end
    | _ => sig
    end.

  (** [derive(Ord)] of [Operator] (types.rs:94-100) and [Signature]
      (key.rs:16-22): field by field, constructors in order *)
  Definition lex (a b : comparison) : comparison := match a with Eq => b | _ => a end.
  Definition sig_rank (s : signature) : N :=
    match s with SigEcdsa _ => 0 | SigEcdsaRecoverable _ => 1 | SigEd25519 _ => 2 end.
  Definition sig_cmp (a b : signature) : comparison :=
    lex (N.compare (sig_rank a) (sig_rank b)) (String.compare (sig_bytes a) (sig_bytes b)).
  Definition opt_sig_cmp (a b : option signature) : comparison :=
    match a, b with
    | None, None => Eq | None, Some _ => Lt | Some _, None => Gt
    | Some a, Some b => sig_cmp a b
    end.
  Definition operator_cmp (a b : operator) : comparison :=
    lex (String.compare (op_addr a) (op_addr b))
        (lex (N.compare (op_weight a) (op_weight b)) (opt_sig_cmp (op_sig a) (op_sig b))).
  Definition operator_leb (a b : operator) : bool :=
    match operator_cmp a b with Gt => false | _ => true end.

  (** abi.rs:148-167, bcs.rs:68-77: the operators of the signers *)
  Definition signer_operator (e : encoder) (x : signer * option signature) : res perror operator :=
    let? a := match e with
              | Abi => evm_address (pk_bytes (sg_key x.1))
              | Bcs => Ok (pk_bytes (sg_key x.1))
              end in
    Ok {| op_addr := a; op_weight := sg_weight x.1; op_sig := x.2 |}.
  Definition proof_operators (e : encoder) (signers : list (signer * option signature))
    : res perror (list operator) :=
    let? ops := try_map (signer_operator e) signers in Ok (isort operator_leb ops).

  (** abi.rs:99-131, bcs.rs:45-66 [encode_proof] *)
  Definition proof_sigs (ops : list operator) : list string := omap (fun o => sig_bytes <$> op_sig o) ops.
  Definition encode_proof (e : encoder) (quorum : N) (signers : list (signer * option signature))
    : res perror string :=
    let? ops := proof_operators e signers in
    match e with
    | Abi =>
        let? addrs := try_map (fun o => address_token (op_addr o)) ops in
        Ok (abi_encode [TArray addrs; TArray (TUint ∘ op_weight <$> ops); TUint quorum;
                        TArray (TBytes <$> proof_sigs ops)])
    | Bcs =>
        let? weights := try_map (fun o => u256_to_u128 (op_weight o)) ops in
        let? q := u256_to_u128 quorum in
        of_option PBcs (bcs_tuple [bcs_seq bcs_bytes (op_addr <$> ops);
                                   bcs_seq (fun w => Some (le_bytes 16 w)) weights;
                                   Some (le_bytes 16 q); bcs_seq bcs_bytes (proof_sigs ops)])
    end.

  (** mod.rs:117-126, abi.rs:61-97, bcs.rs:154-182 [encode_execute_data]; [short_signature]
      is the first four bytes of the hash of the function's signature. *)
  Definition encode_execute_data (b : batch) (quorum : N) (signers : list (signer * option signature))
    : res perror string :=
    let? digest := msg_digest b in
    let signers' := (fun x => (x.1, convert_sig (b_encoder b) digest x.1 x.2)) <$> signers in
    let? e := encode_data (b_encoder b) (b_data b) in
    let? p := encode_proof (b_encoder b) quorum signers' in
    match b_encoder b with
    | Abi => Ok (stake 4 (keccak "execute(bytes)") +:+ abi_encode [TBytes (abi_encode [TBytes e; TBytes p])])
    | Bcs => of_option PBcs (bcs_tuple [bcs_bytes e; bcs_bytes p])
    end.
End Encoding.
