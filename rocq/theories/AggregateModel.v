(** contracts/aggregate-verifier: passes requests on to one voting verifier.

    Simplification: binary payloads are the JSON value they spell (or
    [Junk]); reading and writing JSON text (serde-json-wasm) is not modelled.
    What is modelled is which Rust type a value is read as. *)
From Verif Require Import Base Text StdModel RegistryTypes RouterTypes OperatorsModel VerifierModel.

Inductive json :=
| JNull | JBool (b : bool) | JNum (n : N) | JStr (s : string)
| JArr (l : list json) | JObj (l : list (string * json)).
Inductive payload := Json (j : json) | Junk (bytes : string).

(** contracts/connection-router/src/state.rs:217-222, with serde's derive: an
    object of the two fields, in any order; chain names and ids are checked *)
Definition ccid_json (c : ccid) : json := JObj [("chain", JStr (cc_chain c)); ("id", JStr (cc_id c))].
Definition ccid_parts (chain id : string) : option ccid :=
  match chain_name_of chain, nonempty_string_of id with
  | Some c, Some i => Some {| cc_chain := c; cc_id := i |}
  | _, _ => None
  end.
Definition json_ccid (j : json) : option ccid :=
  match j with
  | JObj [(k1, JStr a); (k2, JStr b)] =>
      if String.eqb k1 "chain" && String.eqb k2 "id" then ccid_parts a b
      else if String.eqb k1 "id" && String.eqb k2 "chain" then ccid_parts b a
      else None
  | _ => None
  end.

(** [Vec<(CrossChainId, bool)>]: an array of arrays of two *)
Definition statuses_json (l : list (ccid * bool)) : json :=
  JArr ((fun x => JArr [ccid_json x.1; JBool x.2]) <$> l).
Definition json_status (j : json) : option (ccid * bool) :=
  match j with
  | JArr [i; JBool b] => match json_ccid i with Some c => Some (c, b) | None => None end
  | _ => None
  end.
Definition json_statuses (p : payload) : option (list (ccid * bool)) :=
  match p with Json (JArr l) => mapM json_status l | _ => None end.

(** [Binary]: a string in base 64, decoded by [b64] *)
Definition json_binary (b64 : string -> option payload) (p : payload) : option payload :=
  match p with Json (JStr s) => b64 s | _ => None end.

(** error.rs:5-15; parse errors are StdError *)
Inductive aerror := AVerifier | AStd | AInvalidReply.

(** contract.rs:46-67 [verify_messages]: the one message of the response,
    with a reply on success *)
Definition agg_execute (verifier : addr) (ms : list message) : addr * list message := (verifier, ms).

(** contract.rs:72-95 [reply]; the reply holds no data, or data *)
Definition agg_reply (data : option payload) : res aerror payload :=
  match data with
  | Some d => match json_statuses d with Some _ => Ok d | None => Err AStd end
  | None => Err AInvalidReply
  end.

Section Aggregate.
  (** The contract called: it may change the state, and may return data. *)
  Context {S : Type} (call : addr -> S -> list message -> option (S * option payload)).
  (** contract.rs:33-44 [execute], with the message executed and the reply;
      the response's data and the new state of the contract called *)
  Definition agg_verify (verifier : addr) (s : S) (ms : list message) : res aerror (S * payload) :=
    let (to, ms') := agg_execute verifier ms in
    let? (s', data) := of_option AVerifier (call to s ms') in
    let? d := agg_reply data in
    Ok (s', d).

  (** contract.rs:97-108 [query]: the answer is read as [Binary] *)
  Context (ask : addr -> S -> list message -> option payload) (b64 : string -> option payload).
  Definition agg_query (verifier : addr) (s : S) (ms : list message) : res aerror payload :=
    let? a := of_option AVerifier (ask verifier s ms) in
    of_option AStd (json_binary b64 a).
End Aggregate.

(** contracts/voting-verifier/src/contract.rs:34-51, execute.rs:86-88,
    msg.rs:71-74: the voting verifier at address [me] as the contract called *)
Definition voting_call (keccak : string -> string) (height : N) (reg : registry_oracle) (me to : addr) (s : vstate) (ms : list message)
  : option (vstate * option payload) :=
  if String.eqb to me then
    match verify_messages keccak s height reg ms with
    | Ok (s', OutVerify l _) => Some (s', Some (Json (JObj [("verification_statuses", statuses_json l)])))
    | _ => None
    end
  else None.
(** contracts/voting-verifier/src/contract.rs:52-64 [query] *)
Definition voting_ask (keccak : string -> string) (me to : addr) (s : vstate) (ms : list message) : option payload :=
  if String.eqb to me then
    match is_verified keccak s ms with Ok l => Some (Json (statuses_json l)) | _ => None end
  else None.
