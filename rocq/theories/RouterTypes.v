(** Types of contracts/connection-router/src/state.rs shared by all
    contracts: chain names, cross-chain ids, messages. *)
From Verif Require Import Base Text.

(** state.rs:26 *)
Definition ID_SEPARATOR : ascii := ":".

(** state.rs:284-294 [FromStr for ChainName] (also [TryFrom<String>] 302-308
    and serde, through [try_from]). A chain name is its normalised string. *)
Definition chain_name_of (s : string) : option string :=
  if contains ID_SEPARATOR s || is_empty s then None else Some (lower s).

(** state.rs:316-320 [PartialEq<String> for ChainName] *)
Definition chain_name_eq_str (c other : string) : bool := String.eqb c (lower other).

(** nonempty/string.rs:14-24 [TryFrom<String> for nonempty::String] *)
Definition nonempty_string_of (s : string) : option string :=
  if is_empty s then None else Some s.

(** state.rs:217-222 [CrossChainId] *)
Record ccid := { cc_chain : string; cc_id : string }.
Global Instance ccid_eq_dec : EqDecision ccid.
Proof. solve_decision. Defined.
Global Instance ccid_countable : Countable ccid.
Proof.
  refine (inj_countable' (fun c => (cc_chain c, cc_id c))
                         (fun '(a, b) => {| cc_chain := a; cc_id := b |}) _).
  by intros [].
Defined.

(** state.rs:246-250 [Display for CrossChainId] *)
Definition ccid_to_string (c : ccid) : string :=
  cc_chain c +:+ String ID_SEPARATOR (cc_id c).

(** state.rs:225-244 [FromStr for CrossChainId] *)
Definition ccid_of_string (s : string) : option ccid :=
  match split_once ID_SEPARATOR s with
  | None => None
  | Some (chain, id) =>
      match chain_name_of chain, nonempty_string_of id with
      | Some c, Some i => Some {| cc_chain := c; cc_id := i |}
      | _, _ => None
      end
  end.

(** state.rs:160-171 [Message]; the payload hash is a string of 32 bytes. *)
Record message := {
  m_cc : ccid;
  m_src : string;
  m_dchain : string;
  m_daddr : string;
  m_hash : string;
}.
Global Instance message_eq_dec : EqDecision message.
Proof. solve_decision. Defined.

(** What deserialising a message guarantees: chain names are normalised
    (state.rs:279-294), ids and addresses non-empty (187, 221 with
    nonempty/string.rs:9-24), 32 hash bytes (170). *)
Definition wf_chain (c : string) : Prop := chain_name_of c = Some c.
Definition wf_message (m : message) : Prop :=
  wf_chain (cc_chain (m_cc m)) /\ cc_id (m_cc m) <> "" /\ m_src m <> "" /\
  wf_chain (m_dchain m) /\ m_daddr m <> "" /\ String.length (m_hash m) = 32%nat.

(** state.rs:175-183: the bytes fed to Keccak-256 by [Message::hash] *)
Definition message_preimage (m : message) : string :=
  ccid_to_string (m_cc m) +:+ m_src m +:+ m_dchain m +:+ m_daddr m +:+ m_hash m.
