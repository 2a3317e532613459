(** What the items of a poll must look like for ampd to decode them. *)
From Verif Require Import Base Text StdModel RouterTypes OperatorsModel EncodingModel VerifierModel EventsModel HandlersModel HandlersSpec.

(** A message of a Sui chain: the transaction's digest in base 58, the sender
    32 bytes. *)
Definition sui_form (b58 : string -> option string) (e : tx_event) : Prop :=
  is_Some (b58 (te_tx_id e)) /\ te_index e < 2 ^ 64 /\ wf_chain (te_dchain e) /\
  (exists s, hex_bytes 32 (te_src e) s) /\ String.length (te_hash e) = 32%nat.
(** Operators of an EVM chain: addresses of 20 bytes, numbers below 2^256. *)
Definition evm_operators_form (o : operators) : Prop :=
  Forall (fun p => String.length p.1 = 20%nat /\ p.2 < 2 ^ 256) (o_weights o) /\ o_threshold o < 2 ^ 256.
(** Operators of a Sui chain: numbers below 2^128, and not too much of anything. *)
Definition sui_operators_form (o : operators) : Prop :=
  Forall (fun p => N.of_nat (String.length p.1) < 2 ^ 31 /\ p.2 < 2 ^ 128) (o_weights o) /\ o_threshold o < 2 ^ 128 /\
  N.of_nat (length (o_weights o)) < 2 ^ 31.

(** The verifier's events as this handler's worker reads them: contract and
    participants are accounts, and nothing looks like JSON. *)
Definition plain_poll (acc : string -> bool) (json : string -> option jval) (cfg : hconfig) (meta : poll_metadata) : Prop :=
  acc (hc_contract cfg) = true /\ Forall (fun a => acc a = true) (pm_participants meta) /\
  json (hc_contract cfg) = None /\ json (pm_chain meta) = None /\ json (pm_gateway meta) = None /\
  wf_chain (pm_chain meta) /\ pm_poll_id meta < 2 ^ 64 /\ pm_confirmations meta < 2 ^ 64 /\ pm_expires_at meta < 2 ^ 64.
