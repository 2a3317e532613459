(** C97, C98: the contracts over the bytes of their stores. *)
From Verif Require Import Base BaseLemmas Text StdModel RouterTypes MultisigTypes RegistryTypes.
From Verif Require Import RouterModel RegistryModel MultisigModel EncodingModel StorageModel StorageSpec.
From Verif Require Import StorageProofs StorageProofs2 StorageProofs3 StorageProofs4 StorageProofs5 StorageProofs6 StorageProofs7.
From Verif Require Import StorageExamples.

(** No two things any of the eight contracts stores share their bytes. *)
Theorem C97_entries_apart :
  apart (fun _ => True) rt_place /\ apart (fun _ => True) sr_place /\ apart ms_ok ms_place /\
  apart (fun _ => True) gw_place /\ apart (fun _ => True) nx_place /\ apart vv_ok vv_place /\
  apart rw_ok rw_place /\ apart pr_ok pr_place.
Proof.
  exact (conj apart_router (conj apart_registry (conj apart_multisig (conj apart_gateway (conj apart_nexus
    (conj apart_verifier (conj apart_rewards apart_prover))))))).
Qed.
Print Assumptions C97_entries_apart.

(** A program over declared places answers over the bytes as over a finite
    map of places, scans included. *)
Theorem C97_bytes_as_map {V E A} (L : layout) (p : prog V E A) (m : gmap string V) (t : gmap skey V) :
  proper L = true -> keeps L p -> stored L m t -> agree (stored L) (raw p m) (ideal p t).
Proof. exact (c97_faithful L p m t). Qed.
Print Assumptions C97_bytes_as_map.

Theorem C97_keys_read_back :
  (forall c pre x, with_length "outgoing_messages" = Some pre -> path (gw_message_key c) = Some x ->
     chain_name_of (cc_chain c) = Some (cc_chain c) -> nonempty_string_of (cc_id c) = Some (cc_id c) ->
     exists k, x = pre +:+ k /\ ccid_from_key k = Some c) /\
  (forall n, n < 2 ^ 64 -> poll_id_from_key (u64_key n) = Some n).
Proof. exact c97_read_back. Qed.
Print Assumptions C97_keys_read_back.

(** A leading part of more than 65535 bytes is the only thing that stops a
    key from being written, and it panics. *)
Theorem C97_long_parts_panic {V E} L (k : skey) (v : V) (m : gmap string V) :
  proper L = true -> place L k ->
  (fits k -> exists x, path k = Some x) /\
  (~ fits k ->
     raw (V:=V) (E:=E) (Get k Ret) m = Panic /\ raw (E:=E) (Put k v (Ret tt)) m = Panic /\
     raw (E:=E) (Del k (Ret tt)) m = Panic).
Proof. exact (c97_long_parts L k v m). Qed.
Print Assumptions C97_long_parts_panic.

(** The router over bytes: the same answers as the model, and its store holds
    exactly the model's state. *)
Theorem C98_router c ops :
  Forall router_call_ok ops ->
  let m := run router_bytes_step (router_bytes_init c) ops in
  let s := run router_step (router_init c) ops in
  log router_bytes_step (router_bytes_init c) ops = log router_step (router_init c) ops /\
  router_stored m s /\
  (forall op, router_call_ok op -> agree router_stored (router_bytes_step m op) (map_err SOwn (router_step s op))).
Proof. exact (c98_router c ops). Qed.
Print Assumptions C98_router.

(** The service registry, with the query of the active workers. *)
Theorem C98_registry g ops :
  Forall registry_call_ok ops ->
  let m := run registry_bytes_step (registry_bytes_init g) ops in
  let s := run registry_step (registry_init g) ops in
  log registry_bytes_step (registry_bytes_init g) ops = log registry_step (registry_init g) ops /\
  registry_stored m s /\
  (forall op, registry_call_ok op ->
     agree registry_stored (registry_bytes_step m op) (map_err SOwn (registry_step s op))) /\
  (forall svc chain, slen svc < 65535 -> slen chain < 65535 ->
     raw (q_active svc chain) m = let? ws := map_err SOwn (get_active_workers s svc chain) in Ok (m, ws)).
Proof. exact (c98_registry g ops). Qed.
Print Assumptions C98_registry.

(** The multisig contract, with the query of a session. *)
Theorem C98_multisig wsid crypto g r p ops :
  Forall multisig_call_ok ops ->
  let m := run (multisig_bytes_step wsid crypto) (multisig_bytes_init g r p) ops in
  let s := run (multisig_step wsid crypto) (multisig_init g r p) ops in
  log (multisig_bytes_step wsid crypto) (multisig_bytes_init g r p) ops =
    log (multisig_step wsid crypto) (multisig_init g r p) ops /\
  multisig_stored m s /\
  (forall op, multisig_call_ok op ->
     agree multisig_stored (multisig_bytes_step wsid crypto m op) (map_err SOwn (multisig_step wsid crypto s op))) /\
  (forall id, id < 2 ^ 64 -> raw (s_multisig id) m = let? r := map_err SOwn (get_multisig s id) in Ok (m, r)).
Proof. exact (c98_multisig wsid crypto g r p ops). Qed.
Print Assumptions C98_multisig.
