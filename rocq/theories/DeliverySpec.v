(** Vocabulary of the statements about what anybody can make happen in the
    whole system (C93, C94). *)
From stdpp Require Import sorting.
From Verif Require Import Base Text StdModel RouterTypes RegistryTypes OperatorsModel MultisigTypes
  RouterModel GatewayModel NexusModel RewardsModel RegistryModel VerifierModel VerifierSpec MultisigModel MultisigSpec EncodingModel
  ProverModel SigningModel SystemModel SystemSpec.

(** Transactions in the order of their blocks. *)
Definition in_blocks (txs : list tx) : Prop := StronglySorted N.le ((fun t => en_height (tx_env t)) <$> txs).

(** The same, after block [h0], with block numbers of 64 bits. *)
Definition in_blocks_from (h0 : N) (txs : list tx) : Prop :=
  in_blocks txs /\ Forall (fun t => h0 <= en_height (tx_env t) < U64) txs.

(** A multisig with history [l] starts a session for [p]: [p] is authorized, and
    the session's number fits in 64 bits. *)
Definition may_start (l : list (mop * mout)) (p : addr) : Prop :=
  authorized l p /\ N.of_nat (length (started_ids l)) + 1 < U64.
(** The number of its next session. *)
Definition next_session (l : list (mop * mout)) : N := N.of_nat (length (started_ids l)) + 1.

(** Who submitted signatures to session [id] of multisig [m], oldest first. *)
Definition submitters (m : addr) (l : list call) (id : N) : list addr :=
  omap (fun k => if bool_decide (k_to k = m) then
                   match sb_body (k_sub k) with
                   | BSubmitSignature i _ => if i =? id then Some (k_sender k) else None
                   | _ => None
                   end
                 else None) l.

(** The sessions of multisig [m] started by anybody, by who started them. *)
Definition sessions_started (m : addr) (l : list call) : list addr :=
  omap (fun k => if bool_decide (k_to k = m) then
                   match sb_body (k_sub k) with BStartSession _ _ _ => Some (k_sender k) | _ => None end
                 else None) l.

Section Spec.
  Context (keccak : string -> string).

  (** During the calls [l] prover [p] was called and asked its worker set, then
      [cur], to sign [digest]; this started session [id] of its multisig. *)
  Definition session_begun (wshash : worker_set -> string) (sec1 : string -> option string)
      (p : addr) (c : pconfig) (l : list call) (id : N) (cur : worker_set) (digest : string) : Prop :=
    exists l1 k l2 ps ps' pc to w ch, l = l1 ++ k :: l2 /\ k_to k = p /\ sb_body (k_sub k) = BProver pc /\
      k_chain k !! p = Some (CProver c ps) /\ query_worker_set ps = Ok cur /\
      prover_execute keccak wshash sec1 c (prover_env keccak (k_env k) (k_index k) (k_chain k)) ps pc =
        Ok (ps', MsgStart to w digest ch) /\
      id = N.of_nat (length (sessions_started (pc_multisig c) l1)) + 1.

  (** During the calls [l], verifier [v] was asked about messages and opened a
      poll, message [m] being item number [idx] of it (the last such item, if
      it is there several times); afterwards enough of the workers active at
      that moment voted for that item in time. *)
  Definition message_vouched (v : addr) (vc : vconfig) (l : list call) (m : message) : Prop :=
    exists l1 k l2 vs vs' ms statuses events meta workers idx,
      l = l1 ++ k :: l2 /\ k_to k = v /\ k_chain k !! v = Some (CVerifier vs) /\ sb_body (k_sub k) = BVerify ms /\
      verify_messages keccak vs (en_height (k_env k)) (q_active (k_env k) (k_index k) (k_chain k)) ms =
        Ok (vs', OutVerify statuses (Some (events, meta))) /\
      (let asked := List.filter (wants_poll keccak vs) ms in
       asked !! idx = Some m /\
       forall j m', asked !! j = Some m' -> message_key keccak m' = message_key keccak m -> (j <= idx)%nat) /\
      named vc k workers /\
      voted v (vc_threshold vc) l2 (pm_poll_id meta) (en_height (k_env k) + vc_expiry vc) workers idx.

  (** The same for a worker set, which nobody asked about again since. *)
  Definition operators_vouched (v : addr) (vc : vconfig) (l : list call) (o : operators) : Prop :=
    exists l1 k l2 vs vs' mid tx n meta workers,
      l = l1 ++ k :: l2 /\ k_to k = v /\ k_chain k !! v = Some (CVerifier vs) /\
      sb_body (k_sub k) = BVerifyWorkerSet mid o /\
      verify_worker_set keccak vs (en_height (k_env k)) (q_active (k_env k) (k_index k) (k_chain k)) mid o =
        Ok (vs', OutWorkerSet tx n o meta) /\
      named vc k workers /\
      voted v (vc_threshold vc) l2 (pm_poll_id meta) (en_height (k_env k) + vc_expiry vc) workers 0 /\
      forall k' mid' o', k' ∈ l2 -> k_to k' = v -> sb_body (k_sub k') = BVerifyWorkerSet mid' o' ->
        operators_key keccak o' <> operators_key keccak o.

  (** Call [k] made verifier [v] open poll [id], with [items] items, for these
      workers, until block [expires]. *)
  Definition poll_opened (v : addr) (vc : vconfig) (k : call) (id expires : N) (workers : list worker) (items : nat) : Prop :=
    k_to k = v /\ named vc k workers /\ expires = en_height (k_env k) + vc_expiry vc /\
    exists vs vs' meta, k_chain k !! v = Some (CVerifier vs) /\ pm_poll_id meta = id /\
      ((exists ms statuses events, sb_body (k_sub k) = BVerify ms /\ items = length events /\
          verify_messages keccak vs (en_height (k_env k)) (q_active (k_env k) (k_index k) (k_chain k)) ms =
            Ok (vs', OutVerify statuses (Some (events, meta)))) \/
       (exists mid o tx n o', sb_body (k_sub k) = BVerifyWorkerSet mid o /\ items = 1%nat /\
          verify_worker_set keccak vs (en_height (k_env k)) (q_active (k_env k) (k_index k) (k_chain k)) mid o =
            Ok (vs', OutWorkerSet tx n o' meta))).
End Spec.
