(** Vocabulary of the C46-C49 statements about the prover. *)
From Verif Require Import Base Text StdModel StdSpec RegistryTypes RouterTypes MultisigTypes OperatorsModel
  MultisigModel EncodingModel EncodingSpec ProverModel.

(** The worker set the answers of the registry and the multisig describe:
    every active worker with weight one and the key registered for it, the
    least threshold that is the configured share of the number of workers,
    and the height. *)
Definition is_active_set (c : pconfig) (env : penv) (ws : worker_set) : Prop :=
  exists workers,
    pe_active env (pc_registry c) (pc_service c) (pc_chain c) = Some workers /\ workers <> [] /\
    Forall (fun w => exists n, w_bond w = Bonded n) workers /\
    (forall a, is_Some (ws_signers ws !! a) <-> a ∈ w_addr <$> workers) /\
    (forall a sg, ws_signers ws !! a = Some sg ->
       sg_addr sg = a /\ sg_weight sg = 1 /\
       pe_key env (pc_multisig c) a (pc_key_type c) = Some (sg_key sg)) /\
    least_share (ws_threshold ws) (N.of_nat (length workers)) (t_num (pc_threshold c)) (t_den (pc_threshold c)) /\
    ws_created ws = pe_height env.

(** Number of entries (address, weight and key) that are in exactly one of
    two worker sets: an address with the same entry on both sides counts
    nothing, otherwise it counts once for each side it is on. *)
Definition side {A} (o : option A) : N := match o with Some _ => 1 | None => 0 end.
Definition differing (new cur : worker_set) : N :=
  lsum (fun a => if bool_decide (ws_signers new !! a = ws_signers cur !! a) then 0
                 else side (ws_signers new !! a) + side (ws_signers cur !! a))
       (elements (dom (ws_signers new) ∪ dom (ws_signers cur))).

(** The same worker set, up to the height it was made at. *)
Definition same_set (a b : worker_set) : Prop :=
  ws_signers a = ws_signers b /\ ws_threshold a = ws_threshold b.
(** No other set is waiting. *)
Definition admits (next : option worker_set) (ws : worker_set) : Prop :=
  match next with Some w => same_set w ws | None => True end.

Section Spec.
  Context (keccak : string -> string) (wshash : worker_set -> string)
          (sec1 : string -> option string).
  Definition prun (c : pconfig) (ops : list pop) : pstate :=
    run (prover_step keccak wshash sec1 c) prover_init ops.
  Definition plog (c : pconfig) (ops : list pop) : list (pop * pout) :=
    log (prover_step keccak wshash sec1 c) prover_init ops.

  (** A batch with this id was announced. *)
  Definition announced (l : list (pop * pout)) (bid : string) : Prop :=
    exists e id, e ∈ l /\ px_event e.2 = Some (bid, id).

  (** A call that may propose a new worker set: [UpdateWorkerSet], and
      [ConstructProof] for a batch not announced before. *)
  Definition may_propose (l : list (pop * pout)) (call : pcall) : Prop :=
    match call with
    | UpdateWorkerSet => True
    | ConstructProof ids => ~ announced l (batch_id keccak wshash ids None)
    | ConfirmWorkerSet => False
    end.

  (** How current and waiting worker set follow from the accepted calls. *)
  Inductive sets_after (c : pconfig) : list (pop * pout) -> option worker_set -> option worker_set -> Prop :=
  | sets_none : sets_after c [] None None
  | sets_first l op out next ws :
      sets_after c l None next -> po_call op = UpdateWorkerSet ->
      is_active_set c (po_env op) ws ->
      px_msg out = MsgRegister (pc_multisig c) ws ->
      sets_after c (l ++ [(op, out)]) (Some ws) next
  | sets_propose l op out cur next ws :
      sets_after c l (Some cur) next -> may_propose l (po_call op) ->
      is_active_set c (po_env op) ws -> pc_diff c < differing ws cur -> admits next ws ->
      sets_after c (l ++ [(op, out)]) (Some cur) (Some ws)
  | sets_keep l op out cur next ids :
      sets_after c l (Some cur) next -> po_call op = ConstructProof ids ->
      (announced l (batch_id keccak wshash ids None) \/
       exists ws, is_active_set c (po_env op) ws /\ differing ws cur <= pc_diff c) ->
      sets_after c (l ++ [(op, out)]) (Some cur) next
  | sets_confirm l op out cur ws o :
      sets_after c l cur (Some ws) -> po_call op = ConfirmWorkerSet ->
      make_operators keccak sec1 (pc_encoder c) ws = Ok o ->
      pe_verified (po_env op) (pc_verifier c) o = Some true ->
      px_msg out = MsgRegister (pc_multisig c) ws ->
      sets_after c (l ++ [(op, out)]) (Some ws) None.

  (** The call makes batch [b]: an update's batch has no messages, and a proof
      request's the messages the gateway returned, unless the batch of that
      request was announced before; the batch starts with the transfer to the
      active worker set if that differs enough from the current one. *)
  Definition builds (c : pconfig) (l : list (pop * pout)) (op : pop) (b : batch) : Prop :=
    exists cur next ws new ms,
      sets_after c l (Some cur) next /\ is_active_set c (po_env op) ws /\
      build_batch keccak wshash sec1 (pc_chain_id c) (pc_encoder c) new ms = Ok b /\
      ((new = Some ws /\ pc_diff c < differing ws cur) \/ (new = None /\ differing ws cur <= pc_diff c)) /\
      match po_call op with
      | UpdateWorkerSet => ms = [] /\ is_Some new
      | ConstructProof ids =>
          pe_messages (po_env op) (pc_gateway c) ids = Some ms /\ length ms = length ids /\
          Forall (fun m => m_dchain m = pc_chain c) ms /\ ~ announced l (batch_id keccak wshash ids None)
      | ConfirmWorkerSet => False
      end.
  (** [b] is the batch last made under id [bid]. *)
  Definition last_built (c : pconfig) (l : list (pop * pout)) (bid : string) (b : batch) : Prop :=
    exists l1 op out l2, l = l1 ++ (op, out) :: l2 /\ builds c l1 op b /\ b_id b = bid /\
      forall la op' out' lb b', l2 = la ++ (op', out') :: lb ->
        builds c (l1 ++ (op, out) :: la) op' b' -> b_id b' <> bid.

  (** The response asks the multisig to let worker set [cur] sign batch [b],
      and announces it. *)
  Definition asks_to_sign (c : pconfig) (out : pout) (cur : worker_set) (b : batch) (id : N) : Prop :=
    exists digest, msg_digest keccak b = Ok digest /\
      px_msg out = MsgStart (pc_multisig c) (to_hex (wshash cur)) digest (pc_chain c) /\
      px_event out = Some (b_id b, id).

  (** The call of entry [e] proposes [ws]: the set is the active one and
      differs enough from the current one, no other set waits, and the
      current set is asked to sign a batch that starts with the transfer to
      [ws]. *)
  Definition proposal (c : pconfig) (l : list (pop * pout)) (e : pop * pout) (ws : worker_set) : Prop :=
    exists cur next b id t rest,
      sets_after c l (Some cur) next /\ is_active_set c (po_env e.1) ws /\
      pc_diff c < differing ws cur /\ admits next ws /\
      asks_to_sign c e.2 cur b id /\
      make_transfer keccak wshash sec1 (pc_encoder c) ws = Ok t /\
      d_commands (b_data b) = t :: rest /\ d_chain (b_data b) = pc_chain_id c.
End Spec.

(** The configured threshold is a fraction of one, and the registry does not
    return 2^256 workers. *)
Definition sensible (c : pconfig) (env : penv) : Prop :=
  0 < t_num (pc_threshold c) <= t_den (pc_threshold c) /\
  forall l, pe_active env (pc_registry c) (pc_service c) (pc_chain c) = Some l -> N.of_nat (length l) < U256.

(** The state after storing a batch for which a signing session is asked. *)
Definition with_batch (s : pstate) (new : option worker_set) (b : batch) : pstate :=
  {| pv_batches := <[b_id b := b]> (pv_batches s); pv_sessions := pv_sessions s;
     pv_reply := Some (b_id b); pv_current := pv_current s;
     pv_next := match new with Some ws => Some ws | None => pv_next s end |}.

(** The gateway's answers give the message of each id, in order. *)
Definition gateway_by_id (c : pconfig) (env : penv) (f : ccid -> message) (ids : list ccid) : Prop :=
  pe_messages env (pc_gateway c) ids = Some (f <$> ids) /\ Forall (fun i => m_cc (f i) = i) ids.

(** Signers of a list who signed, with their signatures; their weight. *)
Definition signed (l : list (signer * option signature)) : list (signer * signature) :=
  omap (fun x => match x.2 with Some sig => Some (x.1, sig) | None => None end) l.
Definition weight_of (l : list (signer * signature)) : N := lsum (fun x => sg_weight x.1) l.
Definition falling (l : list signer) : Prop := StronglySorted (fun a b => sg_weight b <= sg_weight a) l.

(** The batch last announced for a signing session. *)
Definition session_batch (l : list (pop * pout)) (id : N) : option string :=
  last (omap (fun e => match px_event e.2 with
                       | Some (bid, i) => if i =? id then Some bid else None
                       | None => None
                       end) l).

(** [r] is the least selection of the signatures in [l] that reaches quorum
    [q]: the same signers, heaviest first; every signature kept is one of
    [l]; the quorum is reached if it can be; without the last kept signature
    it is not; no signature left out is heavier than one kept; and no other
    choice of signatures of [l] reaches the quorum with fewer of them. *)
Record selection (l : list (signer * option signature)) (q : N) (r : list (signer * option signature)) : Prop := {
  sel_signers : r.*1 ≡ₚ l.*1;
  sel_falling : falling r.*1;
  sel_kept : exists rest, signed l ≡ₚ signed r ++ rest /\
    forall x y, x ∈ signed r -> y ∈ rest -> sg_weight y.1 <= sg_weight x.1;
  sel_enough : q <= weight_of (signed l) -> q <= weight_of (signed r);
  sel_last : forall s x, signed r = s ++ [x] -> weight_of s < q;
  sel_least : forall t, t ⊆+ signed l -> q <= weight_of t -> (length (signed r) <= length t)%nat;
}.

(** What the destination chain reads from the bytes of a completed proof for
    batch [b]: the batch's commands; all signers as operators, by ascending
    address; the quorum; and the selected signatures, each made recoverable
    for the batch's digest (or dropped if that fails). *)
Definition proof_shows (keccak : string -> string) (sec1 : string -> option string)
    (recover : string -> string -> string -> option N)
    (b : batch) (q : N) (sel : list (signer * option signature)) (d : string) : Prop :=
  exists digest x p ops,
    msg_digest keccak b = Ok digest /\
    decode_execute (b_encoder b) d = Some (x, p) /\
    decode_data (b_encoder b) x = Some (data_view (b_data b)) /\
    decode_proof (b_encoder b) p =
      Some (op_addr <$> ops, op_weight <$> ops, q, omap (fun o => sig_bytes <$> op_sig o) ops) /\
    Some <$> ops ≡ₚ dest_operator keccak sec1 (b_encoder b) <$>
      ((fun y => (y.1, convert_sig recover (b_encoder b) digest y.1 y.2)) <$> sel) /\
    ascending (op_addr <$> ops).

(** The worker sets a call in this environment may put into a batch. *)
Definition may_carry (c : pconfig) (env : penv) (new : option worker_set) : Prop :=
  match new with Some ws => is_active_set c env ws | None => True end.
