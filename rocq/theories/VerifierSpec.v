(** Vocabulary of the C07-C13 statements about the voting verifier. Histories
    are lists of calls; [log] gives the successful ones with their responses,
    oldest first. *)
From Verif Require Import Base Text StdModel StdSpec RouterTypes RegistryTypes OperatorsModel VerifierModel.

(** The configured threshold is a majority threshold (the type of
    state.rs:22 guarantees it). *)
Definition valid_vconfig (c : vconfig) : Prop :=
  exists num den t, threshold_try_from num den = Ok t /\ majority_try_from t = Ok (vc_threshold c).

(** State and log of a history from instantiation. *)
Definition vrun (k : string -> string) (c : vconfig) (ops : list vop) : vstate :=
  run (verifier_step k) (verifier_init c) ops.
Definition vlog (k : string -> string) (c : vconfig) (ops : list vop) : list (vop * vout) :=
  log (verifier_step k) (verifier_init c) ops.

(** What a poll is about. *)
Inductive subject := OnMessages (ms : list message) | OnOperators (o : operators).

(** The successful call [e] opened poll [id] about [subj]; the registry
    named [workers] for the configured service and chain; votes count until
    block [expires]. *)
Definition opens (c : vconfig) (e : vop * vout) (id expires : N) (workers : list worker)
    (subj : subject) : Prop :=
  match e with
  | (VerifyMessages h reg ms, OutVerify _ (Some (events, meta))) =>
      pm_poll_id meta = id /\ expires = h + vc_expiry c /\ pm_expires_at meta = expires /\
      pm_chain meta = vc_chain c /\ pm_gateway meta = vc_gateway c /\
      pm_confirmations meta = vc_confirmations c /\
      (forall a, a ∈ pm_participants meta <-> a ∈ w_addr <$> workers) /\
      reg (vc_registry c) (vc_service c) (vc_chain c) = Some workers /\
      exists todo, subj = OnMessages todo /\ sublist todo ms /\
        Forall2 (fun m ev => tx_event_of m = Ok ev) todo events
  | (VerifyWorkerSet h reg mid o, OutWorkerSet tx idx o' meta) =>
      pm_poll_id meta = id /\ expires = h + vc_expiry c /\ pm_expires_at meta = expires /\
      pm_chain meta = vc_chain c /\ pm_gateway meta = vc_gateway c /\
      pm_confirmations meta = vc_confirmations c /\
      (forall a, a ∈ pm_participants meta <-> a ∈ w_addr <$> workers) /\
      reg (vc_registry c) (vc_service c) (vc_chain c) = Some workers /\
      subj = OnOperators o /\ o' = o /\ parse_message_id mid = Ok (tx, idx)
  | _ => False
  end.

(** Item [idx] of poll [id] was vouched for by enough of [workers]: distinct
    workers, at least the threshold share of all of them, each with an
    accepted vote on poll [id] before [expires] saying SucceededOnChain. *)
Definition vouched (t : threshold) (l : list (vop * vout)) (id expires : N)
    (workers : list worker) (idx : nat) : Prop :=
  exists voters : list addr,
    NoDup voters /\
    (forall a, a ∈ voters ->
       a ∈ w_addr <$> workers /\
       exists h ballot out,
         (Vote h a id ballot, out) ∈ l /\ h < expires /\ ballot !! idx = Some SucceededOnChain) /\
    N.of_nat (length workers) * t_num t <= N.of_nat (length voters) * t_den t.

(** Poll id opened by a response, if any. *)
Definition opened_id (o : vout) : option N :=
  match o with
  | OutVerify _ (Some (_, meta)) => Some (pm_poll_id meta)
  | OutWorkerSet _ _ _ meta => Some (pm_poll_id meta)
  | _ => None
  end.

(** Ids of the polls opened in a log, oldest first. *)
Definition opened (l : list (vop * vout)) : list N := omap (fun e => opened_id e.2) l.

(** The call votes in, or ends, poll [id]. *)
Definition addresses (op : vop) (id : N) : Prop :=
  match op with Vote _ _ i _ | EndPoll _ i => i = id | _ => False end.

(** Ids of the polls ended in a log. *)
Definition ended (l : list (vop * vout)) : list N :=
  omap (fun e => match e.1 with EndPoll _ id => Some id | _ => None end) l.

(** (event id, worker) pairs reported to the rewards contract by a response *)
Definition reported (o : vout) : list (addr * string * addr) :=
  match o with OutEnded l _ => l | _ => [] end.

Definition all_reported (l : list (vop * vout)) : list (addr * string * addr) :=
  l ≫= (fun e => reported e.2).

(** The parts of a poll that voting must never change. *)
Definition fixed_parts (v : vpoll) : bool * N * N * N * N * gmap addr N :=
  let p := vpoll_poll v in
  (match v with MessagesPoll _ => true | WorkerSetPoll _ => false end,
   poll_id p, poll_quorum p, poll_expires_at p, poll_size p, pt_weight <$> poll_participation p).

(** The message is unknown, or its poll ended without verifying it. *)
Definition wants_poll (k : string -> string) (s : vstate) (m : message) : bool :=
  match message_status k s m with
  | Ok NotVerified | Ok FailedToVerify => true
  | _ => false
  end.

(** A message from an EVM chain to an EVM chain, as far as its key goes: the id
    is a transaction hash of 66 characters and a decimal index, the addresses
    are of 42 characters, the sender's starting with 0x. *)
Definition evm_message (m : message) : Prop :=
  exists tx n src, cc_id (m_cc m) = tx +:+ String ID_SEPARATOR (dec n) /\ String.length tx = 66%nat /\
    m_src m = "0x" +:+ src /\ String.length src = 40%nat /\ String.length (m_daddr m) = 42%nat.
(** The messages that were asked for in a history. *)
Definition requested (ops : list vop) : list message :=
  ops ≫= fun op => match op with VerifyMessages _ _ ms => ms | _ => [] end.
