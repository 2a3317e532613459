(** Vocabulary of the C38-C40 statements about the nexus gateway. *)
From Verif Require Import Base Text RouterTypes NexusModel.

Definition nxrun (c : nxconfig) (ops : list nxop) : nxstate := run nexus_step (nexus_init c) ops.
Definition nxlog (c : nxconfig) (ops : list nxop) : list (nxop * nxout) := log nexus_step (nexus_init c) ops.

(** Messages handed to nexus by a logged call. *)
Definition handed (e : nxop * nxout) : list nmessage :=
  match e.2 with NxToNexus ms => ms | NxToRouter _ => [] end.
(** Messages the router passed in, over a log. *)
Definition offered (router : addr) (l : list (nxop * nxout)) : list message :=
  l ≫= fun e => match e.1 with
                | NxRouteMessages a ms => if bool_decide (a = router) then ms else []
                | _ => []
                end.

(** Keep the first message of every id. *)
Fixpoint first_per_id (seen : list ccid) (ms : list message) : list message :=
  match ms with
  | [] => []
  | m :: ms' => if bool_decide (m_cc m ∈ seen) then first_per_id seen ms'
                else m :: first_per_id (m_cc m :: seen) ms'
  end.

(** No call of the history names an id twice. *)
Definition no_repeat_in_call (op : nxop) : Prop :=
  match op with NxRouteMessages _ ms => NoDup (m_cc <$> ms) | _ => True end.

(** A nexus message as the nexus module sends it. *)
Definition wf_nmessage (n : nmessage) : Prop := n_txid n <> "" /\ n_index n < U64.

(** The message id is a printed transaction id and index. *)
Definition canonical_id (id : string) : Prop :=
  exists txid i, txid <> "" /\ i < U64 /\ id = to_hex txid +:+ String ":" (dec i).
