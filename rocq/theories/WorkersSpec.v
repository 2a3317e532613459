(** Voting verifier and ampd workers together: what the workers of a poll must
    have seen on the source chain for its outcome. *)
From Verif Require Import Base Text StdModel StdSpec RouterTypes RegistryTypes OperatorsModel EncodingModel
  VerifierModel VerifierSpec EventsModel HandlersModel HandlersSpec.

(** The event a successful call of the verifier at address [contract] emits
    for the poll it opens, as a worker decodes it. *)
Definition emitted (json : string -> option jval) (contract : addr) (e : vop * vout) : option event :=
  match e.2 with
  | OutVerify _ (Some (es, meta)) => Some (messages_poll_event json contract es meta)
  | OutWorkerSet tx idx o meta => Some (worker_set_poll_event json contract tx idx o meta)
  | _ => None
  end.

(** Worker [a] votes as ampd's handlers for chain [c] do: every vote of theirs
    that the verifier accepted is what one of the two handlers submitted for
    an event of the verifier, the node they asked being one of [nodes]. *)
Definition follows_ampd (acc : string -> bool) (json : string -> option jval) (contract : addr)
    (c : evm_chain) (nodes : evm_rpc -> Prop) (l : list (vop * vout)) (a : addr) : Prop :=
  forall h id ballot out, (Vote h a id ballot, out) ∈ l ->
    exists e ev height open rpc,
      e ∈ l /\ emitted json contract e = Some ev /\ nodes rpc /\
      let cfg := {| hc_worker := a; hc_contract := contract; hc_chain := c |} in
      let tx := {| wt_sender := a; wt_contract := contract; wt_body := BodyVote id ballot |} in
      evm_msg_handler acc cfg height open rpc ev = Ok (Some tx) \/
      evm_ws_handler acc cfg height open rpc ev = Ok (Some tx).

(** [id] reads <transaction hash>:<log index> *)
Definition evm_id (id : string) (t : string) (i : N) : Prop :=
  exists x n, id = x +:+ String ":" n /\ hex_bytes 32 x t /\ parse_u64 n = Some i.

(** The node shows the call of message [m] at [gateway], in a final block. *)
Definition evm_shows (c : evm_chain) (confs : N) (rpc : evm_rpc) (gateway : string) (m : message) : Prop :=
  exists q t i gw s dc,
    evm_id (cc_id (m_cc m)) t i /\ hex_bytes 20 gateway gw /\ hex_bytes 20 (m_src m) s /\
    lower dc = lower (m_dchain m) /\
    evm_seen c confs rpc q gw t i (ContractCall s dc (m_daddr m) (m_hash m)).

(** The node shows, at the place [id], [gateway] handing over to operators [o]. *)
Definition evm_shows_transfer (c : evm_chain) (confs : N) (rpc : evm_rpc) (gateway id : string)
    (o : operators) : Prop :=
  exists q t i gw,
    evm_id id t i /\ hex_bytes 20 gateway gw /\
    evm_seen c confs rpc q gw t i (OperatorshipTransferred (evm_operators (o_weights o) (o_threshold o))).

(** Too few untrusted workers in each poll to decide it alone. *)
Definition mostly_trusted (c : vconfig) (l : list (vop * vout)) (trusted : list addr) : Prop :=
  forall e id expires workers subj, e ∈ l -> opens c e id expires workers subj ->
    N.of_nat (length (filter (fun w => w_addr w ∉ trusted) workers)) * t_den (vc_threshold c)
      < N.of_nat (length workers) * t_num (vc_threshold c).
