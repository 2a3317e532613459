(** Voting verifier and ampd workers together, on a Sui chain: what the workers
    of a poll must have been shown for its outcome. *)
From Verif Require Import Base Text StdModel StdSpec RouterTypes RegistryTypes OperatorsModel EncodingModel
  VerifierModel VerifierSpec EventsModel HandlersModel HandlersSpec WorkersSpec.

(** Worker [a] votes as ampd's handlers for Sui do: every vote of theirs that
    the verifier accepted is what one of the two handlers submitted for an
    event of the verifier, the node they asked being one of [nodes]. *)
Definition follows_ampd_sui (acc : string -> bool) (b58 : string -> option string) (json : string -> option jval) (contract : addr)
    (c : evm_chain) (nodes : sui_rpc -> Prop) (l : list (vop * vout)) (a : addr) : Prop :=
  forall h id ballot out, (Vote h a id ballot, out) ∈ l ->
    exists e ev height open rpc,
      e ∈ l /\ emitted json contract e = Some ev /\ nodes rpc /\
      let cfg := {| hc_worker := a; hc_contract := contract; hc_chain := c |} in
      let tx := {| wt_sender := a; wt_contract := contract; wt_body := BodyVote id ballot |} in
      sui_msg_handler acc b58 cfg height open rpc ev = Ok (Some tx) \/
      sui_ws_handler acc b58 cfg height open rpc ev = Ok (Some tx).

(** [id] reads <transaction digest>:<event sequence number> *)
Definition sui_id (b58 : string -> option string) (id : string) (t : string) (i : N) : Prop :=
  exists x n, id = x +:+ String ":" n /\ b58 x = Some t /\ parse_u64 n = Some i.

(** The node answered with transaction block [b]. *)
Definition sui_answer (rpc : sui_rpc) (b : sui_block) : Prop :=
  (exists q, sr_block rpc q = Some b) \/ exists ids bs, sr_blocks rpc ids = Some bs /\ b ∈ bs.

(** The node shows the call of message [m] at [gateway], in a transaction that
    is part of a checkpoint. *)
Definition sui_shows (b58 : string -> option string) (rpc : sui_rpc) (gateway : string) (m : message) : Prop :=
  exists b t i gw s dc e,
    sui_id b58 (cc_id (m_cc m)) t i /\ hex_bytes 32 gateway gw /\ hex_bytes 32 (m_src m) s /\
    lower dc = lower (m_dchain m) /\ sui_answer rpc b /\ sui_seen b gw t i "gateway" "ContractCall" e /\
    se_call e = Some (s, dc, m_daddr m, m_hash m).

(** The node shows, at the place [id], [gateway] handing over to operators [o]. *)
Definition sui_shows_transfer (b58 : string -> option string) (rpc : sui_rpc) (gateway id : string) (o : operators) : Prop :=
  exists b t i gw e d,
    sui_id b58 id t i /\ hex_bytes 32 gateway gw /\
    sui_answer rpc b /\ sui_seen b gw t i "validators" "OperatorshipTransferred" e /\
    se_transfer e = Some d /\ sui_operators (o_weights o) (o_threshold o) = Some d.
