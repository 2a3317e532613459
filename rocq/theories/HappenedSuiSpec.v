(** When what happened on a Sui chain gets verified. *)
From Verif Require Import Base Text StdModel StdSpec RouterTypes RegistryTypes OperatorsModel EncodingModel
  VerifierModel VerifierSpec EventsModel HandlersModel HandlersSpec WorkersSpec SuiWorkersSpec.

(** A node that answers with the transactions asked for, in order. *)
Definition honest_blocks (rpc : sui_rpc) : Prop :=
  forall ids bs, sr_blocks rpc ids = Some bs -> sb_digest <$> bs = ids.
(** The node has transaction [b]: whenever it is asked for it, it answers so. *)
Definition sui_holds (rpc : sui_rpc) (b : sui_block) : Prop :=
  sr_block rpc (sb_digest b) = Some b /\
  forall ids bs b', sr_blocks rpc ids = Some bs -> b' ∈ bs -> sb_digest b' = sb_digest b -> b' = b.
(** It answers when asked for transactions of the poll with messages [es]. *)
Definition answers_poll (b58 : string -> option string) (rpc : sui_rpc) (es : list tx_event) : Prop :=
  forall ids, (forall t, t ∈ ids -> exists e, e ∈ es /\ b58 (te_tx_id e) = Some t) -> is_Some (sr_blocks rpc ids).

Definition sui_has (b58 : string -> option string) (gateway : string) (m : message) (rpc : sui_rpc) : Prop :=
  exists b t i gw s dc e,
    sui_id b58 (cc_id (m_cc m)) t i /\ hex_bytes 32 gateway gw /\ hex_bytes 32 (m_src m) s /\
    lower dc = lower (m_dchain m) /\ sui_holds rpc b /\ sui_seen b gw t i "gateway" "ContractCall" e /\
    se_call e = Some (s, dc, m_daddr m, m_hash m).
Definition sui_has_transfer (b58 : string -> option string) (gateway id : string) (o : operators) (rpc : sui_rpc) : Prop :=
  exists b t i gw e d,
    sui_id b58 id t i /\ hex_bytes 32 gateway gw /\
    sui_holds rpc b /\ sui_seen b gw t i "validators" "OperatorshipTransferred" e /\
    se_transfer e = Some d /\ sui_operators (o_weights o) (o_threshold o) = Some d.

(** As [does_its_part] of HappenedSpec.v; [able] says what the node can do. *)
Definition does_its_part_sui (contract : addr) (chain : evm_chain) (meta : poll_metadata) (ev : event) (l : list (vop * vout))
    (handler : hconfig -> N -> bool -> sui_rpc -> event -> answer) (able : sui_rpc -> Prop) (a : addr) : Prop :=
  exists height rpc,
    height < pm_expires_at meta /\ honest_blocks rpc /\ set_order (sr_order rpc) /\ able rpc /\
    forall ballot,
      handler {| hc_worker := a; hc_contract := contract; hc_chain := chain |} height true rpc ev =
        Ok (Some {| wt_sender := a; wt_contract := contract; wt_body := BodyVote (pm_poll_id meta) ballot |}) ->
      exists h out, h < pm_expires_at meta /\ (Vote h a (pm_poll_id meta) ballot, out) ∈ l.
