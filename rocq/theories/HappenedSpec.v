(** When what happened on the source chain gets verified. *)
From Verif Require Import Base Text StdModel StdSpec RouterTypes RegistryTypes OperatorsModel EncodingModel
  VerifierModel VerifierSpec EventsModel HandlersModel HandlersSpec WorkersSpec.

(** Worker [a] does its part in the poll described by [meta] and announced by
    [ev]: it handles the event before the poll expires, its node tells what is
    final, answers with the receipts asked for and shows what is [shown]; and
    what the handler submits reaches the verifier before the poll expires:
    [l] are the calls the verifier accepted since. *)
Definition does_its_part (contract : addr) (chain : evm_chain) (meta : poll_metadata) (ev : event) (l : list (vop * vout))
    (handler : hconfig -> N -> bool -> evm_rpc -> event -> answer) (shown : evm_rpc -> Prop) (a : addr) : Prop :=
  exists height rpc f,
    height < pm_expires_at meta /\ finalized_height chain (pm_confirmations meta) rpc = Ok f /\
    honest_receipts rpc /\ set_order (er_order rpc) /\ shown rpc /\
    forall ballot,
      handler {| hc_worker := a; hc_contract := contract; hc_chain := chain |} height true rpc ev =
        Ok (Some {| wt_sender := a; wt_contract := contract; wt_body := BodyVote (pm_poll_id meta) ballot |}) ->
      exists h out, h < pm_expires_at meta /\ (Vote h a (pm_poll_id meta) ballot, out) ∈ l.
