(** Vocabulary of C101: what a worker's work is worth, told from the work alone.
    [att id w]: worker [w] took part in event number [id] of contract [c]. *)
From Verif Require Import Base Text StdModel RouterTypes RegistryTypes OperatorsModel MultisigTypes
  RouterModel GatewayModel NexusModel RegistryModel VerifierModel MultisigModel EncodingModel ProverModel SystemModel SystemSpec BankModel
  RewardsModel RewardsSpec.

Section Wage.
  Context (att : N -> addr -> Prop) (i : rinit) (ops : list rop) (c : addr).

  (** [all]: the events somebody took part in, that were first reported during
      epoch [n]. *)
  Definition of_epoch (n : N) (all : list N) : Prop :=
    NoDup all /\ forall id, id ∈ all <-> (exists w, att id w) /\ first_seen i ops c (dec id) n.

  (** Worker [w] took part in some of them, and in at least the fraction the
      parameters ask for. *)
  Definition earns (all : list N) (p : rparams) (w : addr) : Prop :=
    exists mine, NoDup mine /\ (forall id, id ∈ mine <-> id ∈ all /\ att id w) /\
      0 < N.of_nat (length mine) /\
      t_num (rp_threshold p) * N.of_nat (length all) <= N.of_nat (length mine) * t_den (rp_threshold p).

  (** [p]: the parameters in force when the first event of epoch [n] was
      reported. *)
  Definition params_of (n : N) (p : rparams) : Prop :=
    exists ops1 h ev w ops2, ops = ops1 ++ Record_ h c ev w :: ops2 /\
      (forall ev', ~ first_seen i ops1 c ev' n) /\ first_seen i (ops1 ++ [Record_ h c ev w]) c ev n /\
      p = r_params (rrun i ops1).

  (** Epoch [n] is worth [v] to worker [w]: nothing, unless [w] earns a share;
      then the epoch's rewards, divided evenly among those who earn one. *)
  Definition wage (n : N) (w : addr) (v : N) : Prop :=
    exists all, of_epoch n all /\
      (all = [] /\ v = 0 \/
       exists p qs, params_of n p /\ NoDup qs /\ (forall x, x ∈ qs <-> earns all p x) /\
         (w ∈ qs /\ v = rp_rewards p / N.of_nat (length qs) \/ w ∉ qs /\ v = 0)).
End Wage.

(** What worker [w] was paid from the pool of [c]. *)
Definition got (c w : addr) (l : list (rop * list (addr * N))) : N :=
  lsum (fun e => match e.1 with
                 | Distribute _ c' _ => if bool_decide (c' = c) then lsum (fun y => if bool_decide (y.1 = w) then y.2 else 0) e.2 else 0
                 | _ => 0 end) l.

(** Each event of contract [c] is reported at one height only. *)
Definition one_height (ops : list rop) (c : addr) : Prop :=
  forall ev h1 w1 h2 w2, Record_ h1 c ev w1 ∈ ops -> Record_ h2 c ev w2 ∈ ops -> h1 = h2.

(** The coins a rewards contract [r] sent to [x] in the calls [l] that
    distribute the rewards of pool [c]. *)
Definition coins_paid (r c x : addr) (l : list call) : N :=
  lsum (fun k => if bool_decide (k_to k = r) then
                   match sb_body (k_sub k) with
                   | BDistribute c' _ => if bool_decide (c' = c) then
                       lsum (fun m => if bool_decide (mv_to m = x) then mv_amount m else 0) (payments k) else 0
                   | _ => 0
                   end
                 else 0) l.
