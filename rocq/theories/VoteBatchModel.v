(** The worker's queue of transactions (QueueModel.v) in front of a chain that
    runs the voting verifier. *)
From Verif Require Import Base StdModel VerifierModel QueueModel.

(** The calls of one transaction: all are carried out, or none. The chain
    (Cosmos SDK) is not in /repo. *)
Fixpoint tx_run {St Op Out E} (step : St -> Op -> res E (St * Out)) (s : St) (ops : list Op) : option St :=
  match ops with
  | [] => Some s
  | op :: ops' => match step s op with Ok (s', _) => tx_run step s' ops' | _ => None end
  end.

(** A vote as the handlers queue it: a poll and a ballot. *)
Definition ballot : Type := N * list vote.
Definition cast (h : N) (a : addr) (b : ballot) : vop := Vote h a b.1 b.2.

(** The chain as one worker's broadcaster sees it: the verifier and how many
    requests the broadcaster has made so far. *)
Record chain := { ch_state : vstate; ch_requests : nat }.

Section Chain.
  Context (k : string -> string) (worker : addr) (gas : list ballot -> N).
  (** What everybody else calls before each request, and the height at which
      the request is dealt with: anything. *)
  Context (others : nat -> list vop) (height : nat -> N).

  (** The others' calls, then the request's turn. *)
  Definition before (c : chain) : vstate := run (verifier_step k) (ch_state c) (others (ch_requests c)).

  (** broadcaster.rs:155-187 [estimate_fee]: simulates a transaction; the
      simulation fails if the transaction would. Only the gas is kept; failures
      of the connection are left out. *)
  Definition chain_estimate (c : chain) (ms : list ballot) : chain * option N :=
    let s := before c in
    ({| ch_state := s; ch_requests := S (ch_requests c) |},
     (fun _ => gas ms) <$> tx_run (verifier_step k) s (cast (height (ch_requests c)) worker <$> ms)).

  (** broadcaster.rs:105-153 [broadcast]: all messages in one transaction, an
      error unless it is confirmed with code 0. The simulation before it is
      taken to be at the same height; if it is earlier and fails, the answer is
      the same. *)
  Definition chain_broadcast (c : chain) (ms : list ballot) : chain * bool :=
    let s := before c in
    match tx_run (verifier_step k) s (cast (height (ch_requests c)) worker <$> ms) with
    | Some s' => ({| ch_state := s'; ch_requests := S (ch_requests c) |}, true)
    | None => ({| ch_state := s; ch_requests := S (ch_requests c) |}, false)
    end.
End Chain.
