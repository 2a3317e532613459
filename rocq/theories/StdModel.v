(** Model of packages/axelar-wasm-std/src: thresholds, snapshots, voting. *)
From Verif Require Import Base.

(** ** threshold.rs *)

(** threshold.rs:17-24 [Threshold] and 100-107 [MajorityThreshold]: two
    [nonempty::Uint64]. Both Rust types are represented by this record. *)
Record threshold := { t_num : N; t_den : N }.

Inductive threshold_error := OutOfInterval | NoMajority | InvalidParameter.

(** nonempty/uint.rs:12-22 [TryFrom<Uint64> for nonempty::Uint64] *)
Definition nonempty_u64 (n : N) : res threshold_error N :=
  if n =? 0 then Err InvalidParameter else Ok n.

(** threshold.rs:58-73 [TryFrom<(nonempty::Uint64, nonempty::Uint64)>] and
    75-98 [try_from] for plain integers. *)
Definition threshold_try_from (num den : N) : res threshold_error threshold :=
  let? n := nonempty_u64 num in
  let? d := nonempty_u64 den in
  if d <? n then Err OutOfInterval else Ok {| t_num := n; t_den := d |}.

(** threshold.rs:43-50 [PartialOrd for Threshold]; [full_mul] of two [u64]
    is exact in [u128], so no range check is needed. *)
Definition threshold_cmp (a b : threshold) : comparison :=
  N.compare (t_num a * t_den b) (t_num b * t_den a).
(** [a >= b] as derived from [partial_cmp] *)
Definition threshold_geb (a b : threshold) : bool :=
  match threshold_cmp a b with Lt => false | _ => true end.

(** threshold.rs:126-139 [TryFrom<Threshold> for MajorityThreshold] *)
Definition majority_try_from (t : threshold) : res threshold_error threshold :=
  if t_num t <=? t_den t / 2 then Err NoMajority else Ok t.

(** threshold.rs:35-40 and 118-123 [Fraction::inv] *)
Definition threshold_inv (t : threshold) : option threshold :=
  Some {| t_num := t_den t; t_den := t_num t |}.

(** cosmwasm-std [Uint256::mul_ceil] (external; used at snapshot.rs:39):
    product in 512 bits, division rounded up; panics if the result does not
    fit 256 bits or the divisor is zero. *)
Definition mul_ceil {E} (x : N) (t : threshold) : res E N :=
  if t_den t =? 0 then Panic
  else
    let p := x * t_num t in
    let fl := p / t_den t in
    if fl <? U256 then
      if p mod t_den t =? 0 then Ok fl else checked U256 (fl + 1)
    else Panic.

(** ** snapshot.rs *)

(** snapshot.rs:8-12 [Participant]; the weight is a [nonempty::Uint256]. *)
Record participant := { p_addr : addr; p_weight : N }.

(** snapshot.rs:14-18 [Snapshot]; the map holds the weights only, since the
    address stored in each participant is its key. *)
Record snapshot := { s_quorum : N; s_participants : gmap addr N }.

(** snapshot.rs:25-36: the loop body; [HashMap::collect] keeps the last
    entry of a repeated key while the total counts every entry. *)
Fixpoint snapshot_collect {E} (l : list participant) (total : N) (m : gmap addr N)
  : res E (N * gmap addr N) :=
  match l with
  | [] => Ok (total, m)
  | p :: l' =>
      let? total' := add_u256 total (p_weight p) in
      snapshot_collect l' total' (<[p_addr p := p_weight p]> m)
  end.

(** snapshot.rs:21-46 [Snapshot::new] *)
Definition snapshot_new {E} (t : threshold) (l : list participant) : res E snapshot :=
  let? (total, m) := snapshot_collect l 0 ∅ in
  let? q := mul_ceil total t in
  if q =? 0 then Panic else Ok {| s_quorum := q; s_participants := m |}.

(** ** voting.rs *)

(** voting.rs:138-144 [Vote] *)
Inductive vote := SucceededOnChain | FailedOnChain | NotFound.
Global Instance vote_eq_dec : EqDecision vote.
Proof. solve_decision. Defined.

(** voting.rs:36-58 [Error] *)
Inductive voting_error :=
| NotParticipant | InvalidVoteSize | AlreadyVoted | PollNotInProgress
| PollNotEnded | PollExpired | MessageIndexOutOfBounds.

(** voting.rs:156-158 [Tallies]: a [BTreeMap] from the printed vote to its
    weight. Modelled as an association list in the iteration order of the
    [BTreeMap], the alphabetical order of the printed names. *)
Definition tallies := list (vote * N).

(** voting.rs:160-168 [Default for Tallies] *)
Definition tallies_default : tallies :=
  [(FailedOnChain, 0); (NotFound, 0); (SucceededOnChain, 0)].

(** voting.rs:171-179 [Tallies::consensus]: [find_map] in iteration order. *)
Fixpoint tallies_consensus (t : tallies) (quorum : N) : option vote :=
  match t with
  | [] => None
  | (v, w) :: t' => if quorum <=? w then Some v else tallies_consensus t' quorum
  end.

(** voting.rs:181-186 [Tallies::tally]; adding to a missing key is lost. *)
Fixpoint tallies_tally {E} (t : tallies) (v : vote) (weight : N) : res E tallies :=
  match t with
  | [] => Ok []
  | (v', w) :: t' =>
      if bool_decide (v = v') then
        let? w' := add_u256 w weight in Ok ((v', w') :: t')
      else
        let? t'' := tallies_tally t' v weight in Ok ((v', w) :: t'')
  end.

(** voting.rs:197-201 [PollStatus] *)
Inductive poll_status := InProgress | Finished.
Global Instance poll_status_eq_dec : EqDecision poll_status.
Proof. solve_decision. Defined.

(** voting.rs:203-207 [Participation] *)
Record participation := { pt_weight : N; pt_vote : option (list vote) }.

(** voting.rs:209-218 [WeightedPoll] *)
Record poll := {
  poll_id : N;
  poll_quorum : N;
  poll_expires_at : N;
  poll_size : N;
  poll_tallies : list tallies;
  poll_status_ : poll_status;
  poll_participation : gmap addr participation;
}.

(** voting.rs:221-247 [WeightedPoll::new]. [poll_size] is a [usize]; a
    64-bit-or-smaller [usize] always fits the [u64] field. *)
Definition poll_new (id : N) (s : snapshot) (expiry : N) (size : nat) : poll :=
  {| poll_id := id;
     poll_quorum := s_quorum s;
     poll_expires_at := expiry;
     poll_size := N.of_nat size;
     poll_tallies := replicate size tallies_default;
     poll_status_ := InProgress;
     poll_participation :=
       (fun w => {| pt_weight := w; pt_vote := None |}) <$> s_participants s |}.

(** voting.rs:249-261 [WeightedPoll::finish] *)
Definition poll_finish (p : poll) (height : N) : res voting_error poll :=
  if bool_decide (poll_status_ p = Finished) then Err PollNotInProgress
  else if height <? poll_expires_at p then Err PollNotEnded
  else Ok {| poll_id := poll_id p; poll_quorum := poll_quorum p;
             poll_expires_at := poll_expires_at p; poll_size := poll_size p;
             poll_tallies := poll_tallies p; poll_status_ := Finished;
             poll_participation := poll_participation p |}.

(** voting.rs:189-195 [PollState] *)
Record poll_state := {
  ps_poll_id : N;
  ps_results : list (option vote);
  ps_consensus_participants : list addr;
}.

(** voting.rs:276-278: [votes.iter().zip(results.iter()).all(..)] *)
Definition voted_consensus (votes : list vote) (results : list (option vote)) : bool :=
  forallb (fun '(v, r) => match r with None => true | Some w => bool_decide (v = w) end)
          (zip votes results).

(** Iteration order of a [BTreeMap<String, _>]: ascending keys. *)
Definition btree_iter {A} (m : gmap addr A) : list (addr * A) :=
  isort (fun a b => String.leb a.1 b.1) (map_to_list m).

(** voting.rs:263-294 [WeightedPoll::state] *)
Definition poll_state_of (p : poll) : poll_state :=
  let results := (fun t => tallies_consensus t (poll_quorum p)) <$> poll_tallies p in
  {| ps_poll_id := poll_id p;
     ps_results := results;
     ps_consensus_participants :=
       omap (fun '(a, pt) =>
               match pt_vote pt with
               | None => None
               | Some votes => if voted_consensus votes results then Some a else None
               end) (btree_iter (poll_participation p)) |}.

(** voting.rs:296-302 [WeightedPoll::consensus] *)
Definition poll_consensus (p : poll) (idx : nat) : res voting_error (option vote) :=
  match poll_tallies p !! idx with
  | None => Err MessageIndexOutOfBounds
  | Some t => Ok (tallies_consensus t (poll_quorum p))
  end.

(** voting.rs:327-332: the tallying loop over [zip(tallies, votes)]; tallies
    beyond the votes stay as they are. *)
Fixpoint tally_all {E} (ts : list tallies) (votes : list vote) (weight : N)
  : res E (list tallies) :=
  match ts, votes with
  | t :: ts', v :: votes' =>
      let? t' := tallies_tally t v weight in
      let? r := tally_all ts' votes' weight in
      Ok (t' :: r)
  | _, _ => Ok ts
  end.

(** voting.rs:304-337 [WeightedPoll::cast_vote] *)
Definition poll_cast_vote (p : poll) (height : N) (sender : addr) (votes : list vote)
  : res voting_error poll :=
  let? pt := of_option NotParticipant (poll_participation p !! sender) in
  let? _ := ensure (height <? poll_expires_at p) PollExpired in
  let? _ := ensure (N.of_nat (length votes) =? poll_size p) InvalidVoteSize in
  let? _ := ensure (bool_decide (pt_vote pt = None)) AlreadyVoted in
  let? ts := tally_all (poll_tallies p) votes (pt_weight pt) in
  Ok {| poll_id := poll_id p; poll_quorum := poll_quorum p;
        poll_expires_at := poll_expires_at p; poll_size := poll_size p;
        poll_tallies := ts; poll_status_ := poll_status_ p;
        poll_participation :=
          <[sender := {| pt_weight := pt_weight pt; pt_vote := Some votes |}]>
            (poll_participation p) |}.

(** Calls on a poll, as histories quantify over them: any sender, any
    height, any ballot. *)
Inductive poll_op :=
| PVote (height : N) (sender : addr) (votes : list vote)
| PFinish (height : N).

Definition poll_step (p : poll) (op : poll_op) : res voting_error (poll * unit) :=
  match op with
  | PVote h a vs => let? p' := poll_cast_vote p h a vs in Ok (p', tt)
  | PFinish h => let? p' := poll_finish p h in Ok (p', tt)
  end.
