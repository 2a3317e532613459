(** Model of contracts/rewards/src (contract.rs, contract/execute.rs,
    state.rs, msg.rs). Address validation (contract.rs:60, 68, 89) is left
    out: an invalid address is rejected before anything is read or written. *)
From Verif Require Import Base StdModel.

(** msg.rs:11-25 [Params] *)
Record rparams := { rp_duration : N; rp_rewards : N; rp_threshold : threshold }.

(** state.rs:106-110 [Epoch] *)
Record epoch := { e_num : N; e_start : N }.

(** state.rs:26-33 [EpochTally]; the [HashMap] from worker to count is a
    finite map. *)
Record tally := {
  ty_contract : addr;
  ty_count : N;
  ty_part : gmap addr N;
  ty_epoch : epoch;
  ty_params : rparams;
}.

(** state.rs:13-24 and 168-184: the storage. An event's value is the epoch
    it was first seen in (state.rs:89-94, the other fields repeat the key). *)
Record rstate := {
  r_governance : addr;
  r_denom : string;
  r_params : rparams;
  r_updated : epoch;
  r_tallies : gmap (addr * N) tally;
  r_events : gmap (string * addr) N;
  r_pools : gmap addr N;
  r_marks : gmap addr N;
}.

(** error.rs, the cases the modelled code raises *)
Inductive rerror :=
| BlockHeightInPast | PoolBalanceInsufficient | NoRewardsToDistribute
| RUnauthorized | WrongDenom | ZeroRewards.

(** contract.rs:18-46 [instantiate] *)
Definition rewards_init (governance : addr) (denom : string) (p : rparams) (height : N) : rstate :=
  {| r_governance := governance; r_denom := denom; r_params := p;
     r_updated := {| e_num := 0; e_start := height |};
     r_tallies := ∅; r_events := ∅; r_pools := ∅; r_marks := ∅ |}.

(** execute.rs:45-61 [current_epoch]; division by zero panics. *)
Definition current_epoch (s : rstate) (height : N) : res rerror epoch :=
  let d := rp_duration (r_params s) in
  let u := r_updated s in
  if height <? e_start u then Err BlockHeightInPast
  else if d =? 0 then Panic
  else
    let elapsed := (height - e_start u) / d in
    let? num := add_u64 (e_num u) elapsed in
    let? len := checked U64 (elapsed * d) in
    let? start := add_u64 (e_start u) len in
    Ok {| e_num := num; e_start := start |}.

(** state.rs:48-54 [EpochTally::record_participation] *)
Definition tally_record (t : tally) (w : addr) : res rerror tally :=
  let? n := match ty_part t !! w with
            | Some c => add_u64 c 1
            | None => Ok 1
            end in
  Ok {| ty_contract := ty_contract t; ty_count := ty_count t;
        ty_part := <[w := n]> (ty_part t); ty_epoch := ty_epoch t; ty_params := ty_params t |}.

(** execute.rs:70-96 [record_participation] with 98-116
    [load_or_store_event]. A missing tally is created for the current epoch
    and stored under its own epoch number (state.rs:255-263). *)
Definition record_participation (s : rstate) (event : string) (w contract : addr) (height : N)
  : res rerror rstate :=
  let? cur := current_epoch s height in
  let '(is_new, num) :=
    match r_events s !! (event, contract) with
    | Some n => (false, n)
    | None => (true, e_num cur)
    end in
  let t0 := match r_tallies s !! (contract, num) with
            | Some t => t
            | None => {| ty_contract := contract; ty_count := 0; ty_part := ∅;
                         ty_epoch := cur; ty_params := r_params s |}
            end in
  let? t1 := tally_record t0 w in
  let? count := if is_new : bool then add_u64 (ty_count t1) 1 else Ok (ty_count t1) in
  let t2 := {| ty_contract := ty_contract t1; ty_count := count; ty_part := ty_part t1;
               ty_epoch := ty_epoch t1; ty_params := ty_params t1 |} in
  Ok {| r_governance := r_governance s; r_denom := r_denom s; r_params := r_params s;
        r_updated := r_updated s;
        r_tallies := <[(ty_contract t2, e_num (ty_epoch t2)) := t2]> (r_tallies s);
        r_events := if is_new then <[(event, contract) := num]> (r_events s) else r_events s;
        r_pools := r_pools s; r_marks := r_marks s |}.

(** state.rs:76-86 [workers_to_reward]; simplification: the [HashMap]'s
    arbitrary iteration order is replaced by key order. *)
Definition workers_to_reward (t : tally) : list addr :=
  omap (fun '(w, n) =>
          match threshold_try_from n (ty_count t) with
          | Ok p => if threshold_geb p (rp_threshold (ty_params t)) then Some w else None
          | _ => None
          end) (btree_iter (ty_part t)).

(** state.rs:56-74 [rewards_by_worker]; division by zero workers gives 0. *)
Definition rewards_by_worker (t : tally) : gmap addr N :=
  let ws := workers_to_reward t in
  let share := match length ws with
               | O => 0
               | n => rp_rewards (ty_params t) / N.of_nat n
               end in
  if share =? 0 then ∅ else list_to_map ((fun w => (w, share)) <$> ws).

(** execute.rs:235-245 [merge_rewards]; order of the fold immaterial. *)
Definition merge_rewards (r1 r2 : gmap addr N) : res rerror (gmap addr N) :=
  fold_left (fun (acc : res rerror (gmap addr N)) '(w, amt) =>
               let? m := acc in
               let? v := add_u128 (default 0 (m !! w)) amt in
               Ok (<[w := v]> m))
            (btree_iter r2) (Ok r1).

(** execute.rs:178: the range [from..=to] *)
Definition epoch_range (from to : N) : list N :=
  (fun i => from + N.of_nat i) <$> seq 0 (N.to_nat (to + 1 - from)).

(** execute.rs:161-183 [cumulate_rewards] and [iterate_epoch_tallies] *)
Definition cumulate_rewards (s : rstate) (contract : addr) (from to : N) : res rerror (gmap addr N) :=
  fold_left (fun acc n =>
               let? m := acc in
               match r_tallies s !! (contract, n) with
               | Some t => merge_rewards m (rewards_by_worker t)
               | None => Ok m
               end)
            (epoch_range from to) (Ok ∅).

(** execute.rs:155: [rewards.values().sum()] *)
Definition sum_u128 (l : list N) : res rerror N :=
  fold_left (fun acc n => let? a := acc in add_u128 a n) l (Ok 0).

Definition pool_balance (s : rstate) (contract : addr) : N := default 0 (r_pools s !! contract).

(** execute.rs:14-15 *)
Definition DEFAULT_EPOCHS_TO_PROCESS : N := 10.
Definition EPOCH_PAYOUT_DELAY : N := 2.

(** execute.rs:118-159 [distribute_rewards], [process_rewards_for_epochs] and
    state.rs:127-134 [sub_reward]; contract.rs:95-106 sends the rewards in
    order of worker and amount. *)
Definition distribute_rewards (s : rstate) (contract : addr) (height : N) (limit : option N)
  : res rerror (rstate * list (addr * N)) :=
  let limit := default DEFAULT_EPOCHS_TO_PROCESS limit in
  let? cur := current_epoch s height in
  let? from := match r_marks s !! contract with
               | Some last => add_u64 last 1
               | None => Ok 0
               end in
  let? bound := add_u64 from limit in
  let to := N.min (bound - 1) (e_num cur - EPOCH_PAYOUT_DELAY) in
  let? _ := ensure (negb ((to <? from) || (e_num cur <? EPOCH_PAYOUT_DELAY))) NoRewardsToDistribute in
  let? rewards := cumulate_rewards s contract from to in
  let? total := sum_u128 (btree_iter rewards).*2 in
  let? _ := ensure (total <=? pool_balance s contract) PoolBalanceInsufficient in
  Ok ({| r_governance := r_governance s; r_denom := r_denom s; r_params := r_params s;
         r_updated := r_updated s; r_tallies := r_tallies s; r_events := r_events s;
         r_pools := <[contract := pool_balance s contract - total]> (r_pools s);
         r_marks := <[contract := to]> (r_marks s) |},
      btree_iter rewards).

(** execute.rs:63-68 and 185-214 [update_params] *)
Definition update_params (s : rstate) (p : rparams) (height : N) (sender : addr) : res rerror rstate :=
  let? _ := ensure (bool_decide (r_governance s = sender)) RUnauthorized in
  let? cur := current_epoch s height in
  let? bound := add_u64 (e_start cur) (rp_duration p) in
  let? cur' := if bound <? height then
                 let? n := add_u64 (e_num cur) 1 in
                 Ok {| e_num := n; e_start := height |}
               else Ok cur in
  Ok {| r_governance := r_governance s; r_denom := r_denom s; r_params := p; r_updated := cur';
        r_tallies := r_tallies s; r_events := r_events s; r_pools := r_pools s; r_marks := r_marks s |}.

(** contract.rs:67-84 and execute.rs:216-227 [add_rewards]; the attached
    funds are (denomination, amount) pairs. *)
Definition add_rewards (s : rstate) (contract : addr) (funds : list (string * N)) : res rerror rstate :=
  let? amount :=
    match find (fun c : string * N => String.eqb c.1 (r_denom s)) funds with
    | Some c => if (length funds =? 1)%nat then Ok c.2 else Err WrongDenom
    | None => Err WrongDenom
    end in
  let? _ := ensure (negb (amount =? 0)) ZeroRewards in
  let? b := add_u128 (pool_balance s contract) amount in
  Ok {| r_governance := r_governance s; r_denom := r_denom s; r_params := r_params s;
        r_updated := r_updated s; r_tallies := r_tallies s; r_events := r_events s;
        r_pools := <[contract := b]> (r_pools s); r_marks := r_marks s |}.

(** contract.rs:49-114 [execute]. The pool of [RecordParticipation] is the
    sender's. The response is the list of bank payments. *)
Inductive rop :=
| Record_ (height : N) (sender : addr) (event : string) (w : addr)
| AddRewards (contract : addr) (funds : list (string * N))
| Distribute (height : N) (contract : addr) (limit : option N)
| UpdateParams (height : N) (sender : addr) (p : rparams).

Definition rewards_step (s : rstate) (op : rop) : res rerror (rstate * list (addr * N)) :=
  match op with
  | Record_ h c ev w => let? s' := record_participation s ev w c h in Ok (s', [])
  | AddRewards c funds => let? s' := add_rewards s c funds in Ok (s', [])
  | Distribute h c limit => distribute_rewards s c h limit
  | UpdateParams h sender p => let? s' := update_params s p h sender in Ok (s', [])
  end.
