(** What is asked of the broadcast queue, in terms of what goes in and of the
    calls the broadcaster receives. *)
From Verif Require Import Base Text QueueModel.

(** The messages given to the queue before it is closed. *)
Fixpoint received {M} (ins : list (input M)) : list M :=
  match ins with
  | [] => []
  | QMsg m :: ins => m :: received ins
  | QClose :: _ => []
  | _ :: ins => received ins
  end.

(** The batches handed to the broadcaster, with the outcome. *)
Definition batches {M} (calls : list (call M)) : list (list M * bool) :=
  omap (fun c => match c with CBroadcast ms ok => Some (ms, ok) | _ => None end) calls.

(** The messages of those batches. *)
Definition sent {M} (calls : list (call M)) : list M := concat (fst <$> batches calls).

(** The messages of the batches that were broadcast successfully. *)
Definition delivered {M} (calls : list (call M)) : list M :=
  concat (fst <$> filter (fun b => Is_true b.2) (batches calls)).

Definition all_ok {M} (calls : list (call M)) : Prop := Forall (fun b => b.2 = true) (batches calls).

(** Each batch with the estimates obtained for its messages: [known] are the
    messages estimated and not yet broadcast, oldest first. *)
Fixpoint priced {M} (known : list (M * N)) (calls : list (call M)) : list (list M * list (M * N)) :=
  match calls with
  | [] => []
  | CEstimate ms (Some g) :: calls => priced (known ++ ((fun m => (m, g)) <$> ms)) calls
  | CEstimate _ None :: calls => priced known calls
  | CBroadcast ms _ :: calls => (ms, take (length ms) known) :: priced (drop (length ms) known) calls
  end.

(** The estimates known after these calls, of messages not yet broadcast. *)
Fixpoint unsent {M} (known : list (M * N)) (calls : list (call M)) : list (M * N) :=
  match calls with
  | [] => known
  | CEstimate ms (Some g) :: calls => unsent (known ++ ((fun m => (m, g)) <$> ms)) calls
  | CEstimate _ None :: calls => unsent known calls
  | CBroadcast ms _ :: calls => unsent (drop (length ms) known) calls
  end.

Definition total_gas {M} (l : list (M * N)) : N := foldr N.add 0 (snd <$> l).

(** Nothing was lost, duplicated or reordered up to here: what was broadcast,
    then [pending], is what was received. *)
Definition accounted {M} (ins : list (input M)) (calls : list (call M)) (pending : list M) : Prop :=
  all_ok calls /\ sent calls ++ pending = received ins.

(** The call that broadcasts [pending]: none if there is nothing to broadcast. *)
Definition one_batch {M} (pending : list M) (ok : bool) : list (call M) :=
  match pending with [] => [] | _ => [CBroadcast pending ok] end.
