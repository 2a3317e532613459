(** Vocabulary of the C14-C21 statements about the rewards contract. *)
From Verif Require Import Base StdModel RewardsModel.

(** What the types of msg.rs:11-25 and the chain guarantee about inputs. *)
Definition valid_rparams (p : rparams) : Prop :=
  0 < rp_duration p < U64 /\ 0 < t_num (rp_threshold p) <= t_den (rp_threshold p).
Definition rop_height (op : rop) : option N :=
  match op with
  | Record_ h _ _ _ | Distribute h _ _ | UpdateParams h _ _ => Some h
  | AddRewards _ _ => None
  end.
Definition heights (ops : list rop) : list N := omap rop_height ops.
Definition valid_rop (op : rop) : Prop :=
  (forall h, rop_height op = Some h -> h < U64) /\
  match op with UpdateParams _ _ p => valid_rparams p | _ => True end.

(** Instantiation data: governance, denomination, parameters, block height. *)
Record rinit := { ri_gov : addr; ri_denom : string; ri_params : rparams; ri_height : N }.
Definition rstart (i : rinit) : rstate :=
  rewards_init (ri_gov i) (ri_denom i) (ri_params i) (ri_height i).
Definition valid_rinit (i : rinit) : Prop := valid_rparams (ri_params i) /\ ri_height i < U64.

Definition rrun (i : rinit) (ops : list rop) : rstate := run rewards_step (rstart i) ops.
Definition rlog (i : rinit) (ops : list rop) : list (rop * list (addr * N)) :=
  log rewards_step (rstart i) ops.

(** A (contract, event, worker) triple per accepted participation record. *)
Definition records (l : list (rop * list (addr * N))) : list (addr * string * addr) :=
  omap (fun e => match e.1 with Record_ _ c ev w => Some (c, ev, w) | _ => None end) l.

(** Those of contract [c]. *)
Definition pool_records (c : addr) (l : list (rop * list (addr * N))) : list (addr * string * addr) :=
  filter (fun x => x.1.1 = c) (records l).

(** The first accepted record of event [ev] of contract [c] happened in
    epoch [n]. *)
Definition first_seen (i : rinit) (ops : list rop) (c : addr) (ev : string) (n : N) : Prop :=
  exists ops1 h w ops2 e,
    ops = ops1 ++ Record_ h c ev w :: ops2 /\
    (forall w', (c, ev, w') ∉ records (rlog i ops1)) /\
    is_ok (rewards_step (rrun i ops1) (Record_ h c ev w)) = true /\
    current_epoch (rrun i ops1) h = Ok e /\ e_num e = n.

(** Query-like views of the state. *)
Definition event_count (s : rstate) (c : addr) (n : N) : N :=
  match r_tallies s !! (c, n) with Some t => ty_count t | None => 0 end.
Definition participated (s : rstate) (c : addr) (n : N) (w : addr) : N :=
  match r_tallies s !! (c, n) with Some t => default 0 (ty_part t !! w) | None => 0 end.
(** the number of epochs of [c] already paid out *)
Definition next_epoch (s : rstate) (c : addr) : N :=
  match r_marks s !! c with Some n => n + 1 | None => 0 end.

(** Number of elements satisfying a decidable predicate. *)
Definition count {A} (P : A -> bool) (l : list A) : N := lsum (fun a => if P a then 1 else 0) l.

(** The worker took part in enough of the epoch's events. *)
Definition qualifies (t : tally) (w : addr) : Prop :=
  exists n, ty_part t !! w = Some n /\ 0 < n <= ty_count t /\
    t_num (rp_threshold (ty_params t)) * ty_count t <= n * t_den (rp_threshold (ty_params t)).

(** What one epoch owes one worker. *)
Definition owed (s : rstate) (c : addr) (n : N) (w : addr) : N :=
  match r_tallies s !! (c, n) with
  | Some t => default 0 (rewards_by_worker t !! w)
  | None => 0
  end.
Definition owed_total (s : rstate) (c : addr) (n : N) : N :=
  match r_tallies s !! (c, n) with
  | Some t => msum (fun _ v => v) (rewards_by_worker t)
  | None => 0
  end.

(** [a, a+1, ..., b-1] *)
Definition between (a b : N) : list N :=
  (fun i => a + N.of_nat i) <$> seq 0 (N.to_nat (b - a)).

(** Epochs of pool [c] paid out by the successful distributions of a
    history, in order. *)
Fixpoint paid_epochs (s : rstate) (ops : list rop) (c : addr) : list N :=
  match ops with
  | [] => []
  | op :: ops' =>
      match op, rewards_step s op with
      | Distribute _ c' _, Ok (s', _) =>
          if bool_decide (c' = c) then between (next_epoch s c) (next_epoch s' c) else []
      | _, _ => []
      end ++ paid_epochs (exec rewards_step s op) ops' c
  end.

(** Money put into and taken out of pool [c]. *)
Definition deposited (c : addr) (l : list (rop * list (addr * N))) : N :=
  lsum (fun e => match e.1 with
                 | AddRewards c' funds => if bool_decide (c' = c) then lsum snd funds else 0
                 | _ => 0 end) l.
Definition withdrawn (c : addr) (l : list (rop * list (addr * N))) : N :=
  lsum (fun e => match e.1 with
                 | Distribute _ c' _ => if bool_decide (c' = c) then lsum snd e.2 else 0
                 | _ => 0 end) l.

(** What a tally may never change. *)
Definition tally_fixed (t : tally) : addr * epoch * rparams := (ty_contract t, ty_epoch t, ty_params t).

(** The number of epochs asked for. *)
Definition limit_of (limit : option N) : N := default 10 limit.

(** Epochs a distribution asking for [limit] epochs at current epoch [cur]
    has to pay: they start at the first unpaid one and end before the one
    preceding the current epoch. *)
Definition due_epochs (s : rstate) (c : addr) (limit : option N) (cur : N) : list N :=
  between (next_epoch s c) (N.min (next_epoch s c + N.max 1 (limit_of limit)) (cur - 1)).
