(** Shared vocabulary of the model: results with panics, machine integers,
    and the generic notion of a contract history. Nothing here models a
    particular file of /repo; the citations say where the conventions come
    from. *)
From Coq Require Export Ascii.
From stdpp Require Export gmap strings list.
From Coq Require Export NArith ZArith Lia Sorting.Sorted.
From Coq Require Export ZifyBool ZifyNat ZifyN.

Set Default Proof Using "Type".
Global Arguments String.append : simpl nomatch.
Global Open Scope string_scope.
Global Open Scope list_scope.
Global Open Scope N_scope.

(** Result of a Rust function: [Ok], an ordinary error [Err], or an abort
    ([panic!], [expect], [assert!], arithmetic overflow). /repo/Cargo.toml:40
    sets [overflow-checks = true], so overflow aborts. *)
Inductive res (E A : Type) : Type :=
| Ok (a : A)
| Err (e : E)
| Panic.
Global Arguments Ok {E A} _.
Global Arguments Err {E A} _.
Global Arguments Panic {E A}.

Definition rbind {E A B} (r : res E A) (k : A -> res E B) : res E B :=
  match r with Ok a => k a | Err e => Err e | Panic => Panic end.
Notation "'let?' x := r 'in' k" := (rbind r (fun x => k))
  (at level 200, x pattern, r at level 100, k at level 200, right associativity).

(** [?] with error conversion ([map_err], [From]). *)
Definition map_err {E F A} (f : E -> F) (r : res E A) : res F A :=
  match r with Ok a => Ok a | Err e => Err (f e) | Panic => Panic end.
Definition of_option {E A} (e : E) (o : option A) : res E A :=
  match o with Some a => Ok a | None => Err e end.
(** [expect]/[unwrap] on an option. *)
Definition expect {E A} (o : option A) : res E A :=
  match o with Some a => Ok a | None => Panic end.
(** early return with an error unless the condition holds *)
Definition ensure {E} (b : bool) (e : E) : res E unit :=
  if b then Ok tt else Err e.
Definition is_ok {E A} (r : res E A) : bool :=
  match r with Ok _ => true | _ => false end.

(** [iter().map(f).collect::<Result<Vec<_>,_>>()]: stops at the first error. *)
Fixpoint try_map {E A B} (f : A -> res E B) (l : list A) : res E (list B) :=
  match l with
  | [] => Ok []
  | a :: l' => let? b := f a in let? bs := try_map f l' in Ok (b :: bs)
  end.

(** Machine integers are [N] with a range check. *)
Definition U32 : N := 2 ^ 32.
Definition U64 : N := 2 ^ 64.
Definition U128 : N := 2 ^ 128.
Definition U256 : N := 2 ^ 256.
Global Arguments U32 : simpl never.
Global Arguments U64 : simpl never.
Global Arguments U128 : simpl never.
Global Arguments U256 : simpl never.
Definition checked (bound n : N) {E} : res E N := if n <? bound then Ok n else Panic.
Definition add_u64 {E} (a b : N) : res E N := checked U64 (a + b).
Definition add_u128 {E} (a b : N) : res E N := checked U128 (a + b).
Definition add_u256 {E} (a b : N) : res E N := checked U256 (a + b).
Definition sub_checked {E} (a b : N) : res E N := if b <=? a then Ok (a - b) else Panic.

(** Accounts and contract addresses ([cosmwasm_std::Addr]) are strings. *)
Notation addr := string (only parsing).

(** Insertion sort, used for [sort], [sort_by_key] and for the iteration
    order of [BTreeMap]s; it is stable. *)
Section Sort.
  Context {A : Type} (leb : A -> A -> bool).
  Fixpoint insert_sorted (a : A) (l : list A) : list A :=
    match l with
    | [] => [a]
    | b :: l' => if leb a b then a :: l else b :: insert_sorted a l'
    end.
  Fixpoint isort (l : list A) : list A :=
    match l with
    | [] => []
    | a :: l' => insert_sorted a (isort l')
    end.
End Sort.

(** Sums, used in specifications. *)
Definition msum {K A} `{Countable K} (f : K -> A -> N) (m : gmap K A) : N :=
  map_fold (fun k a acc => f k a + acc) 0 m.
Definition lsum {A} (f : A -> N) (l : list A) : N :=
  fold_right (fun a acc => f a + acc) 0 l.

(** Histories. A contract is a step function; a call that does not return
    [Ok] is rolled back by the chain, so it leaves the state unchanged and is
    not logged. *)
Section History.
  Context {St Op Out E : Type} (step : St -> Op -> res E (St * Out)).

  Definition exec (s : St) (op : Op) : St :=
    match step s op with Ok (s', _) => s' | _ => s end.
  Definition log1 (s : St) (op : Op) : list (Op * Out) :=
    match step s op with Ok (_, out) => [(op, out)] | _ => [] end.

  (** State after a history of calls. *)
  Fixpoint run (s : St) (ops : list Op) : St :=
    match ops with
    | [] => s
    | op :: ops' => run (exec s op) ops'
    end.
  (** Successful calls with their responses, oldest first. *)
  Fixpoint log (s : St) (ops : list Op) : list (Op * Out) :=
    match ops with
    | [] => []
    | op :: ops' => log1 s op ++ log (exec s op) ops'
    end.
End History.
