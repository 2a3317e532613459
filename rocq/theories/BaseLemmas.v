(** Generic lemmas: histories, result monad, map sums, sorting. *)
From Verif Require Import Base.

Lemma rbind_ok {E A B} (r : res E A) (k : A -> res E B) b :
  rbind r k = Ok b <-> exists a, r = Ok a /\ k a = Ok b.
Proof. destruct r; simpl; naive_solver. Qed.
Lemma map_err_ok {E F A} (f : E -> F) (r : res E A) a :
  map_err f r = Ok a <-> r = Ok a.
Proof. destruct r; simpl; naive_solver. Qed.
Lemma of_option_ok {E A} (e : E) (o : option A) a :
  of_option e o = Ok a <-> o = Some a.
Proof. destruct o; simpl; naive_solver. Qed.
Lemma expect_ok {E A} (o : option A) a :
  expect (E:=E) o = Ok a <-> o = Some a.
Proof. destruct o; simpl; naive_solver. Qed.
Lemma ensure_ok {E} b (e : E) u : ensure b e = Ok u <-> b = true.
Proof. destruct b, u; simpl; naive_solver. Qed.
Lemma checked_ok {E} bound n m : checked (E:=E) bound n = Ok m <-> n < bound /\ m = n.
Proof.
  unfold checked. destruct (N.ltb_spec n bound); split; intros; destruct_and?; try discriminate.
  - naive_solver.
  - by subst.
  - lia.
Qed.
Lemma add_u64_ok {E} a b m : add_u64 (E:=E) a b = Ok m <-> a + b < U64 /\ m = a + b.
Proof. apply checked_ok. Qed.
Lemma add_u128_ok {E} a b m : add_u128 (E:=E) a b = Ok m <-> a + b < U128 /\ m = a + b.
Proof. apply checked_ok. Qed.
Lemma add_u256_ok {E} a b m : add_u256 (E:=E) a b = Ok m <-> a + b < U256 /\ m = a + b.
Proof. apply checked_ok. Qed.
Lemma sub_checked_ok {E} a b m : sub_checked (E:=E) a b = Ok m <-> b <= a /\ m = a - b.
Proof.
  unfold sub_checked. destruct (N.leb_spec b a); split; intros; destruct_and?; try discriminate.
  - naive_solver.
  - by subst.
  - lia.
Qed.

(** Inverts a chain of [let?] that ended in [Ok]. *)
Ltac res_inv :=
  repeat match goal with
  | H : rbind _ _ = Ok _ |- _ =>
      apply rbind_ok in H; let a := fresh "v" in let H1 := fresh "Hv" in
      destruct H as (a & H1 & H)
  | H : map_err _ _ = Ok _ |- _ => apply map_err_ok in H
  | H : of_option _ _ = Ok _ |- _ => apply of_option_ok in H
  | H : expect _ = Ok _ |- _ => apply expect_ok in H
  | H : ensure _ _ = Ok _ |- _ => apply ensure_ok in H
  | H : add_u64 _ _ = Ok _ |- _ => apply add_u64_ok in H; destruct H as [? ?]; subst
  | H : add_u128 _ _ = Ok _ |- _ => apply add_u128_ok in H; destruct H as [? ?]; subst
  | H : add_u256 _ _ = Ok _ |- _ => apply add_u256_ok in H; destruct H as [? ?]; subst
  | H : sub_checked _ _ = Ok _ |- _ => apply sub_checked_ok in H; destruct H as [? ?]; subst
  | H : Ok _ = Ok _ |- _ => injection H as H
  | H : Err _ = Ok _ |- _ => discriminate H
  | H : Panic = Ok _ |- _ => discriminate H
  end.

Lemma try_map_ok {E A B} (f : A -> res E B) l bs :
  try_map f l = Ok bs <-> Forall2 (fun a b => f a = Ok b) l bs.
Proof.
  revert bs. induction l as [|a l IH]; intros bs; simpl.
  - split; intros H; [injection H as <-; constructor | by inversion H].
  - split.
    + intros H. res_inv. subst. constructor; [done|]. by apply IH.
    + intros H. inversion H as [|? b ? bs' Hb Hbs]; subst.
      rewrite Hb. simpl. apply IH in Hbs. by rewrite Hbs.
Qed.

Section HistoryLemmas.
  Context {St Op Out E : Type} (step : St -> Op -> res E (St * Out)).

  Lemma run_app s ops1 ops2 :
    run step s (ops1 ++ ops2) = run step (run step s ops1) ops2.
  Proof. revert s. induction ops1; intros; simpl; auto. Qed.
  Lemma log_app s ops1 ops2 :
    log step s (ops1 ++ ops2) = log step s ops1 ++ log step (run step s ops1) ops2.
  Proof.
    revert s. induction ops1 as [|op ops1 IH]; intros; simpl; auto.
    rewrite IH. by rewrite app_assoc.
  Qed.
  Lemma run_snoc s ops op :
    run step s (ops ++ [op]) = exec step (run step s ops) op.
  Proof. by rewrite run_app. Qed.
  Lemma log_snoc s ops op :
    log step s (ops ++ [op]) = log step s ops ++ log1 step (run step s ops) op.
  Proof. rewrite log_app. simpl. by rewrite app_nil_r. Qed.

  (** A logged call was made in the state reached just before it. *)
  Lemma log_split s ops l1 op out l2 :
    log step s ops = l1 ++ (op, out) :: l2 ->
    exists ops1 ops2 s', ops = ops1 ++ op :: ops2 /\ log step s ops1 = l1 /\
      step (run step s ops1) op = Ok (s', out) /\ log step s' ops2 = l2.
  Proof.
    revert s l1. induction ops as [|o ops IH]; intros s l1; simpl; [by destruct l1|].
    unfold log1 at 1, exec at 1. destruct (step s o) as [[s' out']| |] eqn:Hs; simpl.
    - destruct l1 as [|e l1]; simpl.
      + intros [= -> -> <-]. exists [], ops, s'. done.
      + intros [= <- H]. apply IH in H as (ops1 & ops2 & s2 & -> & <- & ? & ?).
        exists (o :: ops1), ops2, s2. simpl. unfold log1, exec. rewrite Hs. done.
    - intros H. apply IH in H as (ops1 & ops2 & s2 & -> & <- & ? & ?).
      exists (o :: ops1), ops2, s2. simpl. unfold log1, exec. rewrite Hs. done.
    - intros H. apply IH in H as (ops1 & ops2 & s2 & -> & <- & ? & ?).
      exists (o :: ops1), ops2, s2. simpl. unfold log1, exec. rewrite Hs. done.
  Qed.
  Lemma log_elem s ops op out :
    (op, out) ∈ log step s ops ->
    exists ops1 ops2 s', ops = ops1 ++ op :: ops2 /\ step (run step s ops1) op = Ok (s', out).
  Proof.
    intros (l1 & l2 & H)%elem_of_list_split. apply log_split in H as (o1 & o2 & s' & ? & _ & ? & _). eauto.
  Qed.

  (** Invariants of the state. *)
  Lemma run_inv (P : St -> Prop) s ops :
    P s -> (forall s op s' out, P s -> step s op = Ok (s', out) -> P s') ->
    P (run step s ops).
  Proof.
    intros H0 Hs. revert s H0. induction ops as [|op ops IH]; intros s H0; simpl; auto.
    apply IH. unfold exec. destruct (step s op) as [[s' out]| |] eqn:?; eauto.
  Qed.

  (** Invariants relating the state and the log of a history. *)
  Lemma run_log_inv (P : St -> list (Op * Out) -> Prop) s ops :
    P s [] ->
    (forall s l op s' out, P s l -> step s op = Ok (s', out) -> P s' (l ++ [(op, out)])) ->
    P (run step s ops) (log step s ops).
  Proof.
    intros H0 Hs. induction ops as [|op ops IH] using rev_ind; [exact H0|].
    rewrite run_snoc, log_snoc. unfold exec, log1.
    destruct (step (run step s ops) op) as [[s' out]| |] eqn:Heq.
    - eapply Hs; eauto.
    - by rewrite app_nil_r.
    - by rewrite app_nil_r.
  Qed.

  (** Relations between an earlier and a later state. *)
  Lemma run_rel (R : St -> St -> Prop) s ops :
    (forall s, R s s) -> (forall a b c, R a b -> R b c -> R a c) ->
    (forall s op s' out, step s op = Ok (s', out) -> R s s') ->
    R s (run step s ops).
  Proof.
    intros Hr Ht Hs. revert s. induction ops as [|op ops IH]; intros s; simpl; auto.
    eapply Ht; [|apply IH]. unfold exec.
    destruct (step s op) as [[s' out]| |] eqn:?; eauto.
  Qed.
  Lemma run_rel_inv (P : St -> Prop) (R : St -> St -> Prop) s ops :
    P s ->
    (forall s op s' out, P s -> step s op = Ok (s', out) -> P s') ->
    (forall s, R s s) -> (forall a b c, R a b -> R b c -> R a c) ->
    (forall s op s' out, P s -> step s op = Ok (s', out) -> R s s') ->
    R s (run step s ops).
  Proof.
    intros H0 HP Hr Ht Hs. revert s H0. induction ops as [|op ops IH]; intros s H0; simpl; auto.
    unfold exec. destruct (step s op) as [[s' out]| |] eqn:?; eauto.
  Qed.
  (** The same for histories of calls satisfying [Q]. *)
  Lemma run_inv_ops (Q : Op -> Prop) (P : St -> Prop) s ops :
    Forall Q ops -> P s ->
    (forall s op s' out, Q op -> P s -> step s op = Ok (s', out) -> P s') ->
    P (run step s ops).
  Proof.
    intros HQ H0 Hs. revert s H0. induction HQ as [|op ops Hq HQ IH]; intros s H0; simpl; auto.
    apply IH. unfold exec. destruct (step s op) as [[s' out]| |] eqn:?; eauto.
  Qed.
  Lemma run_log_inv_ops (Q : Op -> Prop) (P : St -> list (Op * Out) -> Prop) s ops :
    Forall Q ops -> P s [] ->
    (forall s l op s' out, Q op -> P s l -> step s op = Ok (s', out) -> P s' (l ++ [(op, out)])) ->
    P (run step s ops) (log step s ops).
  Proof.
    intros HQ H0 Hs. induction ops as [|op ops IH] using rev_ind; [exact H0|].
    apply Forall_app in HQ as [HQ Hq]. apply Forall_inv in Hq. specialize (IH HQ).
    rewrite run_snoc, log_snoc. unfold exec, log1.
    destruct (step (run step s ops) op) as [[s' out]| |] eqn:Heq.
    - exact (Hs _ _ _ _ _ Hq IH Heq).
    - by rewrite app_nil_r.
    - by rewrite app_nil_r.
  Qed.
  Lemma run_rel_ops (Q : Op -> Prop) (P : St -> Prop) (R : St -> St -> Prop) s ops :
    Forall Q ops -> P s ->
    (forall s op s' out, Q op -> P s -> step s op = Ok (s', out) -> P s') ->
    (forall s, R s s) -> (forall a b c, R a b -> R b c -> R a c) ->
    (forall s op s' out, Q op -> P s -> step s op = Ok (s', out) -> R s s') ->
    R s (run step s ops).
  Proof.
    intros HQ H0 HP Hr Ht Hs. revert s H0. induction HQ as [|op ops Hq HQ IH]; intros s H0; simpl; auto.
    unfold exec. destruct (step s op) as [[s' out]| |] eqn:?; eauto.
  Qed.
End HistoryLemmas.

(** Sorting. *)
Section SortLemmas.
  Context {A : Type} (leb : A -> A -> bool).

  Lemma insert_sorted_perm a l : insert_sorted leb a l ≡ₚ a :: l.
  Proof.
    induction l as [|b l IH]; simpl; [done|].
    destruct (leb a b); [done|]. rewrite IH. by constructor.
  Qed.
  Lemma isort_perm l : isort leb l ≡ₚ l.
  Proof. induction l; simpl; [done|]. rewrite insert_sorted_perm. by f_equiv. Qed.
  Lemma elem_of_isort l x : x ∈ isort leb l <-> x ∈ l.
  Proof. by rewrite isort_perm. Qed.
  Lemma isort_NoDup l : NoDup (isort leb l) <-> NoDup l.
  Proof. by rewrite isort_perm. Qed.
  Lemma isort_length l : length (isort leb l) = length l.
  Proof. by rewrite isort_perm. Qed.

  Lemma insert_sorted_sorted a l :
    (forall x y, leb x y = true \/ leb y x = true) ->
    Sorted (fun x y => leb x y = true) l ->
    Sorted (fun x y => leb x y = true) (insert_sorted leb a l).
  Proof.
    intros Htot H. induction H as [|b l Hl IH Hhd]; simpl; [by repeat constructor|].
    destruct (leb a b) eqn:Hab; [by repeat constructor|].
    constructor; [done|]. destruct l as [|c l]; simpl.
    - constructor. destruct (Htot b a); congruence.
    - destruct (leb a c); constructor.
      + destruct (Htot b a); congruence.
      + by inversion Hhd.
  Qed.
  Lemma isort_sorted l :
    (forall x y, leb x y = true \/ leb y x = true) ->
    Sorted (fun x y => leb x y = true) (isort leb l).
  Proof.
    intros Htot. induction l; simpl; [constructor|]. by apply insert_sorted_sorted.
  Qed.
End SortLemmas.

(** Sums over finite maps. *)
Section MapSum.
  Context {K : Type} `{Countable K} {A : Type}.
  Implicit Types (m : gmap K A) (f g : K -> A -> N).

  Lemma msum_empty f : msum f ∅ = 0.
  Proof. apply map_fold_empty. Qed.
  Lemma msum_insert_fresh f m k a :
    m !! k = None -> msum f (<[k:=a]> m) = f k a + msum f m.
  Proof.
    intros Hk. unfold msum. rewrite map_fold_insert_L; auto.
    intros. lia.
  Qed.
  Lemma msum_delete f m k a :
    m !! k = Some a -> msum f m = f k a + msum f (delete k m).
  Proof.
    intros Hk. rewrite <- (insert_delete m k a Hk) at 1.
    apply msum_insert_fresh. apply lookup_delete.
  Qed.
  Lemma msum_insert f m k a b :
    m !! k = Some a -> msum f (<[k:=b]> m) + f k a = msum f m + f k b.
  Proof.
    intros Hk. rewrite <- insert_delete_insert.
    rewrite msum_insert_fresh by apply lookup_delete.
    rewrite (msum_delete f m k a Hk). lia.
  Qed.
  Lemma msum_ext f g m :
    (forall k a, m !! k = Some a -> f k a = g k a) -> msum f m = msum g m.
  Proof.
    induction m as [|k a m Hk IH] using map_ind; intros Hfg.
    - by rewrite !msum_empty.
    - rewrite !msum_insert_fresh by done. f_equal.
      + apply Hfg. by rewrite lookup_insert.
      + apply IH. intros k' a' Hk'. apply Hfg.
        rewrite lookup_insert_ne; [done|]. congruence.
  Qed.
  Lemma msum_le f g m :
    (forall k a, m !! k = Some a -> f k a <= g k a) -> msum f m <= msum g m.
  Proof.
    induction m as [|k a m Hk IH] using map_ind; intros Hfg.
    - by rewrite !msum_empty.
    - rewrite !msum_insert_fresh by done.
      assert (f k a <= g k a) by (apply Hfg; by rewrite lookup_insert).
      assert (msum f m <= msum g m); [|lia].
      apply IH. intros k' a' Hk'. apply Hfg.
      rewrite lookup_insert_ne; [done|]. congruence.
  Qed.
  Lemma msum_add f g m :
    msum (fun k a => f k a + g k a) m = msum f m + msum g m.
  Proof.
    induction m as [|k a m Hk IH] using map_ind.
    - by rewrite !msum_empty.
    - rewrite !msum_insert_fresh by done. lia.
  Qed.
  Lemma msum_zero f m :
    (forall k a, m !! k = Some a -> f k a = 0) -> msum f m = 0.
  Proof.
    intros Hf. rewrite (msum_ext f (fun _ _ => 0) m Hf).
    induction m as [|k a m Hk IH] using map_ind; [done|].
    rewrite msum_insert_fresh by done. rewrite IH; [done|].
    intros k' a' Hk'. apply Hf. rewrite lookup_insert_ne; [done|congruence].
  Qed.
  Lemma msum_lookup_le f m k a :
    m !! k = Some a -> f k a <= msum f m.
  Proof. intros Hk. rewrite (msum_delete f m k a Hk). lia. Qed.
End MapSum.

(** Sums over lists. *)
Lemma lsum_cons {A} (f : A -> N) a l : lsum f (a :: l) = f a + lsum f l.
Proof. done. Qed.
Lemma lsum_one {A} (f : A -> N) a : lsum f [a] = f a.
Proof. cbn. lia. Qed.
Lemma lsum_app {A} (f : A -> N) l1 l2 : lsum f (l1 ++ l2) = lsum f l1 + lsum f l2.
Proof. induction l1; simpl; lia. Qed.
Lemma lsum_perm {A} (f : A -> N) l1 l2 : l1 ≡ₚ l2 -> lsum f l1 = lsum f l2.
Proof. induction 1; simpl; lia. Qed.
Lemma lsum_ext {A} (f g : A -> N) l : (forall a, a ∈ l -> f a = g a) -> lsum f l = lsum g l.
Proof.
  induction l as [|a l IH]; simpl; intros Hfg; [done|].
  rewrite Hfg by left. rewrite IH; [done|]. intros; apply Hfg; by right.
Qed.
Lemma lsum_le {A} (f g : A -> N) l : (forall a, a ∈ l -> f a <= g a) -> lsum f l <= lsum g l.
Proof.
  induction l as [|a l IH]; simpl; intros Hfg; [done|].
  assert (f a <= g a) by (apply Hfg; left).
  assert (lsum f l <= lsum g l) by (apply IH; intros; apply Hfg; by right). lia.
Qed.
Lemma lsum_fmap {A B} (f : B -> N) (g : A -> B) l : lsum f (g <$> l) = lsum (fun a => f (g a)) l.
Proof. induction l; simpl; [done|]. by f_equal. Qed.
Lemma lsum_elem_le {A} (f : A -> N) l a : a ∈ l -> f a <= lsum f l.
Proof. induction 1; simpl; lia. Qed.
Lemma lsum_const {A} (c : N) (l : list A) : lsum (fun _ => c) l = c * N.of_nat (length l).
Proof. induction l; simpl; lia. Qed.
