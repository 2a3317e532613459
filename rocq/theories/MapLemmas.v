(** More lemmas about sums over maps and ordered iteration. *)
From Verif Require Import Base BaseLemmas Text StdModel StdProofs.

Lemma msum_map_to_list {K A} `{Countable K} (f : K -> A -> N) (m : gmap K A) :
  msum f m = lsum (fun x => f x.1 x.2) (map_to_list m).
Proof.
  induction m as [|k a m Hk IH] using map_ind.
  - by rewrite msum_empty, map_to_list_empty.
  - rewrite msum_insert_fresh by done. rewrite IH.
    rewrite (lsum_perm _ (map_to_list (<[k:=a]> m)) ((k, a) :: map_to_list m)); [by rewrite lsum_cons|].
    by apply map_to_list_insert.
Qed.

Lemma lsum_btree_iter {A} (f : addr -> A -> N) (m : gmap addr A) :
  lsum (fun x => f x.1 x.2) (btree_iter m) = msum f m.
Proof. rewrite msum_map_to_list. unfold btree_iter. apply lsum_perm, isort_perm. Qed.

Lemma msum_list_to_map {A} (f : addr -> N) (l : list (addr * A)) :
  NoDup l.*1 -> msum (fun a _ => f a) (list_to_map l : gmap addr A) = lsum f l.*1.
Proof.
  induction l as [|[a x] l IH]; [done|]. intros [Hni Hnd]%NoDup_cons. cbn [list_to_map fmap list_fmap fst].
  cbn in *. rewrite msum_insert_fresh by (by apply not_elem_of_list_to_map_1).
  change (list_to_map l) with (list_to_map l : gmap addr A). by rewrite IH by done.
Qed.

Lemma btree_iter_nil {A} (m : gmap addr A) : btree_iter m = [] <-> m = ∅.
Proof.
  unfold btree_iter. split.
  - intros H. apply map_to_list_empty_iff. apply length_zero_iff_nil.
    pose proof (f_equal length H) as Hl. by rewrite isort_length in Hl.
  - intros ->. by rewrite map_to_list_empty.
Qed.

Lemma elem_of_btree_keys {A} (m : gmap addr A) a :
  a ∈ (btree_iter m).*1 <-> is_Some (m !! a).
Proof.
  rewrite elem_of_list_fmap. split.
  - intros ([b x] & -> & H%elem_of_btree_iter). cbn. eauto.
  - intros [x H]. exists (a, x). split; [done|]. by apply elem_of_btree_iter.
Qed.

Lemma last_snoc_omap {A B} (f : A -> option B) (l : list A) (x : A) :
  last (omap f (l ++ [x])) = match f x with Some y => Some y | None => last (omap f l) end.
Proof.
  rewrite omap_app. cbn. destruct (f x); [apply last_snoc|by rewrite app_nil_r].
Qed.

Lemma seq_N_snoc (n : nat) :
  (N.of_nat <$> seq 1 n) ++ [N.of_nat n + 1] = N.of_nat <$> seq 1 (S n).
Proof. rewrite seq_S, fmap_app. cbn. do 2 f_equal. lia. Qed.

Lemma list_to_map_snoc_fresh {A} (l : list (addr * A)) a x :
  a ∉ l.*1 -> (list_to_map (l ++ [(a, x)]) : gmap addr A) = <[a := x]> (list_to_map l).
Proof.
  intros H. induction l as [|[b y] l IH]; [done|]. cbn in *. apply not_elem_of_cons in H as [Hab H].
  rewrite IH by done. by rewrite insert_commute by done.
Qed.

Lemma msum_subset {A B} (f : addr -> N) (m1 : gmap addr A) (m2 : gmap addr B) :
  (forall a, is_Some (m1 !! a) -> is_Some (m2 !! a)) ->
  msum (fun a _ => f a) m1 <= msum (fun a _ => f a) m2.
Proof.
  revert m2. induction m1 as [|k a m Hk IH] using map_ind; intros m2 H.
  - rewrite msum_empty. lia.
  - destruct (H k) as [x Hx]; [rewrite lookup_insert; eauto|].
    rewrite msum_insert_fresh by done. rewrite (msum_delete _ m2 k x) by done.
    assert (msum (fun a _ => f a) m <= msum (fun a _ => f a) (delete k m2)); [|lia].
    apply IH. intros b Hb. destruct (decide (b = k)) as [->|Hne]; [rewrite Hk in Hb; by destruct Hb|].
    rewrite lookup_delete_ne by done. apply H. by rewrite lookup_insert_ne by done.
Qed.
