(** The byte store behaves as a finite map of places. *)
From Verif Require Import Base BaseLemmas Text TextLemmas StdModel StdProofs MapLemmas EncodingModel EncodingProofs.
From Verif Require Import RegistryProofs StorageModel StorageSpec StorageProofs.

(** ** Lists sorted by distinct keys *)
Section SortedUnique.
  Context {A : Type}.
  Implicit Types l : list (string * A).
  Definition by_key (x y : string * A) : Prop := String.leb x.1 y.1 = true.

  Lemma sorted_unique l1 l2 :
    Sorted by_key l1 -> Sorted by_key l2 -> NoDup l1.*1 -> l1 ≡ₚ l2 -> l1 = l2.
  Proof.
    assert (Ht : forall x y z : string * A, by_key x y -> by_key y z -> by_key x z).
    { intros x y z. apply leb_trans. }
    intros H1 H2. apply Sorted_StronglySorted in H1; [|exact Ht]. apply Sorted_StronglySorted in H2; [|exact Ht].
    revert l2 H2. induction H1 as [|a l1 H1 IH Ha]; intros l2 H2 Hn Hp.
    - by apply Permutation_nil in Hp as ->.
    - destruct H2 as [|b l2 H2 Hb]; [by apply Permutation_sym, Permutation_nil in Hp|].
      assert (a = b) as <-.
      { assert (Hab : a ∈ b :: l2) by (rewrite <- Hp; apply elem_of_cons; by left).
        assert (Hba : b ∈ a :: l1) by (rewrite Hp; apply elem_of_cons; by left).
        apply elem_of_cons in Hab as [Hab|Hab]; [done|]. apply elem_of_cons in Hba as [Hba|Hba]; [done|].
        rewrite Forall_forall in Ha, Hb. pose proof (Ha b Hba) as E1. pose proof (Hb a Hab) as E2.
        assert (E : a.1 = b.1) by (by apply String.leb_antisym).
        rewrite fmap_cons, NoDup_cons in Hn. destruct Hn as [Hn _]. exfalso. apply Hn. rewrite E.
        apply elem_of_list_fmap. by exists b. }
      f_equal. apply IH; [done| |by apply Permutation_cons_inv in Hp].
      rewrite fmap_cons, NoDup_cons in Hn. by destruct Hn.
  Qed.
  Lemma btree_sorted (m : gmap string A) : Sorted by_key (btree_iter m).
  Proof. apply (isort_sorted (fun a b : string * A => String.leb a.1 b.1)). intros x y. apply String.leb_total. Qed.
  Lemma btree_perm (m : gmap string A) : btree_iter m ≡ₚ map_to_list m.
  Proof. apply isort_perm. Qed.
  Lemma elem_of_btree (m : gmap string A) k v : (k, v) ∈ btree_iter m <-> m !! k = Some v.
  Proof. rewrite btree_perm. apply elem_of_map_to_list. Qed.
  Lemma btree_keys_NoDup (m : gmap string A) : NoDup (btree_iter m).*1.
  Proof. rewrite btree_perm. apply NoDup_fst_map_to_list. Qed.
  Lemma btree_NoDup (m : gmap string A) : NoDup (btree_iter m).
  Proof. rewrite btree_perm. apply NoDup_map_to_list. Qed.
  (** a sorted list without repeated keys is the iteration of its map *)
  Lemma btree_of_list l (m : gmap string A) :
    Sorted by_key l -> NoDup l.*1 -> (forall k v, (k, v) ∈ l <-> m !! k = Some v) -> l = btree_iter m.
  Proof.
    intros Hs Hn He. apply sorted_unique; [done|apply btree_sorted|done|].
    apply NoDup_Permutation; [by apply NoDup_fmap_1 in Hn|apply btree_NoDup|].
    intros [k v]. by rewrite elem_of_btree.
  Qed.
End SortedUnique.
Lemma btree_fmap {A B} (f : A -> B) (m : gmap string A) : btree_iter (f <$> m) = (fun kv => (kv.1, f kv.2)) <$> btree_iter m.
Proof.
  symmetry. apply btree_of_list.
  - apply Sorted_fmap. apply btree_sorted.
  - rewrite <- list_fmap_compose. apply btree_keys_NoDup.
  - intros k v. rewrite elem_of_list_fmap, lookup_fmap, fmap_Some. split.
    + intros ([k' a] & [= -> ->] & Ha). exists a. split; [by apply elem_of_btree|done].
    + intros (a & Ha & ->). exists (k, a). split; [done|by apply elem_of_btree].
Qed.
Lemma NoDup_fst_filter {A B} (P : A * B -> Prop) `{forall x, Decision (P x)} (l : list (A * B)) :
  NoDup l.*1 -> NoDup (filter P l).*1.
Proof.
  induction l as [|x l IH]; [done|]. rewrite fmap_cons, NoDup_cons. intros [Hx Hl]. rewrite filter_cons.
  case_decide; [|auto]. rewrite fmap_cons, NoDup_cons. split; [|auto]. intros Hin. apply Hx.
  apply elem_of_list_fmap in Hin as (y & -> & Hy). apply elem_of_list_filter in Hy as [_ Hy].
  apply elem_of_list_fmap. by exists y.
Qed.
Lemma btree_filter {A} (P : string * A -> Prop) `{forall x, Decision (P x)} (m : gmap string A) :
  btree_iter (filter P m) = filter P (btree_iter m).
Proof.
  symmetry. apply btree_of_list.
  - apply Sorted_filter; [|apply btree_sorted]. intros x y z. apply leb_trans.
  - apply NoDup_fst_filter, btree_keys_NoDup.
  - intros k v. rewrite elem_of_list_filter, elem_of_btree, map_filter_lookup_Some. tauto.
Qed.

(** ** Entries under leading parts *)
Lemma lookup_entries {V} (t : gmap skey V) ns ps l : entries t ns ps !! l = t !! SEntry ns ps l.
Proof.
  unfold entries.
  set (f := fun kv : skey * V => match kv.1 with
                     | SItem _ => None
                     | SEntry ns' ps' l0 => if decide (ns' = ns /\ ps' = ps) then Some (l0, kv.2) else None
                     end).
  assert (Hf : forall kv l0 v, f kv = Some (l0, v) <-> kv = (SEntry ns ps l0, v)).
  { intros [[n|ns' ps' l'] v'] l0 v; unfold f; simpl; [split; [done|intros [=]]|].
    case_decide as Hd; split; [|intros [= -> -> -> ->]; done|done|intros [= -> -> -> ->]; by exfalso; apply Hd].
    destruct Hd as [-> ->]. by intros [= -> ->]. }
  assert (Hin : forall l0 v, (l0, v) ∈ omap (M:=list) f (map_to_list t) <-> t !! SEntry ns ps l0 = Some v).
  { intros l0 v. rewrite elem_of_list_omap. setoid_rewrite Hf. split.
    - intros (x & Hx & ->). by apply elem_of_map_to_list.
    - intros Hx. exists (SEntry ns ps l0, v). split; [by apply elem_of_map_to_list|done]. }
  assert (Hn : NoDup (omap (M:=list) f (map_to_list t)).*1).
  { pose proof (NoDup_fst_map_to_list t) as Hn. revert Hn. clear Hin.
    induction (map_to_list t) as [|x xs IH]; [constructor|]. rewrite fmap_cons, NoDup_cons. intros [Hx Hn]. simpl.
    destruct (f x) as [[l0 v0]|] eqn:E; [|auto]. rewrite fmap_cons, NoDup_cons. split; [|auto].
    apply Hf in E as ->. intros H. apply elem_of_list_fmap in H as ([l1 v1] & E1 & H1). simpl in E1. subst l1.
    apply elem_of_list_omap in H1 as (y & Hy & Ey). apply Hf in Ey as ->. apply Hx. apply elem_of_list_fmap.
    by exists (SEntry ns ps l0, v1). }
  apply option_eq. intros v. rewrite <- Hin. symmetry. by apply elem_of_list_to_map.
Qed.

(** ** One scan *)
Lemma try_map_all {E A B} (f : A -> res E B) (g : A -> B) l :
  (forall a, a ∈ l -> f a = Ok (g a)) -> try_map f l = Ok (g <$> l).
Proof.
  induction l as [|a l IH]; intros H; [done|]. simpl. rewrite H by (apply elem_of_cons; by left). simpl.
  rewrite IH; [done|]. intros b Hb. apply H. apply elem_of_cons. by right.
Qed.
Lemma not_all_ff L ns ps p :
  proper L = true -> (ns, length ps) ∈ l_maps L -> with_lengths (ns :: ps) = Some p -> ~ all_ff p.
Proof.
  intros HL Hm Hp. apply with_lengths_cons in Hp as (a & b & Ha & Hb & ->).
  pose proof (proper_maps _ _ _ HL Hm). apply (with_length_not_ff ns); [lia|done].
Qed.
Lemma prefix_range_ok {V E} L (m : gmap string V) (t : gmap skey V) ns ps p :
  proper L = true -> stored L m t -> (ns, length ps) ∈ l_maps L -> Forall (fun p => slen p < 65535) ps ->
  with_lengths (ns :: ps) = Some p ->
  prefix_range (E:=E) m p = Ok (btree_iter (entries t ns ps)).
Proof.
  intros HL [Hdom Hst] Hm Hs Hp. unfold prefix_range.
  pose proof (not_all_ff _ _ _ _ HL Hm Hp) as Hff.
  assert (Hkeys : forall x v, (x, v) ∈ store_range m p (upper_bound p) <->
                    exists l, x = p +:+ l /\ t !! SEntry ns ps l = Some v).
  { intros x v. unfold store_range. rewrite elem_of_list_filter, elem_of_btree. simpl. split.
    - intros [[Hl Hu] Hx]. apply Hst in Hx as (k & Hk & Ht).
      destruct (Hdom k) as [Hpl Hfit]; [by eexists|].
      destruct (range_spec p x Hff Hl Hu) as [[y ->]|Ho].
      + exists y. split; [done|].
        assert (Hpath : path (SEntry ns ps y) = Some (p +:+ y)) by (unfold path; by rewrite Hp).
        by rewrite <- (path_inj L k (SEntry ns ps y) _ HL Hpl Hm Hk Hpath).
      + by destruct (over_entry L ns ps p k x HL Hm Hs Hp Hpl Hk Ho).
    - intros (l & -> & Ht). split; [by apply range_prefix|]. apply Hst. exists (SEntry ns ps l).
      split; [|done]. unfold path. by rewrite Hp. }
  rewrite (try_map_all _ (fun kv => (sdrop (String.length p) kv.1, kv.2))).
  2:{ intros [x v] Hx. apply Hkeys in Hx as (l & -> & _). simpl.
      destruct (N.ltb_spec (slen (p +:+ l)) (slen p)); [|done]. rewrite slen_app in *. lia. }
  f_equal. apply btree_of_list.
  - apply Sorted_fmap. unfold store_range.
    assert (Hsort : Sorted by_key (store_range m p (upper_bound p))).
    { apply Sorted_filter; [|apply btree_sorted]. intros x y z. apply leb_trans. }
    apply Sorted_StronglySorted in Hsort; [|intros x y z; apply leb_trans].
    apply StronglySorted_Sorted. fold (store_range m p (upper_bound p)).
    revert Hkeys. induction Hsort as [|[x v] l Hl IH Ha]; intros Hkeys; [constructor|].
    assert (Hpre : forall y, y ∈ (x, v) :: l -> exists r, y.1 = p +:+ r).
    { intros [y w] Hy. apply Hkeys in Hy as (r & -> & _). by exists r. }
    clear Hkeys. revert Ha Hl IH.
    intros Ha Hl _. constructor.
    + assert (Hpre' : forall y, y ∈ l -> exists r, y.1 = p +:+ r).
      { intros y Hy. apply Hpre. apply elem_of_cons. by right. }
      clear Ha Hpre. induction Hl as [|y l Hl IH Ha]; [constructor|]. constructor.
      * apply IH. intros z Hz. apply Hpre'. apply elem_of_cons. by right.
      * rewrite Forall_forall in *. intros z Hz. specialize (Ha z Hz). unfold by_key in *. simpl.
        destruct (Hpre' y) as [r1 E1]; [apply elem_of_cons; by left|].
        destruct (Hpre' z) as [r2 E2]; [apply elem_of_cons; by right|].
        rewrite E1, E2 in *. rewrite !sdrop_app. by rewrite leb_app in Ha.
    + rewrite Forall_forall in *. intros z Hz. specialize (Ha z Hz). unfold by_key in *. simpl in *.
      destruct (Hpre (x, v)) as [r1 E1]; [apply elem_of_cons; by left|].
      destruct (Hpre z) as [r2 E2]; [apply elem_of_cons; by right|]. simpl in E1.
      rewrite E1, E2 in *. rewrite !sdrop_app. by rewrite leb_app in Ha.
  - assert (Hn : NoDup (store_range m p (upper_bound p)).*1) by apply NoDup_fst_filter, btree_keys_NoDup.
    revert Hn Hkeys. generalize (store_range m p (upper_bound p)) as l. intros l Hn Hkeys.
    assert (Hpre : forall y, y ∈ l -> exists r, y.1 = p +:+ r).
    { intros [y w] Hy. apply Hkeys in Hy as (r & -> & _). by exists r. }
    clear Hkeys. induction l as [|y l IH]; [constructor|].
    rewrite fmap_cons, NoDup_cons in Hn. destruct Hn as [Hy Hn].
    rewrite !fmap_cons, NoDup_cons. split.
    + intros Hin. apply Hy. apply elem_of_list_fmap in Hin as (z & Ez & Hz). simpl in Ez.
      apply elem_of_list_fmap in Hz as (w & -> & Hw). simpl in Ez.
      destruct (Hpre y) as [r1 E1]; [apply elem_of_cons; by left|].
      destruct (Hpre w) as [r2 E2]; [apply elem_of_cons; by right|].
      rewrite E1, E2, !sdrop_app in Ez. apply elem_of_list_fmap. exists w. split; [congruence|done].
    + apply IH; [done|]. intros z Hz. apply Hpre. apply elem_of_cons. by right.
  - intros k v. rewrite lookup_entries, elem_of_list_fmap. split.
    + intros ([x w] & [= -> ->] & Hx). apply Hkeys in Hx as (l & -> & Ht). by rewrite sdrop_app.
    + intros Ht. exists (p +:+ k, v). simpl. rewrite sdrop_app. split; [done|]. apply Hkeys. by exists k.
Qed.

(** ** Whole programs *)
Lemma place_path L k : proper L = true -> place L k -> is_Some (path k) <-> fits k.
Proof.
  intros HL Hk. destruct k as [n|ns ps l]; [split; [done|by eexists]|].
  apply (path_is_some _ ns ps l); [done|]. pose proof (proper_maps _ _ _ HL Hk). lia.
Qed.
Lemma stored_lookup {V} L (m : gmap string V) t k x :
  proper L = true -> stored L m t -> place L k -> path k = Some x -> m !! x = t !! k.
Proof.
  intros HL [Hdom Hst] Hk Hx. apply option_eq. intros v. rewrite Hst. split.
  - intros (k' & Hx' & Ht). destruct (Hdom k') as [Hk' _]; [by eexists|].
    by rewrite (path_inj L k k' x HL Hk Hk' Hx Hx').
  - intros Ht. by exists k.
Qed.
Lemma stored_insert {V} L (m : gmap string V) t k x v :
  proper L = true -> stored L m t -> place L k -> path k = Some x -> stored L (<[x := v]> m) (<[k := v]> t).
Proof.
  intros HL [Hdom Hst] Hk Hx. split.
  - intros k' [w Hw]. apply lookup_insert_Some in Hw as [[<- _]|[_ Hw]].
    + split; [done|]. apply (place_path L); [done..|by eexists].
    + apply Hdom. by eexists.
  - intros y w. rewrite lookup_insert_Some, Hst. split.
    + intros [[<- <-]|[Hne (k' & Hy & Hw)]].
      * exists k. split; [done|]. by rewrite lookup_insert.
      * exists k'. split; [done|]. rewrite lookup_insert_ne; [done|]. intros ->. congruence.
    + intros (k' & Hy & Hw). apply lookup_insert_Some in Hw as [[<- <-]|[Hne Hw]].
      * left. split; [congruence|done].
      * right. split; [|by exists k']. intros <-. apply Hne.
        apply (path_inj L k k' x); [done..| |done|done]. apply Hdom. by eexists.
Qed.
Lemma stored_delete {V} L (m : gmap string V) t k x :
  proper L = true -> stored L m t -> place L k -> path k = Some x -> stored L (delete x m) (delete k t).
Proof.
  intros HL [Hdom Hst] Hk Hx. split.
  - intros k' [w Hw]. apply lookup_delete_Some in Hw as [_ Hw]. apply Hdom. by eexists.
  - intros y w. rewrite lookup_delete_Some, Hst. split.
    + intros [Hne (k' & Hy & Hw)]. exists k'. split; [done|]. rewrite lookup_delete_ne; [done|]. intros ->. congruence.
    + intros (k' & Hy & Hw). apply lookup_delete_Some in Hw as [Hne Hw]. split; [|by exists k'].
      intros <-. apply Hne. apply (path_inj L k k' x); [done..| |done|done]. apply Hdom. by eexists.
Qed.
Lemma place_cases L k : proper L = true -> place L k ->
  (exists x, path k = Some x /\ fits k) \/ (path k = None /\ ~ fits k).
Proof.
  intros HL Hk. pose proof (place_path L k HL Hk) as H. destruct (path k) as [x|].
  - left. exists x. split; [done|]. apply H. by eexists.
  - right. split; [done|]. intros Hf. apply H in Hf as [? ?]. done.
Qed.
Lemma c97_faithful {V E A} (L : layout) (p : prog V E A) (m : gmap string V) (t : gmap skey V) :
  proper L = true -> keeps L p -> stored L m t -> agree (stored L) (raw p m) (ideal p t).
Proof.
  intros HL. revert m t. induction p as [a|e| |k f IH|k v p IH|k p IH|ns ps f IH]; intros m t Hk Hst; simpl in *.
  - done.
  - done.
  - done.
  - destruct Hk as [Hk Hf]. destruct (place_cases L k HL Hk) as [(x & Hx & Hfit)|[Hx Hfit]]; rewrite Hx.
    + rewrite decide_True by done. rewrite (stored_lookup L m t k x HL Hst Hk Hx). by apply IH.
    + by rewrite decide_False.
  - destruct Hk as [Hk Hf]. destruct (place_cases L k HL Hk) as [(x & Hx & Hfit)|[Hx Hfit]]; rewrite Hx.
    + rewrite decide_True by done. apply IH; [done|]. by apply stored_insert.
    + by rewrite decide_False.
  - destruct Hk as [Hk Hf]. destruct (place_cases L k HL Hk) as [(x & Hx & Hfit)|[Hx Hfit]]; rewrite Hx.
    + rewrite decide_True by done. apply IH; [done|]. by apply stored_delete.
    + by rewrite decide_False.
  - destruct Hk as (Hm & Hs & Hf).
    destruct (place_cases L (SEntry ns ps EmptyString) HL Hm) as [(x & Hx & Hfit)|[Hx Hfit]].
    + unfold path in Hx. destruct (with_lengths (ns :: ps)) as [q|] eqn:Hq; [|done].
      change (match with_length ns with
              | Some a => match with_lengths ps with Some b => Some (a +:+ b) | None => None end
              | None => None end) with (with_lengths (ns :: ps)). rewrite Hq.
      rewrite (prefix_range_ok L m t ns ps q HL Hst Hm Hs Hq). simpl.
      rewrite decide_True by done. by apply IH.
    + exfalso. apply Hfit. simpl. eapply Forall_impl; [exact Hs|]. simpl. lia.
Qed.
