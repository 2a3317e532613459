(** Worker sets made from the answers of the registry and the multisig, and
    how two of them differ. *)
From stdpp Require Import sorting.
From Verif Require Import Base BaseLemmas MapLemmas Text StdModel StdSpec StdProofs RegistryTypes RouterTypes
  MultisigTypes OperatorsModel MultisigModel EncodingModel EncodingSpec ProverModel ProverSpec.

Definition signer_of (x : participant * public_key) : signer :=
  {| sg_addr := p_addr x.1; sg_weight := p_weight x.1; sg_key := x.2 |}.

Lemma set_fold_lookup (l : list (participant * public_key)) : forall m : gmap addr signer,
  let r := fold_left (fun m '(p, k) =>
     <[p_addr p := {| sg_addr := p_addr p; sg_weight := p_weight p; sg_key := k |}]> m) l m in
  (forall a, is_Some (r !! a) <-> is_Some (m !! a) \/ a ∈ p_addr ∘ fst <$> l) /\
  (forall a sg, r !! a = Some sg -> m !! a = Some sg \/ exists x, x ∈ l /\ p_addr x.1 = a /\ sg = signer_of x).
Proof.
  induction l as [|[p k] l IH]; intros m r.
  - split; [|by left]. intros a. split; [by left|]. intros [?|H]; [done|]. by apply elem_of_nil in H.
  - destruct (IH (<[p_addr p := {| sg_addr := p_addr p; sg_weight := p_weight p; sg_key := k |}]> m)) as [I1 I2].
    split.
    + intros a. unfold r. cbn [fold_left]. rewrite I1, fmap_cons, elem_of_cons. cbn.
      destruct (decide (p_addr p = a)) as [->|Hne].
      * rewrite lookup_insert. split; [intros _; right; by left|intros _; left; by eexists].
      * rewrite lookup_insert_ne by done. naive_solver.
    + intros a sg H. unfold r in H. cbn [fold_left] in H. destruct (I2 a sg H) as [H'|(x & Hx & Ha & ->)].
      * destruct (decide (p_addr p = a)) as [<-|Hne].
        -- rewrite lookup_insert in H'. right. exists (p, k). split; [by left|].
           split; [done|]. by injection H' as <-.
        -- rewrite lookup_insert_ne in H' by done. by left.
      * right. exists x. split; [by right|done].
Qed.

Lemma bonded_participants workers ps :
  try_map (worker_participant PServiceRegistry) workers = Ok ps <->
  Forall (fun w => exists n, w_bond w = Bonded n) workers /\
  ps = (fun w => {| p_addr := w_addr w; p_weight := 1 |}) <$> workers.
Proof.
  rewrite try_map_ok. revert ps. induction workers as [|w workers IH]; intros ps.
  - split; [intros H; inversion H; split; [constructor|done]|]. intros [_ ->]. constructor.
  - split.
    + intros H. inversion H as [|? p ? ps' Hp Hps]; subst. apply IH in Hps as [Hf ->].
      unfold worker_participant in Hp. destruct (w_bond w) eqn:Hb; try done. injection Hp as <-.
      split; [constructor; eauto|done].
    + intros [Hf ->]. apply Forall_cons in Hf as [[n Hn] Hf]. rewrite fmap_cons. constructor.
      * unfold worker_participant. by rewrite Hn.
      * apply IH. done.
Qed.

Lemma total_ones (workers : list worker) :
  total_weight ((fun w => {| p_addr := w_addr w; p_weight := 1 |}) <$> workers) = N.of_nat (length workers).
Proof. unfold total_weight. rewrite lsum_fmap. cbn. rewrite lsum_const. lia. Qed.

Lemma make_worker_set_active c env ws :
  make_worker_set c env = Ok ws -> is_active_set c env ws.
Proof.
  unfold make_worker_set. intros H. res_inv. apply bonded_participants in Hv0 as [Hb ->].
  apply negb_true_iff, bool_decide_eq_false in Hv1.
  apply snapshot_new_ok in Hv2 as (Hq & _). rewrite total_ones in Hq.
  apply try_map_ok in Hv3. subst ws. exists v.
  set (l := zip _ _).
  destruct (set_fold_lookup l ∅) as [I1 I2].
  assert (forall x, x ∈ l -> p_weight x.1 = 1 /\
    pe_key env (pc_multisig c) (p_addr x.1) (pc_key_type c) = Some x.2) as Hl.
  { unfold l. clear -Hv3. induction Hv3 as [|w k ws ks Hk Hks IH]; [set_solver|].
    rewrite fmap_cons. cbn [zip zip_with]. intros x [->|Hx]%elem_of_cons; [|by apply IH].
    cbn. split; [done|]. by apply of_option_ok in Hk. }
  assert ((p_addr ∘ fst <$> l) = w_addr <$> v) as Hd.
  { unfold l. clear -Hv3. induction Hv3 as [|w k ws ks Hk Hks IH]; [done|].
    rewrite !fmap_cons. cbn [zip zip_with]. rewrite fmap_cons. cbn. by f_equal. }
  split_and!; try done.
  - intros ->. by apply Hv1.
  - intros a. cbn. rewrite I1, Hd. rewrite lookup_empty. split; [|by right].
    intros [[? ?]|?]; done.
  - intros a sg H. cbn in H. destruct (I2 a sg H) as [H'|(x & Hx & <- & ->)]; [by rewrite lookup_empty in H'|].
    destruct (Hl x Hx) as [? ?]. done.
Qed.

Lemma least_share_unique q q' t n d : least_share q t n d -> least_share q' t n d -> q = q'.
Proof. intros [H1 H2] [H3 H4]. apply N.le_antisymm; auto. Qed.

Lemma active_set_unique c env ws ws' : is_active_set c env ws -> is_active_set c env ws' -> ws = ws'.
Proof.
  intros (w & Hw & _ & _ & Hd & Hs & Hq & Hc) (w' & Hw' & _ & _ & Hd' & Hs' & Hq' & Hc').
  rewrite Hw in Hw'. injection Hw' as <-.
  destruct ws as [sg t h], ws' as [sg' t' h']. cbn in *. subst h h'.
  rewrite (least_share_unique _ _ _ _ _ Hq Hq'). f_equal.
  apply map_eq. intros a.
  destruct (sg !! a) as [x|] eqn:Hx, (sg' !! a) as [y|] eqn:Hy.
  - destruct (Hs _ _ Hx) as (? & ? & Hk), (Hs' _ _ Hy) as (? & ? & Hk').
    destruct x, y. cbn in *. f_equal. f_equal; congruence.
  - assert (is_Some (sg' !! a)) as [? ?] by (apply Hd', Hd; by eexists). congruence.
  - assert (is_Some (sg !! a)) as [? ?] by (apply Hd, Hd'; by eexists). congruence.
  - done.
Qed.

Lemma make_worker_set_iff c env ws :
  sensible c env -> make_worker_set c env = Ok ws <-> is_active_set c env ws.
Proof.
  intros [Ht Hlen]. split; [apply make_worker_set_active|].
  intros Ha. assert (exists ws', make_worker_set c env = Ok ws') as [ws' Hws'].
  - destruct Ha as (w & Hw & Hne & Hb & Hd & Hs & _ & _). unfold make_worker_set.
    rewrite Hw. cbn [of_option rbind].
    rewrite (proj2 (bonded_participants w _) (conj Hb eq_refl)). cbn [rbind].
    set (ps := _ <$> w). assert (ps <> []) as Hps by (destruct w; done).
    rewrite bool_decide_eq_false_2 by done. cbn [negb ensure rbind].
    destruct (snapshot_new_total (E:=perror) (pc_threshold c) ps) as [s Hsn]; [done| | |done|].
    + apply Forall_fmap, Forall_forall. intros; cbn; lia.
    + unfold ps. rewrite total_ones. auto.
    + rewrite Hsn. cbn [rbind].
      assert (exists keys, try_map (fun w => of_option PStd (pe_key env (pc_multisig c) (w_addr w) (pc_key_type c))) w
                           = Ok keys) as [keys Hk].
      { assert (forall x, x ∈ w -> exists k, pe_key env (pc_multisig c) (w_addr x) (pc_key_type c) = Some k) as Hall.
        { intros x Hx. destruct (proj2 (Hd (w_addr x))) as [sg Hsg]; [by apply elem_of_list_fmap_1|].
          destruct (Hs _ _ Hsg) as (_ & _ & ?). by eexists. }
        clear -Hall. induction w as [|x w IH]; [by exists []|].
        destruct (Hall x) as [k Hk]; [by left|]. destruct IH as [ks Hks]; [intros; apply Hall; by right|].
        exists (k :: ks). cbn. rewrite Hk. cbn. by rewrite Hks. }
      rewrite Hk. cbn. by eexists.
  - rewrite Hws'. f_equal. eapply active_set_unique; [by apply make_worker_set_active|done].
Qed.

(** ** Differences *)

(** Every entry is stored under its own address. *)
Definition keyed (ws : worker_set) : Prop := forall a sg, ws_signers ws !! a = Some sg -> sg_addr sg = a.
Lemma active_keyed c env ws : is_active_set c env ws -> keyed ws.
Proof. intros (w & _ & _ & _ & _ & Hs & _) a sg H. by destruct (Hs _ _ H). Qed.

Lemma elem_of_signers ws sg : keyed ws -> sg ∈ signers_of ws <-> ws_signers ws !! sg_addr sg = Some sg.
Proof.
  intros Hk. unfold signers_of. rewrite elem_of_list_fmap. split.
  - intros ([a x] & -> & H). apply elem_of_btree_iter in H. cbn. rewrite (Hk _ _ H). exact H.
  - intros H. exists (sg_addr sg, sg). split; [done|]. by apply elem_of_btree_iter.
Qed.

Definition extra (a b : worker_set) : N := N.of_nat (length (not_in (signers_of a) (signers_of b))).
Lemma extra_sum a b : keyed a -> keyed b ->
  extra a b = msum (fun k sg => if bool_decide (ws_signers b !! k = Some sg) then 0 else 1) (ws_signers a).
Proof.
  intros Ha Hb. unfold extra, signers_of at 1. rewrite <- lsum_btree_iter.
  assert (forall x, x ∈ btree_iter (ws_signers a) -> sg_addr x.2 = x.1) as Hx.
  { intros [k sg] H. apply elem_of_btree_iter in H. by apply Ha. }
  induction (btree_iter (ws_signers a)) as [|x l IH]; [done|].
  rewrite fmap_cons, lsum_cons. cbn [not_in List.filter].
  specialize (IH (fun y H => Hx y (elem_of_list_further _ _ _ H))). unfold not_in in IH.
  specialize (Hx x (elem_of_list_here _ _)).
  destruct (bool_decide (ws_signers b !! x.1 = Some x.2)) eqn:E.
  - apply bool_decide_eq_true in E. rewrite bool_decide_eq_true_2; [cbn [negb]; rewrite IH; lia|].
    apply elem_of_signers; [done|]. by rewrite Hx.
  - apply bool_decide_eq_false in E. rewrite bool_decide_eq_false_2; [cbn [negb length]; lia|].
    rewrite elem_of_signers by done. by rewrite Hx.
Qed.

Lemma msum_dom_union {A} (f : addr -> A -> N) (m : gmap addr A) (X : gset addr) :
  dom m ⊆ X -> msum f m = lsum (fun k => match m !! k with Some x => f k x | None => 0 end) (elements X).
Proof.
  revert X. induction m as [|k x m Hk IH] using map_ind; intros X HX.
  - rewrite msum_empty. rewrite (lsum_ext _ (fun _ => 0)).
    + rewrite lsum_const. lia.
    + intros a _. by rewrite lookup_empty.
  - rewrite msum_insert_fresh by done. rewrite dom_insert_L in HX.
    assert (X = {[k]} ∪ (X ∖ {[k]})) as HX'.
    { apply set_eq. intros y. destruct (decide (y = k)); set_solver. }
    rewrite (IH (X ∖ {[k]})).
    2:{ apply not_elem_of_dom in Hk. set_solver. }
    rewrite HX' at 2. rewrite (lsum_perm _ (elements ({[k]} ∪ X ∖ {[k]})) (k :: elements (X ∖ {[k]}))).
    2:{ apply elements_union_singleton. set_solver. }
    rewrite lsum_cons, lookup_insert. f_equal. apply lsum_ext. intros a Ha.
    rewrite lookup_insert_ne; [done|]. intros ->. set_solver.
Qed.

Lemma differing_extra a b : keyed a -> keyed b -> differing a b = extra a b + extra b a.
Proof.
  intros Ha Hb. rewrite !extra_sum by done. unfold differing.
  rewrite (msum_dom_union _ (ws_signers a) (dom (ws_signers a) ∪ dom (ws_signers b))) by set_solver.
  rewrite (msum_dom_union _ (ws_signers b) (dom (ws_signers a) ∪ dom (ws_signers b))) by set_solver.
  induction (elements _) as [|k l IH]; [done|]. rewrite !lsum_cons, IH. clear IH.
  unfold side. destruct (ws_signers a !! k) as [x|], (ws_signers b !! k) as [y|];
    repeat case_bool_decide; try congruence; lia.
Qed.

Lemma should_update_iff new cur max : keyed new -> keyed cur ->
  should_update new cur max = true <-> max < differing new cur.
Proof.
  intros Hn Hc. rewrite differing_extra by done. unfold should_update, extra. lia.
Qed.
Lemma should_update_false new cur max : keyed new -> keyed cur ->
  should_update new cur max = false <-> differing new cur <= max.
Proof.
  intros Hn Hc. rewrite differing_extra by done. unfold should_update, extra. lia.
Qed.

Lemma different_iff s new : different_in_progress s new = false <-> admits (pv_next s) new.
Proof.
  unfold different_in_progress, admits, same_set. destruct (pv_next s) as [w|]; [|done].
  rewrite orb_false_iff, !negb_false_iff, bool_decide_eq_true, N.eqb_eq. done.
Qed.
