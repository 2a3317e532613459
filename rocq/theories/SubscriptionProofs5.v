(** How a node's events are read (C59). *)
From Verif Require Import Base Text EventsModel SubscriptionModel SubscriptionSpec.

Section Read.
  Context (decode : string -> option string) (json : string -> option jval).

  Lemma kv_pairs_some l kvs : kv_pairs decode json l = Some kvs <-> Forall2 (fun a p => kv_pair decode json a = Some p) l kvs.
  Proof.
    revert kvs. induction l as [|a l IH]; intros kvs; cbn.
    - split; [intros [= <-]; constructor|intros H; by inversion H].
    - split.
      + destruct (kv_pair _ _ a) as [x|] eqn:Ea; [|done]. destruct (kv_pairs _ _ l) as [r|] eqn:Er; [|done].
        intros [= <-]. constructor; [done|]. by apply IH.
      + intros H. inversion H as [|? x ? r Hx Hr]; subst. apply IH in Hr. by rewrite Hx, Hr.
  Qed.
  Lemma kv_pair_some a k v : kv_pair decode json a = Some (k, v) <->
    decode a.1 = Some k /\ exists s, decode a.2 = Some s /\ (json s = Some v \/ json s = None /\ v = JStr s).
  Proof.
    unfold kv_pair, attr_value. destruct (decode a.1) as [k'|]; [|naive_solver]. destruct (decode a.2) as [s|]; [|naive_solver].
    destruct (json s) as [j|] eqn:Ej; cbn; naive_solver.
  Qed.
  Lemma last_value (kvs : list (string * jval)) k v : (list_to_map (reverse kvs) : gmap string jval) !! k = Some v <->
    exists l1 l2, kvs = l1 ++ (k, v) :: l2 /\ k ∉ l2.*1.
  Proof.
    induction kvs as [|[k' v'] kvs IH] using rev_ind.
    - cbn. rewrite lookup_empty. split; [done|]. intros ([|] & ? & ? & _); discriminate.
    - rewrite reverse_snoc. cbn [list_to_map foldr uncurry]. destruct (decide (k' = k)) as [->|Hk]; cbn.
      + rewrite lookup_insert. split.
        * intros [= ->]. exists kvs, []. split; [done|]. apply not_elem_of_nil.
        * intros (l1 & l2 & E & Hn). destruct l2 as [|y l2 _] using rev_ind.
          { apply app_inj_tail in E as [_ [= ->]]. done. }
          exfalso. rewrite app_comm_cons, app_assoc in E. apply app_inj_tail in E as [_ <-].
          apply Hn. rewrite fmap_app. apply elem_of_app. right. by left.
      + rewrite lookup_insert_ne by done. rewrite IH. split.
        * intros (l1 & l2 & -> & Hn). exists l1, (l2 ++ [(k', v')]). split; [by rewrite <- app_assoc|].
          rewrite fmap_app, elem_of_app. intros [?|?%elem_of_list_singleton]; [done|]. by subst.
        * intros (l1 & l2 & E & Hn). destruct l2 as [|y l2 _] using rev_ind.
          { apply app_inj_tail in E as [_ [= ? ?]]. done. }
          rewrite app_comm_cons, app_assoc in E. apply app_inj_tail in E as [-> _]. exists l1, l2. split; [done|].
          intros ?. apply Hn. rewrite fmap_app, elem_of_app. by left.
  Qed.

  Lemma c59_read ty l e : event_of_abci decode json ty l = Some e <-> event_read decode json ty l e.
  Proof.
    unfold event_of_abci, event_read.
    assert (Hkey : forall kvs k v, Forall2 (fun a p => kv_pair decode json a = Some p) l kvs ->
      (list_to_map (reverse kvs) : gmap string jval) !! k = Some v <->
      exists l1 a l2, l = l1 ++ a :: l2 /\ decode a.1 = Some k /\ (exists s, decode a.2 = Some s /\ (json s = Some v \/ json s = None /\ v = JStr s)) /\
        forall b, b ∈ l2 -> decode b.1 <> Some k).
    { intros kvs k v H. rewrite last_value. split.
      - intros (l1 & l2 & -> & Hn). apply Forall2_app_inv_r in H as (m1 & m2 & H1 & H2 & ->).
        inversion H2 as [|a x m2' l2' Ha H2']; subst. exists m1, a, m2'. split; [done|]. apply kv_pair_some in Ha as (Hk & Hs).
        split; [done|]. split; [done|]. intros b [i Hi]%elem_of_list_lookup Hb.
        destruct (Forall2_lookup_l _ _ _ _ _ H2' Hi) as ([k' v'] & Hj & Hp). apply kv_pair_some in Hp as (Hk' & _).
        rewrite Hb in Hk'. injection Hk' as ->. apply Hn. apply elem_of_list_fmap. exists (k', v'). split; [done|]. by eapply elem_of_list_lookup_2.
      - intros (l1 & a & l2 & -> & Hk & Hs & Hn). apply Forall2_app_inv_l in H as (m1 & m2 & H1 & H2 & ->).
        inversion H2 as [|? x ? m2' Ha H2']; subst. assert (Ha' : kv_pair decode json a = Some (k, v)) by (apply kv_pair_some; auto).
        rewrite Ha in Ha'. injection Ha' as ->. exists m1, m2'. split; [done|].
        intros ([k' v'] & -> & [i Hi]%elem_of_list_lookup)%elem_of_list_fmap. destruct (Forall2_lookup_r _ _ _ _ _ H2' Hi) as (b & Hb & Hp).
        apply kv_pair_some in Hp as (Hp & _). by eapply Hn; [eapply elem_of_list_lookup_2|]. }
    split.
    - destruct (kv_pairs decode json l) as [kvs|] eqn:E; [|done]. intros [= <-]. apply kv_pairs_some in E.
      split.
      + intros a [i Hi]%elem_of_list_lookup. destruct (Forall2_lookup_l _ _ _ _ _ E Hi) as ([k v] & _ & Hp).
        apply kv_pair_some in Hp as (? & s & ? & _). eauto.
      + eexists. split; [done|]. intros k v. by apply Hkey.
    - intros (Hd & m & -> & Hm). assert (exists kvs, Forall2 (fun a p => kv_pair decode json a = Some p) l kvs) as [kvs E].
      { clear - Hd. induction l as [|a l IH]; [by eexists|]. destruct IH as [kvs H]; [intros; apply Hd; by right|].
        destruct (Hd a) as [[k Hk] [s Hs]]; [by left|]. exists ((k, attr_value json s) :: kvs). constructor; [|done].
        unfold kv_pair. by rewrite Hk, Hs. }
      rewrite (proj2 (kv_pairs_some _ _) E). cbn. f_equal. f_equal. apply map_eq. intros k. apply option_eq. intros v.
      rewrite Hm. by apply Hkey.
  Qed.
End Read.
