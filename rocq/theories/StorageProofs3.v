(** Entries are apart; keys read back; the router. *)
From Verif Require Import Base BaseLemmas Text TextLemmas StdModel StdProofs MapLemmas EncodingModel EncodingProofs.
From Verif Require Import RouterTypes RouterModel RouterSpec RouterProofs MultisigTypes RegistryProofs.
From Verif Require Import StorageModel StorageSpec StorageProofs StorageProofs2.

(** ** Entries of the contracts are apart *)
Lemma apart_of {X} (L : layout) (ok : X -> Prop) (at_ : X -> skey) :
  proper L = true -> (forall e, place L (at_ e)) ->
  (forall e1 e2, ok e1 -> ok e2 -> at_ e1 = at_ e2 -> e1 = e2) -> apart ok at_.
Proof.
  intros HL Hp Hi e1 e2 x O1 O2 H1 H2. apply Hi; [done..|]. by apply (path_inj L _ _ x).
Qed.
Lemma u64_key_inj a b : a < 2 ^ 64 -> b < 2 ^ 64 -> u64_key a = u64_key b -> a = b.
Proof. intros Ha Hb. apply be_bytes_inj; by change (256 ^ N.of_nat 8) with (2 ^ 64). Qed.
Lemma key_type_key_inj a b : key_type_key a = key_type_key b -> a = b.
Proof. by destruct a, b. Qed.
Ltac places := intros []; simpl; repeat (apply elem_of_cons; first [left; reflexivity | right]).
Lemma SEntry_inj ns ps l ns' ps' l' :
  SEntry ns ps l = SEntry ns' ps' l' -> ns = ns' /\ ps = ps' /\ l = l'.
Proof. by intros [=]. Qed.
Lemma single_inj {A} (a b : A) : [a] = [b] -> a = b.
Proof. by intros [=]. Qed.
Lemma double_inj {A} (a b c d : A) : [a; b] = [c; d] -> a = c /\ b = d.
Proof. by intros [=]. Qed.
Ltac entry_inj :=
  repeat match goal with
  | H : SEntry _ _ _ = SEntry _ _ _ |- _ => apply SEntry_inj in H as (? & ? & ?)
  | H : [_] = [_] |- _ => apply single_inj in H
  | H : [_; _] = [_; _] |- _ => apply double_inj in H as [? ?]
  | H : u64_key _ = u64_key _ |- _ => apply u64_key_inj in H; [|assumption..]
  | H : key_type_key _ = key_type_key _ |- _ => apply key_type_key_inj in H
  end.
Lemma apart_router : apart (fun _ => True) rt_place.
Proof.
  apply (apart_of router_layout); [by vm_compute|places|].
  intros [] [] O1 O2 He; cbn [rt_place] in He; try discriminate He; try reflexivity;
    unfold rt_chain_key, rt_index_key in He; entry_inj; by subst.
Qed.
Lemma apart_registry : apart (fun _ => True) sr_place.
Proof.
  apply (apart_of registry_layout); [by vm_compute|places|].
  intros [] [] O1 O2 He; cbn [sr_place] in He; try discriminate He; try reflexivity;
    unfold sr_service_key, sr_chain_key, sr_worker_key in He; entry_inj; by subst.
Qed.
Lemma apart_multisig : apart ms_ok ms_place.
Proof.
  apply (apart_of multisig_layout); [by vm_compute|places|].
  intros [] [] O1 O2 He; cbn [ms_place ms_ok] in *; try discriminate He; try reflexivity;
    unfold ms_session_key, ms_sig_key, ms_set_key, ms_pub_key, ms_caller_key in He; entry_inj; by subst.
Qed.
Lemma apart_gateway : apart (fun _ => True) gw_place.
Proof.
  apply (apart_of gateway_layout); [by vm_compute|places|].
  intros [|[]] [|[]] O1 O2 He; cbn [gw_place] in He; try discriminate He; try reflexivity;
    unfold gw_message_key, ccid_parts in He; simpl in He; entry_inj; by subst.
Qed.
Lemma apart_nexus : apart (fun _ => True) nx_place.
Proof.
  apply (apart_of nexus_layout); [by vm_compute|places|].
  intros [|[]] [|[]] O1 O2 He; cbn [nx_place] in He; try discriminate He; try reflexivity;
    unfold nx_routed_key, ccid_parts in He; simpl in He; entry_inj; by subst.
Qed.
Lemma apart_verifier : apart vv_ok vv_place.
Proof.
  apply (apart_of verifier_layout); [by vm_compute|places|].
  intros [] [] O1 O2 He; cbn [vv_place vv_ok] in *; try discriminate He; try reflexivity;
    unfold vv_poll_key, vv_message_key, vv_set_key in He; entry_inj; by subst.
Qed.
Lemma apart_rewards : apart rw_ok rw_place.
Proof.
  apply (apart_of rewards_layout); [by vm_compute|places|].
  intros [] [] O1 O2 He; cbn [rw_place rw_ok] in *; try discriminate He; try reflexivity;
    unfold rw_tally_key, rw_event_key, rw_pool_key, rw_watermark_key in He; entry_inj; by subst.
Qed.
Lemma apart_prover : apart pr_ok pr_place.
Proof.
  apply (apart_of prover_layout); [by vm_compute|places|].
  intros [] [] O1 O2 He; cbn [pr_place pr_ok] in *; try discriminate He; try reflexivity;
    unfold pr_batch_key, pr_session_key in He; entry_inj; by subst.
Qed.

(** ** Keys read back *)
Lemma split_key_app a b x : with_length a = Some x -> split_key (x +:+ b) = Some (a, b).
Proof.
  intros [Ha ->]%with_length_some. rewrite be_bytes_2. simpl.
  assert (slen a / 256 < 256) by (apply N.div_lt_upper_bound; lia).
  rewrite (N.mod_small (slen a / 256)) by done.
  pose proof (N.mod_lt (slen a) 256 ltac:(lia)). pose proof (N.div_mod (slen a) 256 ltac:(lia)).
  rewrite !N_of_ascii_of by done.
  replace (slen a / 256 * 256 + slen a mod 256) with (slen a) by lia.
  rewrite slen_app. destruct (N.leb_spec (slen a) (slen a + slen b)); [|lia].
  unfold slen. rewrite Nat2N.id. by rewrite stake_app, sdrop_app.
Qed.
Lemma be_value_app a b acc : be_value (a +:+ b) acc = be_value b (be_value a acc).
Proof. revert acc. induction a as [|c a IH]; intros acc; simpl; [done|apply IH]. Qed.
Lemma be_bytes_go_app len n acc : be_bytes_go len n acc = be_bytes_go len n EmptyString +:+ acc.
Proof.
  revert n acc. induction len as [|len IH]; intros n acc; simpl; [done|].
  rewrite (IH (n / 256) (String (ascii_of_N (n mod 256)) acc)), (IH (n / 256) (String (ascii_of_N (n mod 256)) EmptyString)).
  by rewrite app_assoc_str.
Qed.
Lemma be_value_bytes len n : n < 256 ^ N.of_nat len -> be_value (be_bytes len n) 0 = n.
Proof.
  unfold be_bytes. revert n. induction len as [|len IH]; intros n Hn; simpl.
  - simpl in Hn. lia.
  - rewrite be_bytes_go_app, be_value_app. rewrite IH.
    + simpl. rewrite N_of_ascii_of by (apply N.mod_lt; lia). pose proof (N.div_mod n 256 ltac:(lia)). lia.
    + apply N.div_lt_upper_bound; [lia|]. rewrite <- N.pow_succ_r'. by rewrite <- Nat2N.inj_succ.
Qed.

(** ** Composition *)
Lemma ideal_bind {V E A B} (p : prog V E A) (g : A -> prog V E B) t :
  ideal (pbind p g) t = let? x := ideal p t in ideal (g x.2) x.1.
Proof.
  revert t. induction p as [a|e| |k f IH|k v p IH|k p IH|ns ps f IH]; intros t; simpl; try done;
    case_decide; simpl; auto.
Qed.
Lemma ideal_get {V E A} k (f : option V -> prog V E A) t : fits k -> ideal (Get k f) t = ideal (f (t !! k)) t.
Proof. intros H. simpl. by rewrite decide_True. Qed.
Lemma ideal_put {V E A} k v (p : prog V E A) t : fits k -> ideal (Put k v p) t = ideal p (<[k := v]> t).
Proof. intros H. simpl. by rewrite decide_True. Qed.
Lemma ideal_del {V E A} k (p : prog V E A) t : fits k -> ideal (Del k p) t = ideal p (delete k t).
Proof. intros H. simpl. by rewrite decide_True. Qed.
Lemma ideal_scan {V E A} ns ps (f : list (string * V) -> prog V E A) t :
  fits (SEntry ns ps EmptyString) -> ideal (Scan ns ps f) t = ideal (f (btree_iter (entries t ns ps))) t.
Proof. intros H. simpl. by rewrite decide_True. Qed.
Lemma keeps_bind {V E A B} L (p : prog V E A) (g : A -> prog V E B) :
  keeps L p -> (forall a, keeps L (g a)) -> keeps L (pbind p g).
Proof. intros Hp Hg. induction p; simpl in *; naive_solver. Qed.
Lemma keeps_lift {V E A} L (r : res E A) : keeps (V:=V) L (lift r).
Proof. by destruct r. Qed.
Lemma keeps_own {V E A} L (r : res E A) : keeps (V:=V) L (own r).
Proof. apply keeps_lift. Qed.
Lemma keeps_collect {V E A B} L (f : A -> prog V E B) l : (forall a, keeps L (f a)) -> keeps L (collect f l).
Proof.
  intros Hf. induction l as [|a l IH]; simpl; [done|]. apply keeps_bind; [done|]. intros b.
  apply keeps_bind; [done|]. done.
Qed.
Lemma keeps_for_each {V E A} L (f : A -> prog V E unit) l : (forall a, a ∈ l -> keeps L (f a)) -> keeps L (for_each f l).
Proof.
  intros Hf. induction l as [|a l IH]; simpl; [done|]. apply keeps_bind.
  - apply Hf. apply elem_of_cons. by left.
  - intros _. apply IH. intros b Hb. apply Hf. apply elem_of_cons. by right.
Qed.
Lemma ideal_own {V E A} (r : res E A) (t : gmap skey V) :
  ideal (own r) t = let? a := map_err SOwn r in Ok (t, a).
Proof. by destruct r. Qed.

(** ** The router *)
Record router_holds (t : gmap skey rtval) (s : rtstate) : Prop := {
  rh_config : t !! RT_CONFIG = Some (RvConfig (rt_config s));
  rh_chain : forall n, t !! rt_chain_key n = RvChain <$> rt_chains s !! n;
  rh_index : forall g n, t !! rt_index_key g n =
    match rt_chains s !! n with
    | Some e => if decide (ce_gateway e = g) then Some (RvLen (slen n)) else None
    | None => None
    end;
}.
Definition router_names (s : rtstate) : Prop :=
  forall n e, rt_chains s !! n = Some e -> chain_name_of n = Some n /\ slen (ce_gateway e) <= 65535.

Lemma chain_place n : place router_layout (rt_chain_key n).
Proof. simpl. repeat (apply elem_of_cons; first [left; reflexivity | right]). Qed.
Lemma index_place g n : place router_layout (rt_index_key g n).
Proof. simpl. repeat (apply elem_of_cons; first [left; reflexivity | right]). Qed.
Lemma config_place : place router_layout RT_CONFIG.
Proof. simpl. repeat (apply elem_of_cons; first [left; reflexivity | right]). Qed.
Lemma fits_chain n : fits (rt_chain_key n).
Proof. constructor. Qed.
Lemma fits_index g n : slen g <= 65535 -> fits (rt_index_key g n).
Proof. intros H. by repeat constructor. Qed.

Lemma p_indexed_at n :
  p_indexed (n, RvLen (slen n)) =
  let! o := p_chain n in
  match o, chain_name_of n with Some e, Some _ => Ret e | _, _ => Fail SStd end.
Proof.
  unfold p_indexed. cbn [fst snd]. rewrite N.ltb_irrefl. cbv zeta.
  replace (String.length n - N.to_nat (slen n))%nat with 0%nat by (unfold slen; rewrite Nat2N.id; lia).
  by replace (sdrop 0 n) with n by (by destruct n).
Qed.
Section Router.
  Context (t : gmap skey rtval) (s : rtstate) (Hh : router_holds t s) (Hn : router_names s).

  Lemma ideal_p_chain n : ideal (p_chain n) t = Ok (t, rt_chains s !! n).
  Proof using Hh.
    unfold p_chain. rewrite ideal_get by apply fits_chain.
    rewrite (rh_chain _ _ Hh). by destruct (rt_chains s !! n).
  Qed.
  Lemma index_entries g :
    btree_iter (entries t "gateways" [g]) =
    (fun x => (x.1, RvLen (slen x.1))) <$> filter (fun x => ce_gateway x.2 = g) (btree_iter (rt_chains s)).
  Proof using Hh.
    symmetry. apply btree_of_list.
    - apply Sorted_fmap. apply Sorted_filter; [|apply btree_sorted]. intros x y z. apply leb_trans.
    - rewrite <- list_fmap_compose. apply NoDup_fst_filter, btree_keys_NoDup.
    - intros k v. rewrite lookup_entries. change (SEntry "gateways" [g] k) with (rt_index_key g k).
      rewrite (rh_index _ _ Hh), elem_of_list_fmap. split.
      + intros ([n e] & [= -> ->] & Hin). apply elem_of_list_filter in Hin as [Hg Hin]. simpl in Hg.
        apply elem_of_btree in Hin. rewrite Hin. by rewrite decide_True.
      + destruct (rt_chains s !! k) as [e|] eqn:E; [|done]. case_decide as Hg; [|done]. intros [= <-].
        exists (k, e). split; [done|]. apply elem_of_list_filter. split; [done|]. by apply elem_of_btree.
  Qed.
  Lemma ideal_indexed l :
    (forall x, x ∈ l -> rt_chains s !! x.1 = Some x.2) ->
    ideal (collect p_indexed ((fun x => (x.1, RvLen (slen x.1))) <$> l)) t = Ok (t, l.*2).
  Proof using Hh Hn.
    induction l as [|[n e] l IH]; intros Hl; [done|].
    rewrite fmap_cons. cbn [collect]. rewrite ideal_bind. cbn [fst]. rewrite p_indexed_at.
    rewrite ideal_bind.
    rewrite ideal_p_chain. simpl.
    assert (He : rt_chains s !! n = Some e) by (apply (Hl (n, e)); apply elem_of_cons; by left).
    rewrite He. destruct (Hn n e He) as [-> _]. simpl.
    rewrite ideal_bind, IH; [done|]. intros x Hx. apply Hl. apply elem_of_cons. by right.
  Qed.
  Lemma ideal_by_gateway g :
    slen g <= 65535 ->
    ideal (p_by_gateway g) t = let? o := map_err SOwn (load_chain_by_gateway s g) in Ok (t, o).
  Proof using Hh Hn.
    intros Hg. unfold p_by_gateway. rewrite ideal_scan by (by repeat constructor).
    rewrite index_entries, ideal_bind, ideal_indexed.
    - simpl. unfold load_chain_by_gateway.
      destruct (filter (fun x => ce_gateway x.2 = g) (btree_iter (rt_chains s))) as [|[n e] [|y l]]; done.
    - intros [n e] Hx. apply elem_of_list_filter in Hx as [_ Hx]. by apply elem_of_btree.
  Qed.
End Router.

Lemma ideal_update t s n f :
  router_holds t s -> router_names s -> chain_name_of n = Some n ->
  (forall o e, o = rt_chains s !! n -> f o = Ok e -> slen (ce_gateway e) <= 65535) ->
  match f (rt_chains s !! n) with
  | Ok e => exists t', ideal (p_update n f) t = Ok (t', tt) /\ router_holds t' (set_chains s (<[n := e]> (rt_chains s)))
  | Err e => ideal (p_update n f) t = Err (SOwn e)
  | Panic => ideal (p_update n f) t = Panic
  end.
Proof.
  intros Hh Hnm Hn Hf. unfold p_update. rewrite ideal_bind, (ideal_p_chain t s Hh). simpl.
  rewrite ideal_bind, ideal_own. destruct (f (rt_chains s !! n)) as [e|e|] eqn:Ef; simpl; [|done|done].
  assert (Hfit : slen (ce_gateway e) <= 65535) by (by apply (Hf (rt_chains s !! n))).
  assert (Hput : forall t1 : gmap skey rtval,
    (t1 !! RT_CONFIG = t !! RT_CONFIG) ->
    (forall k, t1 !! rt_chain_key k = t !! rt_chain_key k) ->
    (forall g k, k <> n -> t1 !! rt_index_key g k = t !! rt_index_key g k) ->
    (forall g, t1 !! rt_index_key g n = None) ->
    exists t',
      ideal (Put (rt_index_key (ce_gateway e) n) (RvLen (slen n)) (Put (rt_chain_key n) (RvChain e)
               (Ret (V:=rtval) (E:=serr rterror) tt))) t1 = Ok (t', tt) /\
      router_holds t' (set_chains s (<[n := e]> (rt_chains s)))).
  { intros t1 H1 H2 H3 H4. eexists.
    rewrite ideal_put by (by apply fits_index). rewrite ideal_put by apply fits_chain. split; [reflexivity|].
    constructor; simpl.
    - rewrite !lookup_insert_ne by done. rewrite H1. apply (rh_config _ _ Hh).
    - intros k. destruct (decide (k = n)) as [->|Hk].
      + rewrite lookup_insert. by rewrite lookup_insert.
      + rewrite lookup_insert_ne by (intros [= ->]; done). rewrite lookup_insert_ne by done.
        rewrite lookup_insert_ne by done. rewrite H2. apply (rh_chain _ _ Hh).
    - intros g k. rewrite lookup_insert_ne by done. destruct (decide (k = n)) as [->|Hk].
      + rewrite lookup_insert. case_decide as Hg.
        * subst g. by rewrite lookup_insert.
        * rewrite lookup_insert_ne by (intros [= ?]; done). apply H4.
      + rewrite lookup_insert_ne by (intros [= ? ?]; done). rewrite lookup_insert_ne by done.
        rewrite H3 by done. apply (rh_index _ _ Hh). }
  rewrite ideal_bind. destruct (rt_chains s !! n) as [o|] eqn:Eo.
  - rewrite ideal_del by (apply fits_index; by destruct (Hnm n o Eo)).
    simpl rbind. apply Hput.
    + by rewrite lookup_delete_ne.
    + intros k. by rewrite lookup_delete_ne.
    + intros g k Hk. rewrite lookup_delete_ne; [done|]. intros [= ? ?]. done.
    + intros g. destruct (decide (g = ce_gateway o)) as [->|Hg]; [apply lookup_delete|].
      rewrite lookup_delete_ne by (intros [= ?]; done). rewrite (rh_index _ _ Hh), Eo.
      by rewrite decide_False.
  - simpl rbind. apply Hput; try done. intros g. by rewrite (rh_index _ _ Hh), Eo.
Qed.

(** result of an ideal run against the typed model *)
Definition like {A} (t : gmap skey rtval) (r1 : res (serr rterror) (gmap skey rtval * A)) (r2 : res rterror (rtstate * A)) : Prop :=
  match r1, r2 with
  | Ok (t', a), Ok (s', b) => a = b /\ router_holds t' s'
  | Err (SOwn e), Err f => e = f
  | Panic, Panic => True
  | _, _ => False
  end.
Lemma like_update t s n f (o : rtout) :
  router_holds t s -> router_names s -> chain_name_of n = Some n ->
  (forall o e, o = rt_chains s !! n -> f o = Ok e -> slen (ce_gateway e) <= 65535) ->
  like t (ideal (let! _ := p_update n f in Ret o) t)
         (let? e := f (rt_chains s !! n) in Ok (set_chains s (<[n := e]> (rt_chains s)), o)).
Proof.
  intros Hh Hnm Hn Hf. pose proof (ideal_update t s n f Hh Hnm Hn Hf) as H. rewrite ideal_bind.
  destruct (f (rt_chains s !! n)) as [e|e|].
  - destruct H as (t' & -> & Ht'). simpl. done.
  - by rewrite H.
  - by rewrite H.
Qed.
Lemma ideal_collect_ok {A B} (f : A -> rtprog B) (g : A -> res rterror B) t l :
  (forall a, a ∈ l -> ideal (f a) t = let? b := map_err SOwn (g a) in Ok (t, b)) ->
  ideal (collect f l) t = let? bs := map_err SOwn (try_map g l) in Ok (t, bs).
Proof.
  induction l as [|a l IH]; intros H; [done|]. simpl collect. rewrite ideal_bind, H by (apply elem_of_cons; by left).
  simpl. destruct (g a) as [b|e|]; simpl; [|done|done].
  rewrite ideal_bind, IH by (intros x Hx; apply H; apply elem_of_cons; by right).
  by destruct (try_map g l).
Qed.
Lemma router_like t s op :
  router_holds t s -> router_names s -> router_call_ok op ->
  like t (ideal (router_prog op) t) (router_step s op).
Proof.
  intros Hh Hn Hop. unfold router_prog. rewrite ideal_bind.
  assert (Hcon : ideal p_contract t = Ok (t, rt_config s)).
  { unfold p_contract. rewrite ideal_get by done. by rewrite (rh_config _ _ Hh). }
  rewrite Hcon. cbn [rbind fst snd].
  assert (Hcfg : ideal p_config t = Ok (t, rt_config s)).
  { unfold p_config. rewrite ideal_get by done. by rewrite (rh_config _ _ Hh). }
  destruct op as [a c g|a c g|a c d|a c d|a ms]; cbn [router_step router_call_ok] in *.
  - destruct Hop as [Hc Hg]. rewrite ideal_bind, Hcfg. cbn [rbind snd fst]. rewrite ideal_bind, ideal_own.
    destruct (bool_decide (rc_governance (rt_config s) = a)); cbn [ensure rbind map_err snd fst]; [|done].
    unfold p_register. rewrite ideal_bind, (ideal_by_gateway t s Hh Hn) by lia. unfold register_chain.
    destruct (load_chain_by_gateway s g) as [o|e|]; cbn [rbind map_err snd fst]; [|done|done].
    rewrite ideal_bind, ideal_own. destruct (bool_decide (o = None)); cbn [ensure rbind map_err snd fst]; [|done].
    match goal with |- like _ (ideal (pbind (p_update c ?f) _) _) _ =>
      pose proof (like_update t s c f (EvChainRegistered c g) Hh Hn Hc) as H end.
    destruct (rt_chains s !! c) as [e|] eqn:E; cbn in H |- *.
    + apply H. by intros o' e' ->.
    + apply H. intros o' e' -> [= <-]. simpl. lia.
  - destruct Hop as [Hc Hg]. rewrite ideal_bind, Hcfg. cbn [rbind snd fst]. rewrite ideal_bind, ideal_own.
    destruct (bool_decide (rc_governance (rt_config s) = a)); cbn [ensure rbind map_err snd fst]; [|done].
    unfold p_upgrade. rewrite ideal_bind, (ideal_by_gateway t s Hh Hn) by lia. unfold upgrade_gateway.
    destruct (load_chain_by_gateway s g) as [o|e|]; cbn [rbind map_err snd fst]; [|done|done].
    rewrite ideal_bind, ideal_own. destruct (bool_decide (o = None)); cbn [ensure rbind map_err snd fst]; [|done].
    match goal with |- like _ (ideal (pbind (p_update c ?f) _) _) _ =>
      pose proof (like_update t s c f (EvGatewayUpgraded c g) Hh Hn Hc) as H end.
    destruct (rt_chains s !! c) as [e|] eqn:E; cbn in H |- *.
    + apply H. intros o' e' -> [= <-]. simpl. lia.
    + apply H. by intros o' e' ->.
  - rewrite ideal_bind, Hcfg. cbn [rbind snd fst]. rewrite ideal_bind, ideal_own.
    destruct (bool_decide (rc_admin (rt_config s) = a)); cbn [ensure rbind map_err snd fst]; [|done].
    unfold p_set_frozen, freeze_chain.
    match goal with |- like _ (ideal (pbind (p_update c ?f) _) _) _ =>
      pose proof (like_update t s c f (EvChainFrozen c) Hh Hn Hop) as H end.
    destruct (rt_chains s !! c) as [e|] eqn:E; cbn in H |- *.
    + apply H. intros o' e' -> [= <-]. simpl. by destruct (Hn c e E).
    + apply H. by intros o' e' ->.
  - rewrite ideal_bind, Hcfg. cbn [rbind snd fst]. rewrite ideal_bind, ideal_own.
    destruct (bool_decide (rc_admin (rt_config s) = a)); cbn [ensure rbind map_err snd fst]; [|done].
    unfold p_set_frozen, unfreeze_chain.
    match goal with |- like _ (ideal (pbind (p_update c ?f) _) _) _ =>
      pose proof (like_update t s c f (EvChainFrozen c) Hh Hn Hop) as H end.
    destruct (rt_chains s !! c) as [e|] eqn:E; cbn in H |- *.
    + apply H. intros o' e' -> [= <-]. simpl. by destruct (Hn c e E).
    + apply H. by intros o' e' ->.
  - unfold p_route, route_messages. cbn [snd fst]. rewrite ideal_bind.
    assert (Hv : ideal (p_validate (rt_config s) a ms) t = let? x := map_err SOwn (validate_msgs s a ms) in Ok (t, x)).
    { unfold p_validate, validate_msgs. destruct (bool_decide (a = rc_nexus (rt_config s))); [done|].
      rewrite ideal_bind, (ideal_by_gateway t s Hh Hn) by lia.
      destruct (load_chain_by_gateway s a) as [o|e|]; cbn [rbind map_err snd fst]; [|done|done].
      rewrite ideal_bind, ideal_own. destruct o as [e|]; cbn [of_option rbind map_err snd fst]; [|done].
      rewrite ideal_bind, ideal_own. destruct (negb (incoming_frozen e)); cbn [ensure rbind map_err snd fst]; [|done].
      rewrite ideal_bind, ideal_own. by destruct (negb _). }
    rewrite Hv. destruct (validate_msgs s a ms) as [ms'|e|]; cbn [rbind map_err snd fst]; [|done|done].
    rewrite ideal_bind.
    rewrite (ideal_collect_ok _ (fun x => let? g := destination_gateway s a x.1 in Ok (g, x.2))).
    + assert (Ht : forall l : list (string * list message), try_map (fun '(chain, ms) => let? g := destination_gateway s a chain in Ok (g, ms)) l
               = try_map (fun x => let? g := destination_gateway s a x.1 in Ok (g, x.2)) l).
      { induction l as [|[u v] l IH]; [done|]. simpl. by rewrite IH. }
      rewrite Ht. by destruct (try_map _ (group_by m_dchain ms')).
    + intros [chain l] _. rewrite ideal_bind. unfold p_destination. rewrite ideal_bind, (ideal_p_chain t s Hh).
      cbn [rbind snd fst]. unfold destination_gateway. destruct (rt_chains s !! chain) as [e|].
      * by destruct (outgoing_frozen e).
      * by destruct (bool_decide (a = rc_nexus (rt_config s))).
Qed.
