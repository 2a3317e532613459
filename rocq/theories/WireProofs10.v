(** The order of the members of an object does not matter. *)
From Verif Require Import Base BaseLemmas Text TextLemmas StdModel RouterTypes RegistryTypes OperatorsModel MultisigTypes
  RewardsModel RegistryModel RouterModel NexusModel ProverModel EventsModel JsonModel JsonProofs WireModel WireSpec2.

Definition inv {A} (d : jval -> option A) : Prop := forall v v', same v v' -> d v = d v'.
Definition osame (l l' : list (string * jval)) : Prop := NoDup l.*1 /\ exists l0, same_members l l0 /\ l0 ≡ₚ l'.

Lemma members_keys l l0 : same_members l l0 -> l.*1 = l0.*1.
Proof. induction 1; [reflexivity|]. cbn. f_equal. done. Qed.
Lemma members_refl l : same_members l l.
Proof. induction l as [|[k v] l IH]; constructor; [apply same_value|done]. Qed.
Lemma same_obj_inv l w : same (JObj l) w -> (w = JObj l) \/ exists l', w = JObj l' /\ osame l l'.
Proof. inversion 1; subst; [by left|right]. eexists. split; [reflexivity|]. split; [done|]. eauto. Qed.

(* assoc *)
Lemma assoc_perm l l' k : NoDup l.*1 -> l ≡ₚ l' -> assoc k l = assoc k l'.
Proof.
  intros Hn Hp. induction Hp as [|[k1 v1] l l' Hp IH|[k1 v1] [k2 v2] l|l l1 l2 H1 IH1 H2 IH2].
  - reflexivity.
  - cbn. cbn in Hn. apply NoDup_cons in Hn as [_ Hn]. destruct (String.eqb k k1); [reflexivity|]. by apply IH.
  - cbn. cbn in Hn. apply NoDup_cons in Hn as [Hn _].
    destruct (String.eqb k k1) eqn:E1, (String.eqb k k2) eqn:E2; try reflexivity.
    apply String.eqb_eq in E1, E2. subst. exfalso. apply Hn. left.
  - rewrite IH1 by done. apply IH2. rewrite <- H1. done.
Qed.
Lemma assoc_members l l0 k : same_members l l0 ->
  match assoc k l, assoc k l0 with Some v, Some v' => same v v' | None, None => True | _, _ => False end.
Proof.
  induction 1 as [|k1 v v' l l' Hv Hl IH]; [exact I|]. cbn. destruct (String.eqb k k1); [exact Hv|exact IH].
Qed.
Lemma assoc_osame l l' k : osame l l' ->
  match assoc k l, assoc k l' with Some v, Some v' => same v v' | None, None => True | _, _ => False end.
Proof.
  intros (Hn & l0 & Hm & Hp). rewrite <- (assoc_perm l0 l' k); [by apply assoc_members|by rewrite <- (members_keys _ _ Hm)|done].
Qed.
Lemma osame_keys l l' : osame l l' -> l.*1 ≡ₚ l'.*1.
Proof. intros (Hn & l0 & Hm & Hp). rewrite (members_keys _ _ Hm). by rewrite Hp. Qed.
Lemma osame_NoDup l l' : osame l l' -> NoDup l'.*1.
Proof. intros H. rewrite <- (osame_keys _ _ H). apply H. Qed.

Lemma fld_same {A B} l l' name (d : jval -> option A) (k k' : A -> option B) :
  osame l l' -> inv d -> (forall a, k a = k' a) -> fld l name d k = fld l' name d k'.
Proof.
  intros Ho Hd Hk. unfold fld. pose proof (assoc_osame l l' name Ho) as H.
  destruct (assoc name l) as [v|], (assoc name l') as [v'|]; try done. cbn. rewrite (Hd _ _ H). destruct (d v'); [apply Hk|done].
Qed.
Lemma same_null v : same v JNull -> v = JNull.
Proof. inversion 1; done. Qed.
Lemma opt_inv {A} (d : jval -> option A) : inv d -> inv (d_opt d).
Proof.
  intros Hd v v' H. pose proof (Hd v v' H) as Hdv. destruct v, v'; try (cbn; by rewrite Hdv); try reflexivity; inversion H.
Qed.
Lemma fld_opt_same {A B} l l' name (d : jval -> option A) (k k' : option A -> option B) :
  osame l l' -> inv d -> (forall a, k a = k' a) -> fld_opt l name d k = fld_opt l' name d k'.
Proof.
  intros Ho Hd Hk. unfold fld_opt. pose proof (assoc_osame l l' name Ho) as H.
  destruct (assoc name l) as [v|], (assoc name l') as [v'|]; try done.
  rewrite (opt_inv d Hd _ _ H). destruct (d_opt d v'); cbn; [apply Hk|done].
Qed.
Lemma distinct_NoDup l : distinct l = true <-> NoDup l.
Proof.
  induction l as [|x l IH]; cbn; [split; [constructor|done]|].
  rewrite andb_true_iff, negb_true_iff, IH, NoDup_cons.
  assert (existsb (String.eqb x) l = false <-> x ∉ l) as ->; [|done].
  rewrite <- not_true_iff_false, existsb_exists. split; intros H H'; apply H.
  - exists x. split; [by apply elem_of_list_In|apply String.eqb_refl].
  - destruct H' as (y & Hy & Hxy). apply String.eqb_eq in Hxy. subst. by apply elem_of_list_In.
Qed.
Lemma struct_inv {A} names (f : list (string * jval) -> option A) :
  (forall l l', osame l l' -> f l = f l') -> inv (struct names f).
Proof.
  intros Hf v v' H. destruct H as [v|l l' H|l l0 l' Hn Hm Hp]; [reflexivity|reflexivity|].
  assert (osame l l') as Ho by (split; eauto). unfold struct.
  assert (distinct l.*1 = true) as -> by by apply distinct_NoDup.
  assert (distinct l'.*1 = true) as -> by by apply distinct_NoDup, (osame_NoDup l).
  rewrite !andb_true_r. rewrite (Hf _ _ Ho).
  assert (forall l : list (string * jval), forallb (fun p => existsb (String.eqb p.1) names) l = forallb (fun k => existsb (String.eqb k) names) l.*1) as E.
  { clear. intros l. induction l as [|p l IH]; [reflexivity|]. cbn. by rewrite IH. }
  rewrite !E. assert (forallb (fun k => existsb (String.eqb k) names) l.*1 = forallb (fun k => existsb (String.eqb k) names) l'.*1) as ->; [|done].
  apply eq_iff_eq_true. rewrite !forallb_forall. pose proof (osame_keys _ _ Ho) as Hk.
  split; intros H x Hx; apply H; apply elem_of_list_In; [rewrite Hk|rewrite <- Hk]; by apply elem_of_list_In.
Qed.
Lemma struct_open_inv {A} names (f : list (string * jval) -> option A) :
  (forall l l', osame l l' -> f l = f l') -> inv (struct_open names f).
Proof.
  intros Hf v v' H. destruct H as [v|l l' H|l l0 l' Hn Hm Hp]; [reflexivity|reflexivity|].
  assert (osame l l') as Ho by (split; eauto). unfold struct_open.
  rewrite (proj2 (distinct_NoDup _) (NoDup_filter _ _ Hn)).
  rewrite (proj2 (distinct_NoDup _) (NoDup_filter _ _ (osame_NoDup _ _ Ho))). by apply Hf.
Qed.

Lemma str_inv : inv d_str. Proof. by destruct 1. Qed.
Lemma num_inv b : inv (d_num b). Proof. by destruct 1. Qed.
Lemma bind_inv {A B} (d : jval -> option A) (g : A -> option B) : inv d -> inv (fun v => a ← d v; g a).
Proof. intros Hd v v' H. by rewrite (Hd v v' H). Qed.
Lemma map_inv {A B} (d : jval -> option A) (g : A -> B) : inv d -> inv (fun v => g <$> d v).
Proof. intros Hd v v' H. by rewrite (Hd v v' H). Qed.
Lemma uint_inv b : inv (d_uint b). Proof. apply bind_inv, str_inv. Qed.
Lemma nonempty_u64_inv : inv d_nonempty_u64. Proof. apply bind_inv, uint_inv. Qed.
Lemma hex_inv : inv d_hex. Proof. apply bind_inv, str_inv. Qed.
Lemma hash_inv : inv d_hash32. Proof. apply bind_inv, hex_inv. Qed.
Lemma nonempty_inv : inv d_nonempty. Proof. apply bind_inv, str_inv. Qed.
Lemma chain_inv : inv d_chain. Proof. apply bind_inv, str_inv. Qed.
Lemma vote_inv : inv d_vote. Proof. apply bind_inv, str_inv. Qed.
Lemma direction_inv : inv d_direction. Proof. apply bind_inv, str_inv. Qed.
Lemma all_inv {A} (d : jval -> option A) l l' : inv d -> same_all l l' -> d_all d l = d_all d l'.
Proof. intros Hd. induction 1 as [|v v' l l' Hv Hl IH]; [reflexivity|]. cbn. by rewrite (Hd v v' Hv), IH. Qed.
Lemma vec_inv {A} (d : jval -> option A) : inv d -> inv (d_vec d).
Proof. intros Hd v v' H. destruct H; [reflexivity| |reflexivity]. by apply all_inv. Qed.
Lemma pair_inv {A B} (d1 : jval -> option A) (d2 : jval -> option B) : inv d1 -> inv d2 -> inv (d_pair d1 d2).
Proof.
  intros H1 H2 v v' H. destruct H as [v|l l' H|]; [reflexivity| |reflexivity].
  destruct H as [|a a' l l' Ha H]; [reflexivity|]. destruct H as [|b b' l l' Hb H]; [reflexivity|].
  destruct H; [|reflexivity]. cbn. by rewrite (H1 _ _ Ha), (H2 _ _ Hb).
Qed.
Lemma threshold_inv : inv d_threshold. Proof. apply bind_inv, pair_inv; apply uint_inv. Qed.
Lemma bytes_inv : inv d_bytes. Proof. apply map_inv, vec_inv, num_inv. Qed.
Lemma entries_members {A} (d : jval -> option A) l l0 m : inv d -> same_members l l0 -> d_entries d l m = d_entries d l0 m.
Proof.
  intros Hd H. revert m. induction H as [|k v v' l l' Hv Hl IH]; intros m; [reflexivity|]. cbn. rewrite (Hd _ _ Hv).
  destruct (d v'); cbn; [apply IH|done].
Qed.
Lemma entries_perm {A} (d : jval -> option A) l l' : NoDup l.*1 -> l ≡ₚ l' -> forall m, d_entries d l m = d_entries d l' m.
Proof.
  intros Hn Hp. induction Hp as [|[k1 v1] l l' Hp IH|[k1 v1] [k2 v2] l|l l1 l2 H1 IH1 H2 IH2]; intros m.
  - reflexivity.
  - cbn. cbn in Hn. apply NoDup_cons in Hn as [_ Hn]. destruct (d v1); cbn; [by apply IH|done].
  - cbn. cbn in Hn. apply NoDup_cons in Hn as [Hn _]. destruct (d v1), (d v2); cbn; try done.
    rewrite insert_commute; [done|]. intros ->. apply Hn. left.
  - rewrite IH1 by done. apply IH2. rewrite <- H1. done.
Qed.
Lemma dmap_inv {A} (d : jval -> option A) : inv d -> inv (d_map d).
Proof.
  intros Hd v v' H. destruct H as [v|l l' H|l l0 l' Hn Hm Hp]; [reflexivity|reflexivity|].
  cbn. rewrite (entries_members d l l0) by done. apply entries_perm; [by rewrite <- (members_keys _ _ Hm)|done].
Qed.
Lemma variant_inv {B} (g : string * jval -> option B) :
  (forall k v v', same v v' -> g (k, v) = g (k, v')) -> inv (fun v => p ← variant v; g p).
Proof.
  intros Hg v v' H. destruct H as [v|l l' H|l l0 l' Hn Hm Hp]; [reflexivity|reflexivity|].
  pose proof (Permutation_length Hp) as Hlen. destruct Hm as [|k v v' l l1 Hv Hm].
  - apply Permutation_nil in Hp as ->. reflexivity.
  - destruct Hm as [|k2 v2 v2' l l1 Hv2 Hm].
    + apply Permutation_singleton_l in Hp as Hp'. subst l'. cbn. by apply Hg.
    + destruct l' as [|p1 [|p2 l']]; [discriminate Hlen|discriminate Hlen|reflexivity].
Qed.

Ltac fields := first
  [ reflexivity
  | apply fld_same; [assumption|solve [eauto with inv]|intros ?; fields]
  | apply fld_opt_same; [assumption|solve [eauto with inv]|intros ?; fields]
  | match goal with |- (if ?b then _ else _) = _ => destruct b; fields end ].
Ltac structs := apply struct_inv; intros ? ? ?; fields.
Create HintDb inv.
Global Hint Resolve str_inv num_inv uint_inv nonempty_u64_inv hex_inv hash_inv nonempty_inv chain_inv vote_inv direction_inv vec_inv pair_inv
  threshold_inv bytes_inv dmap_inv : inv.
Lemma nonempty_u128_inv : inv d_nonempty_u128. Proof. apply uint_inv. Qed.
Global Hint Resolve nonempty_u128_inv : inv.
Lemma ccid_inv : inv d_ccid. Proof. structs. Qed.
Global Hint Resolve ccid_inv : inv.
Lemma message_inv : inv d_message. Proof. structs. Qed.
Global Hint Resolve message_inv : inv.
Lemma operators_inv : inv d_operators. Proof. structs. Qed.
Lemma public_key_inv : inv d_public_key.
Proof. apply variant_inv. intros k v v' H. cbn [fst snd]. by rewrite (hex_inv v v' H). Qed.
Global Hint Resolve operators_inv public_key_inv : inv.
Lemma signer_inv : inv d_signer. Proof. structs. Qed.
Global Hint Resolve signer_inv : inv.
Lemma worker_set_inv : inv d_worker_set. Proof. structs. Qed.
Lemma nmessage_inv : inv d_nmessage. Proof. apply struct_open_inv. intros ? ? ?. fields. Qed.
Lemma params_inv : inv d_params. Proof. structs. Qed.
Global Hint Resolve worker_set_inv nmessage_inv params_inv : inv.

Ltac variants :=
  apply variant_inv; intros k v v' H; cbn [fst snd];
  repeat match goal with |- context [String.eqb k ?s] => destruct (String.eqb k s) end;
  first [ reflexivity
        | revert v v' H; match goal with |- forall v v', same v v' -> ?f = _ => idtac end; structs
        | f_equal; revert v v' H; apply vec_inv; eauto with inv ].
Lemma vv_inv : inv d_vv. Proof. variants. Qed.
Lemma ms_inv : inv d_ms. Proof. variants. Qed.
Lemma rw_inv : inv d_rw. Proof. variants. Qed.
Lemma gw_inv : inv d_gw. Proof. variants. Qed.
Lemma ag_inv : inv d_ag. Proof. variants. Qed.
Lemma nx_inv : inv d_nx. Proof. variants. Qed.
Lemma rt_inv : inv d_rt. Proof. variants. Qed.
Lemma sr_inv : inv d_sr. Proof. variants. Qed.
Lemma pr_inv : inv d_pr.
Proof.
  intros v v' H. destruct H as [v|l l' H|l l0 l' Hn Hm Hp]; [reflexivity|reflexivity|].
  unfold d_pr. apply (variant_inv (fun p => if String.eqb p.1 "construct_proof" then
    struct ["message_ids"] (fun l => fld l "message_ids" (d_vec d_ccid) (fun ids => Some (ConstructProof ids))) p.2 else None)).
  - intros k v v' H. cbn [fst snd]. destruct (String.eqb k "construct_proof"); [|reflexivity]. revert v v' H. structs.
  - by eapply same_object.
Qed.
