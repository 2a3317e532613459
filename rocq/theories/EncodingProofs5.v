(** Batch ids, and independence of the order of operators. *)
From stdpp Require Import sorting.
From Verif Require Import Base BaseLemmas MapLemmas Text TextLemmas StdModel StdProofs RouterTypes MultisigTypes OperatorsModel
  EncodingModel EncodingSpec EncodingProofs EncodingProofs2 EncodingProofs3 EncodingProofs4 RegistryProofs.

Lemma leb_antisym_str a b : String.leb a b = true -> String.leb b a = true -> a = b.
Proof.
  unfold String.leb. rewrite (String.compare_antisym b a).
  destruct (String.compare a b) eqn:E; cbn; try done. intros _ _. by apply String.compare_eq_iff.
Qed.
Lemma isort_strings_eq l l' : l ≡ₚ l' -> isort String.leb l = isort String.leb l'.
Proof.
  intros Hp.
  assert (AntiSymm (=) (fun a b => String.leb a b = true)) by (intros x y; apply leb_antisym_str).
  apply (StronglySorted_unique (fun a b => String.leb a b = true)).
  - apply Sorted_StronglySorted; [intros x y z; apply leb_trans|]. apply isort_sorted, String.leb_total.
  - apply Sorted_StronglySorted; [intros x y z; apply leb_trans|]. apply isort_sorted, String.leb_total.
  - by rewrite !isort_perm.
Qed.

(** sorting by address is insensitive to order if addresses are distinct *)
Lemma isort_fst_eq (l l' : list (string * N)) : l ≡ₚ l' -> NoDup l.*1 ->
  isort (fun a b => String.leb a.1 b.1) l = isort (fun a b => String.leb a.1 b.1) l'.
Proof.
  intros Hp Hd.
  set (R := fun a b : string * N => String.ltb a.1 b.1 = true).
  assert (AntiSymm (=) R).
  { intros x y. unfold R, String.ltb. rewrite (String.compare_antisym y.1 x.1). by destruct (String.compare x.1 y.1). }
  assert (Hs : forall k, NoDup k.*1 -> StronglySorted R (isort (fun a b => String.leb a.1 b.1) k)).
  { intros k Hk. pose proof (sort_by_addr_ascending k) as Ha. unfold sort_by_addr in Ha.
    assert (Hk' : NoDup (isort (fun a b : string * N => String.leb a.1 b.1) k).*1) by (by rewrite isort_perm).
    apply (fun H => ascending_strict _ H Hk') in Ha. clear Hk'.
    induction (isort (fun a b : string * N => String.leb a.1 b.1) k) as [|x s IH]; [constructor|].
    inversion Ha as [|? ? Ha' Hx]; subst. constructor; [by apply IH|]. by rewrite Forall_fmap in Hx. }
  apply (StronglySorted_unique R); [by apply Hs|apply Hs; by rewrite <- Hp|]. by rewrite !isort_perm.
Qed.
Lemma operators_perm l l' t : l ≡ₚ l' -> NoDup l.*1 -> operators_new l t = operators_new l' t.
Proof. intros Hp Hd. unfold operators_new. by rewrite (isort_fst_eq _ _ Hp Hd). Qed.

(** ** joining with commas *)
Lemma join_cons sep a l : join sep (a :: l) = a +:+ match l with [] => EmptyString | _ => sep +:+ join sep l end.
Proof. destruct l; cbn; [by rewrite app_nil_str|done]. Qed.
Lemma join_plain_inj l l' : Forall (fun s => contains "," s = false /\ s <> "") l ->
  Forall (fun s => contains "," s = false /\ s <> "") l' -> join "," l = join "," l' -> l = l'.
Proof.
  intros H. revert l'. induction H as [|a l [Ha Hne] Hl IH]; intros [|b l'] Hl'.
  - done.
  - apply Forall_cons in Hl' as [[Hb Hneb] Hl']. rewrite join_cons. cbn. intros E. by destruct b.
  - rewrite join_cons. cbn. intros E. by destruct a.
  - apply Forall_cons in Hl' as [[Hb Hneb] Hl']. rewrite !join_cons. cbn [String.append].
    destruct l as [|a2 l], l' as [|b2 l'].
    + rewrite !app_nil_str. by intros ->.
    + rewrite app_nil_str. intros ->. rewrite contains_app in Ha. cbn in Ha. by rewrite orb_true_r in Ha.
    + rewrite app_nil_str. intros <-. rewrite contains_app in Hb. cbn in Hb. by rewrite orb_true_r in Hb.
    + intros [-> E]%sep_app_inj; [|done..]. f_equal. by apply IH.
Qed.

(** pieces of the form chain:tx:number *)
Definition shaped (s : string) : Prop :=
  exists ch tx n, s = ch +:+ String ":" (tx +:+ String ":" (dec n)) /\ contains ":" ch = false /\ contains ":" tx = false.
Definition last_ok (w : list string) : Prop :=
  w = [] \/ exists h, w = [h] /\ contains ":" h = false /\ h <> "".
Lemma shaped_colon s : shaped s -> contains ":" s = true.
Proof. intros (ch & tx & n & -> & _). rewrite contains_app. cbn. by rewrite orb_true_r. Qed.
Lemma join_contains c sep l x : x ∈ l -> contains c x = true -> contains c (join sep l) = true.
Proof.
  intros Hx Hc. induction l as [|a l IH]; [by apply elem_of_nil in Hx|].
  rewrite join_cons, contains_app. apply elem_of_cons in Hx as [->|Hx]; [by rewrite Hc|].
  destruct l as [|b l]; [by apply elem_of_nil in Hx|]. rewrite contains_app, (IH Hx), !orb_true_r. done.
Qed.
Lemma dec_no c n : Ascii.eqb c ":" || Ascii.eqb c "," = true -> contains c (dec n) = false.
Proof. intros H. apply dec_contains. apply orb_true_iff in H as [->%Ascii.eqb_eq| ->%Ascii.eqb_eq]; done. Qed.
Lemma dec_comma_inj n n' r r' :
  dec n +:+ (match r with Some s => String "," s | None => "" end) =
  dec n' +:+ (match r' with Some s => String "," s | None => "" end) -> n = n' /\ r = r'.
Proof.
  intros H. destruct r as [s|], r' as [s'|].
  - apply sep_app_inj in H as [H%dec_inj ->]; [done|by apply dec_no..].
  - rewrite app_nil_str in H. exfalso. pose proof (dec_no "," n' eq_refl) as Hc. rewrite <- H, contains_app in Hc.
    cbn in Hc. by rewrite orb_true_r in Hc.
  - rewrite app_nil_str in H. exfalso. pose proof (dec_no "," n eq_refl) as Hc. rewrite H, contains_app in Hc.
    cbn in Hc. by rewrite orb_true_r in Hc.
  - rewrite !app_nil_str in H. by apply dec_inj in H.
Qed.
Definition tail_of (l : list string) : option string := match l with [] => None | _ => Some (join "," l) end.
Lemma join_tail a l : join "," (a :: l) = a +:+ match tail_of l with Some s => String "," s | None => "" end.
Proof. rewrite join_cons. by destruct l. Qed.
Lemma last_colon w : last_ok w -> contains ":" (join "," w) = false.
Proof. intros [->|(h & -> & Hh & _)]; done. Qed.
Lemma join_shaped_inj l : forall l' w w', Forall shaped l -> Forall shaped l' -> last_ok w -> last_ok w' ->
  join "," (l ++ w) = join "," (l' ++ w') -> l = l' /\ w = w'.
Proof.
  induction l as [|p l IH]; intros [|p' l'] w w' Hl Hl' Hw Hw' H.
  - split; [done|]. cbn [app] in H.
    destruct Hw as [->|(h & -> & _ & Hh)], Hw' as [->|(h' & -> & _ & Hh')]; cbn in H; congruence.
  - exfalso. apply Forall_cons in Hl' as [Hp _]. pose proof (last_colon _ Hw) as Hc. cbn [app] in H.
    rewrite H in Hc. rewrite (join_contains ":" "," _ p') in Hc; [done|by left|by apply shaped_colon].
  - exfalso. apply Forall_cons in Hl as [Hp _]. pose proof (last_colon _ Hw') as Hc. cbn [app] in H.
    rewrite <- H in Hc. rewrite (join_contains ":" "," _ p) in Hc; [done|by left|by apply shaped_colon].
  - apply Forall_cons in Hl as [Hp Hl]. apply Forall_cons in Hl' as [Hp' Hl'].
    cbn [app] in H. rewrite !join_tail in H.
    destruct Hp as (ch & tx & n & -> & Hc & Ht), Hp' as (ch' & tx' & n' & -> & Hc' & Ht').
    rewrite !app_assoc_str in H. cbn [String.append] in H.
    apply sep_app_inj in H as [-> H]; [|done..].
    rewrite !app_assoc_str in H. cbn [String.append] in H.
    apply sep_app_inj in H as [-> H]; [|done..].
    apply dec_comma_inj in H as [-> H].
    destruct (IH l' w w' Hl Hl' Hw Hw') as [-> ->]; [|done].
    revert H. unfold tail_of. destruct (l ++ w), (l' ++ w'); try done. apply (inj Some).
Qed.

Lemma ccid_string_inj i i' : contains ":" (cc_chain i) = false -> contains ":" (cc_chain i') = false ->
  ccid_to_string i = ccid_to_string i' -> i = i'.
Proof.
  destruct i, i'. unfold ccid_to_string. cbn. intros H H' E. by apply sep_app_inj in E as [-> ->].
Qed.
Lemma ccid_strings_perm l l' : Forall (fun i => contains ":" (cc_chain i) = false) l ->
  Forall (fun i => contains ":" (cc_chain i) = false) l' ->
  ccid_to_string <$> l ≡ₚ ccid_to_string <$> l' -> l ≡ₚ l'.
Proof.
  revert l'. induction l as [|i l IH]; intros l' H H' Hp.
  - apply Permutation_nil in Hp. by destruct l'.
  - apply Forall_cons in H as [Hi H].
    assert (Hin : ccid_to_string i ∈ ccid_to_string <$> l') by (rewrite <- Hp; rewrite fmap_cons; by left).
    apply elem_of_list_fmap in Hin as (j & Hj & Hin).
    assert (i = j) as <-.
    { apply ccid_string_inj; [done| |done]. rewrite Forall_forall in H'. by apply H'. }
    apply elem_of_Permutation in Hin as [k Hk]. rewrite Hk in Hp, H' |- *.
    apply Forall_cons in H' as [_ H']. rewrite !fmap_cons in Hp. apply Permutation_cons_inv in Hp.
    f_equiv. by apply IH.
Qed.

Section Batch.
  Context (keccak : string -> string) (wshash : worker_set -> string).

  Lemma batch_id_perm ids ids' ws : ids ≡ₚ ids' -> batch_id keccak wshash ids ws = batch_id keccak wshash ids' ws.
  Proof.
    intros Hp. unfold batch_id, batch_id_preimage.
    by rewrite (isort_strings_eq (ccid_to_string <$> ids) (ccid_to_string <$> ids')) by (by rewrite Hp).
  Qed.
  Definition ws_piece (ws : option worker_set) : list string :=
    match ws with Some w => [to_hex (wshash w)] | None => [] end.
  Lemma ws_piece_last ws : (forall w, wshash w <> "") -> last_ok (ws_piece ws).
  Proof.
    intros Hh. destruct ws as [w|]; [right|by left]. exists (to_hex (wshash w)). split; [done|].
    split; [apply (all_chars_contains is_hex); [done|apply to_hex_chars]|].
    specialize (Hh w). by destruct (wshash w).
  Qed.
  Lemma ws_piece_plain ws : (forall w, wshash w <> "") -> Forall (fun s => contains "," s = false /\ s <> "") (ws_piece ws).
  Proof.
    intros Hh. destruct ws as [w|]; constructor; [|constructor].
    split; [apply (all_chars_contains is_hex); [done|apply to_hex_chars]|].
    specialize (Hh w). by destruct (wshash w).
  Qed.
  Lemma ws_piece_inj ws ws' : ws_piece ws = ws_piece ws' -> wshash <$> ws = wshash <$> ws'.
  Proof.
    destruct ws, ws'; cbn; try done. intros [= H%to_hex_inj]. by rewrite H.
  Qed.
  Lemma event_shaped ids : Forall event_id ids -> Forall shaped (isort String.leb (ccid_to_string <$> ids)).
  Proof.
    intros H. rewrite isort_perm, Forall_fmap. eapply Forall_impl; [exact H|].
    intros [ch id] (Hc & tx & n & Ht & Hid). cbn in *. exists ch, tx, n. subst id. done.
  Qed.
  Lemma plain_pieces ids : Forall plain_id ids ->
    Forall (fun s => contains "," s = false /\ s <> "") (isort String.leb (ccid_to_string <$> ids)).
  Proof.
    intros H. rewrite isort_perm, Forall_fmap. eapply Forall_impl; [exact H|].
    intros [ch id] (Hc & Hc' & Hi). cbn in *. unfold ccid_to_string. cbn. split.
    - rewrite contains_app. cbn. by rewrite Hc', Hi.
    - intros E. by destruct ch.
  Qed.
  Lemma sorted_ids_perm ids ids' :
    Forall (fun i => contains ":" (cc_chain i) = false) ids ->
    Forall (fun i => contains ":" (cc_chain i) = false) ids' ->
    isort String.leb (ccid_to_string <$> ids) = isort String.leb (ccid_to_string <$> ids') -> ids ≡ₚ ids'.
  Proof.
    intros H H' E. apply ccid_strings_perm; [done..|].
    rewrite <- (isort_perm String.leb (ccid_to_string <$> ids)), E. apply isort_perm.
  Qed.
  Lemma batch_id_event_inj ids ids' ws ws' : (forall w, wshash w <> "") -> Forall event_id ids -> Forall event_id ids' ->
    batch_id keccak wshash ids ws = batch_id keccak wshash ids' ws' ->
    no_collision keccak [batch_id_preimage wshash ids ws; batch_id_preimage wshash ids' ws'] ->
    ids ≡ₚ ids' /\ wshash <$> ws = wshash <$> ws'.
  Proof.
    intros Hh H H' E Hn. apply Hn in E; [|set_solver..]. unfold batch_id_preimage in E.
    apply join_shaped_inj in E as [E1 E2]; [|by apply event_shaped|by apply event_shaped
      |by apply (ws_piece_last ws)|by apply (ws_piece_last ws')].
    split; [|by apply ws_piece_inj].
    apply sorted_ids_perm; [| |done]; eapply Forall_impl; eauto; intros i [Hi _]; done.
  Qed.
  Lemma app_last_inj (l l' w w' : list string) :
    Forall (fun s => contains ":" s = true) l -> Forall (fun s => contains ":" s = true) l' ->
    last_ok w -> last_ok w' -> l ++ w = l' ++ w' -> l = l' /\ w = w'.
  Proof.
    revert l'. induction l as [|a l IH]; intros [|b l'] H H' Hw Hw' E; [done| | |].
    - exfalso. cbn in E. apply Forall_cons in H' as [Hb _].
      destruct Hw as [->|(h & -> & Hh & _)]; [done|]. injection E as -> _. congruence.
    - exfalso. cbn in E. apply Forall_cons in H as [Hb _].
      destruct Hw' as [->|(h & -> & Hh & _)]; [done|]. injection E as -> _. congruence.
    - injection E as -> E. apply Forall_cons in H as [_ H]. apply Forall_cons in H' as [_ H'].
      by destruct (IH _ H H' Hw Hw' E) as [-> ->].
  Qed.
  Lemma ids_colon ids : Forall (fun s => contains ":" s = true) (isort String.leb (ccid_to_string <$> ids)).
  Proof.
    rewrite isort_perm, Forall_fmap. apply Forall_true. intros i. cbn. unfold ccid_to_string.
    rewrite contains_app. cbn. by rewrite orb_true_r.
  Qed.
  Lemma batch_id_plain_inj ids ids' ws ws' : (forall w, wshash w <> "") -> Forall plain_id ids -> Forall plain_id ids' ->
    batch_id keccak wshash ids ws = batch_id keccak wshash ids' ws' ->
    no_collision keccak [batch_id_preimage wshash ids ws; batch_id_preimage wshash ids' ws'] ->
    ids ≡ₚ ids' /\ wshash <$> ws = wshash <$> ws'.
  Proof.
    intros Hh H H' E Hn. apply Hn in E; [|set_solver..]. unfold batch_id_preimage in E.
    apply join_plain_inj in E; [|apply Forall_app; split; [by apply plain_pieces|by apply (ws_piece_plain)]..].
    apply app_last_inj in E as [E1 E2]; [|apply ids_colon|apply ids_colon
      |by apply (ws_piece_last ws)|by apply (ws_piece_last ws')].
    split; [|by apply ws_piece_inj].
    apply sorted_ids_perm; [| |done]; eapply Forall_impl; eauto; intros i [Hi _]; done.
  Qed.
End Batch.

(** ** worker sets do not depend on the order of the workers *)
Lemma worker_set_fold l : forall m : gmap addr signer, NoDup ((p_addr ∘ fst) <$> l) ->
  fold_left (fun m '(p, k) =>
     <[p_addr p := {| sg_addr := p_addr p; sg_weight := p_weight p; sg_key := k |}]> m) l m =
  list_to_map ((fun x : participant * public_key =>
     (p_addr x.1, {| sg_addr := p_addr x.1; sg_weight := p_weight x.1; sg_key := x.2 |})) <$> l) ∪ m.
Proof.
  induction l as [|[p k] l IH]; intros m Hd; [cbn; by rewrite (left_id_L ∅ (∪))|].
  cbn [fold_left]. rewrite fmap_cons in Hd. apply NoDup_cons in Hd as [Hn Hd].
  rewrite IH by done. rewrite fmap_cons. cbn [list_to_map foldr fst snd uncurry].
  rewrite <- insert_union_l, insert_union_r; [done|].
  apply not_elem_of_list_to_map_1. rewrite <- list_fmap_compose. exact Hn.
Qed.
Lemma worker_set_perm l l' t h : l ≡ₚ l' -> NoDup ((p_addr ∘ fst) <$> l) ->
  worker_set_new l t h = worker_set_new l' t h.
Proof.
  intros Hp Hd. unfold worker_set_new. f_equal.
  rewrite !worker_set_fold; [|by rewrite <- Hp|done]. f_equal.
  apply list_to_map_proper; [|by rewrite Hp]. rewrite <- list_fmap_compose. exact Hd.
Qed.
