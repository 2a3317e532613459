(** Reading back the state, and the daemon over the file. *)
From Verif Require Import Base BaseLemmas Text TextLemmas StdModel EventsModel JsonModel JsonSpec JsonProofs WireModel WireProofs
  WireProofs2 HandlersModel SubscriptionModel SubscriptionSpec QueueModel DaemonModel DaemonSpec DaemonProofs DaemonProofs2 StateFileModel StateFileSpec StateFileProofs.

Lemma foldl_perm {A} (m : gmap string A) l : l ≡ₚ map_to_list m -> foldl (fun m p => <[p.1 := p.2]> m) ∅ l = m.
Proof.
  intros Hl. assert (NoDup l.*1) as Hnd. { rewrite (fmap_Permutation fst _ _ Hl). apply NoDup_fst_map_to_list. }
  apply map_eq. intros k. rewrite foldl_inserts by done. rewrite lookup_empty.
  assert ((list_to_map l : gmap string A) = m) as ->.
  { rewrite <- (list_to_map_to_list m). by apply list_to_map_proper. }
  by destruct (m !! k).
Qed.

Section Read.
  Context (e_key : string -> jval) (d_key : jval -> option string) (Hkey : keys_read_back e_key d_key).

  Lemma state_readable l key (m : gmap string N) : l ≡ₚ map_to_list m -> readable 127 (state_value e_key l key).
  Proof.
    intros Hl. unfold state_value. constructor.
    - cbn. repeat constructor; set_solver.
    - constructor; [|constructor; [|constructor]]; cbn [snd].
      + constructor.
        * rewrite <- list_fmap_compose. cbn. change (fmap _ l) with (l.*1).
          rewrite (fmap_Permutation fst _ _ Hl). apply NoDup_fst_map_to_list.
        * apply Forall_fmap, Forall_forall. intros [k n] _. cbn. constructor.
      + destruct key as [k|]; [|constructor]. eapply readable_mono; [|apply (Hkey k)]. lia.
  Qed.
  Lemma state_text_object l key : exists ms, state_value e_key l key = JObj ms.
  Proof. by eexists. Qed.
  Lemma d_state_value l key (m : gmap string N) : l ≡ₚ map_to_list m -> Forall (fun p => p.2 < U64) l ->
    d_state d_key (state_value e_key l key) = Some {| ds_handlers := m; ds_key := key |}.
  Proof.
    intros Hl Hb. unfold state_value, d_state, struct_open. cbn [fmap list_fmap fst].
    change (distinct (filter (fun k => existsb (String.eqb k) ["handlers"; "pub_key"] = true) ["handlers"; "pub_key"])) with true.
    cbn iota. cbn [assoc String.eqb Ascii.eqb Bool.eqb].
    unfold d_state_fields. cbn [mbind option_bind d_map].
    rewrite (d_entries_ok e_uint (d_uint U64) (fun n => n < U64) 0 l (codec_uint U64) Hb ∅).
    cbn [mbind option_bind]. rewrite (foldl_perm m l Hl).
    destruct key as [k|]; [|done]. destruct (Hkey k) as (_ & Hn & Hd).
    assert (d_opt d_key (e_key k) = Some (Some k)) as ->; [|done].
    unfold d_opt. destruct (e_key k) eqn:E; try done; by rewrite Hd.
  Qed.
  Lemma state_read_back s t : text_of_state e_key s t -> load d_key (Holds t) = Ok s.
  Proof.
    intros (l & Hl & Hb & ->). unfold load, state_text.
    rewrite (of_wire_to_json _ (state_readable l _ _ Hl)). cbn [mbind option_bind].
    rewrite (d_state_value l _ _ Hl Hb). by destruct s.
  Qed.
  Lemma state_cut s t p q : text_of_state e_key s t -> t = p +:+ q -> q <> "" -> load d_key (Holds p) = Err InvalidState.
  Proof.
    intros (l & Hl & Hb & ->) Ht Hq. unfold load. pose proof (state_readable l (ds_key s) _ Hl) as Hr. unfold state_text in Ht.
    destruct (state_text_object l (ds_key s)) as [ms E]. rewrite E in Hr, Ht.
    by rewrite (object_prefix_refused ms p q Hr Ht Hq).
  Qed.
  Lemma flushed_cases s f b f' : flushed e_key s f b f' ->
    (b = true /\ load d_key f' = Ok s) \/ (b = false /\ f' = f) \/ (b = false /\ load d_key f' = Err InvalidState).
  Proof.
    intros [t Ht| |t p q Ht Hp Hq]; [left|right; left|right; right]; split; try done.
    - by apply state_read_back.
    - by eapply state_cut.
  Qed.

  Section Runs.
    Context (acc : string -> bool) (b58 : string -> option string) (de_key : jval -> option string) (worker : addr).
    Context (decode : string -> option string) (json : string -> option jval).
    Context {B : Type} (estimate : B -> list wasm_tx -> B * option N) (broadcast : B -> list wasm_tx -> B * bool) (limit : N).
    Notation started := (started e_key d_key acc b58 de_key worker decode json estimate broadcast limit).
    Notation starts := (starts e_key d_key acc b58 de_key worker decode json estimate broadcast limit).
    Notation run_daemon := (run_daemon acc b58 de_key worker decode json estimate broadcast limit).
    Notation run_daemons := (run_daemons acc b58 de_key worker decode json estimate broadcast limit).

    Lemma run_heights s (x : drun B) r : run_daemon s x = Ok r ->
      lb_heights r = if rn_killed x || negb (rn_flush x) then s else final_heights s (lb_outcomes r).
    Proof.
      intros H. unfold DaemonModel.run_daemon in H. apply rbind_ok in H as (st & H0 & H). cbv zeta in H.
      apply rbind_ok in H as ([h os] & H1 & H). destruct (qrun _ _ _ _ _) as [[b calls] q] in H. injection H as <-. cbn [lb_heights lb_outcomes fst snd].
      unfold run_session in H1. apply rbind_ok in H1 as (? & _ & H1). apply rbind_ok in H1 as (os' & _ & H1).
      by injection H1 as <- <-.
    Qed.
    (** a refused file stays as it is *)
    Lemma refused_for_good f (xs : list (drun B)) f' log : load d_key f = Err InvalidState -> starts f xs f' log -> f' = f /\ log = [].
    Proof.
      intros Hf H. induction H as [f|f x f1 o xs f' log H1 H2 IH]; [done|].
      destruct H1 as [H1|s dn f1 H1 _|s H1 _|s r k f1 H1 _ _ _]; try congruence. destruct (IH Hf) as [-> ->]. done.
    Qed.
    Definition heights_log (log : list (dstate * drun B * left_behind)) : list (heights * drun B * left_behind) :=
      (fun e => (ds_handlers e.1.1, e.1.2, e.2)) <$> log.
    Lemma starts_run f (xs : list (drun B)) f' log : starts f xs f' log -> forall s, load d_key f = Ok s ->
      exists h, run_daemons (ds_handlers s) ((fun e => e.1.2) <$> log) = (h, heights_log log) /\
        ((exists k, load d_key f' = Ok {| ds_handlers := h; ds_key := k |} /\ (forall k0, ds_key s = Some k0 -> k = Some k0)) \/
         load d_key f' = Err InvalidState).
    Proof.
      intros H. induction H as [f|f x f1 o xs f' log H1 H2 IH]; intros s Hs.
      { exists (ds_handlers s). split; [done|]. left. exists (ds_key s). split; [by destruct s|done]. }
      destruct H1 as [H1|s1 dn f1 H1 Hf|s1 H1 _|s1 r k f1 H1 Hr Hk Hf]; rewrite Hs in H1; try done; injection H1 as <-.
      - (* not prepared *) change (option_list None ++ log) with log. destruct (flushed_cases _ _ _ _ Hf) as [(_ & E)|[(_ & ->)|(_ & E)]].
        + by apply IH.
        + by apply IH.
        + destruct (refused_for_good _ _ _ _ E H2) as [-> ->]. exists (ds_handlers s). split; [done|by right].
      - by apply IH.
      - change (option_list (Some (s, x, r)) ++ log) with ((s, x, r) :: log).
        change (heights_log ((s, x, r) :: log)) with ((ds_handlers s, x, r) :: heights_log log).
        rewrite fmap_cons. cbn [DaemonModel.run_daemons fst snd]. rewrite Hr.
        pose proof (run_heights _ _ _ Hr) as Eh.
        destruct (flushed_cases _ _ _ _ Hf) as [(Eb & E)|[(Eb & ->)|(Eb & E)]].
        + apply negb_true_iff in Eb. rewrite Eb in Eh. destruct (IH _ E) as (h & Hh & Hl). cbn [ds_handlers ds_key] in Hh, Hl.
          rewrite <- Eh in Hh. rewrite Hh. exists h. split; [done|].
          destruct Hl as [(k' & Hl & Hk')|Hl]; [left|by right]. exists k'. split; [done|]. intros k0 Hk0.
          rewrite (Hk' k eq_refl). unfold key_used in Hk. rewrite Hk0 in Hk. by subst.
        + apply negb_false_iff in Eb. rewrite Eb in Eh. destruct (IH _ Hs) as (h & Hh & Hl). rewrite <- Eh in Hh at 1. rewrite Hh.
          by exists h.
        + apply negb_false_iff in Eb. rewrite Eb in Eh. destruct (refused_for_good _ _ _ _ E H2) as [-> ->]. cbn.
          exists (lb_heights r). split; [done|by right].
    Qed.
    (** with the daemon's theorems *)
    Lemma starts_serve f (xs : list (drun B)) f' log s s' l r : starts f xs f' log -> load d_key f = Ok s -> load d_key f' = Ok s' ->
      ds_handlers s !! l = Some r ->
      Forall (orderly decode json acc b58 de_key worker l) (heights_log log) ->
      exists r', ds_handlers s' !! l = Some r' /\ forall k, r < k -> k <= r' ->
        Exists (served_in decode json acc b58 de_key worker l k) (heights_log log).
    Proof.
      intros H Hs Hs' Hl Ho. destruct (starts_run f xs f' log H s Hs) as (h & Hh & [(k & E & _)|E]); [|congruence].
      rewrite E in Hs'. injection Hs' as <-. cbn [ds_handlers].
      eapply (runs_serve acc b58 de_key worker decode json); [exact Hh|exact Hl|exact Ho].
    Qed.
    (** the key is kept *)
    Lemma starts_key f (xs : list (drun B)) f' log s s' k : starts f xs f' log -> load d_key f = Ok s -> load d_key f' = Ok s' ->
      ds_key s = Some k -> ds_key s' = Some k.
    Proof.
      intros H Hs Hs' Hk. destruct (starts_run f xs f' log H s Hs) as (h & Hh & [(k' & E & Hk')|E]); [|congruence].
      rewrite E in Hs'. injection Hs' as <-. by apply Hk'.
    Qed.
    Lemma starts_key_used f (xs : list (drun B)) f' log s s' k : starts f xs f' log -> load d_key f = Ok s -> load d_key f' = Ok s' ->
      ds_key s = Some k -> ds_key s' = Some k /\ forall t cf, worker_key (ds_key s') t cf = Ok k.
    Proof. intros H Hs Hs' Hk. rewrite (starts_key f xs f' log s s' k H Hs Hs' Hk). done. Qed.
  End Runs.
End Read.

(** ** Nothing but what the file says *)
Lemma entries_said {A} (d : jval -> option A) l : forall m0 m, d_entries d l m0 = Some m ->
  (forall k a, m !! k = Some a -> m0 !! k = Some a \/ exists v, (k, v) ∈ l /\ d v = Some a) /\
  (forall k, is_Some (m0 !! k) \/ k ∈ l.*1 -> is_Some (m !! k)).
Proof.
  induction l as [|[k0 v0] l IH]; intros m0 m H; cbn [d_entries] in H.
  - injection H as <-. split; [auto|]. intros k [Hk|Hk]; [done|by apply elem_of_nil in Hk].
  - apply bind_Some in H as (a0 & Ha & H). destruct (IH _ _ H) as [H1 H2]. split.
    + intros k a Hk. destruct (H1 _ _ Hk) as [Hm|(v & Hv & Hd)]; [|right; exists v; split; [set_solver|done]].
      destruct (decide (k0 = k)) as [<-|Hne]; [|rewrite lookup_insert_ne in Hm by done; auto].
      rewrite lookup_insert in Hm. injection Hm as <-. right. exists v0. split; [set_solver|done].
    + intros k Hk. apply H2. destruct (decide (k0 = k)) as [<-|Hne]; [left; rewrite lookup_insert; eauto|].
      rewrite lookup_insert_ne by done. destruct Hk as [Hk|Hk]; [auto|]. right. cbn in Hk. set_solver.
Qed.
Lemma assoc_said l k v : assoc k l = Some v -> (k, v) ∈ l.
Proof.
  induction l as [|[k' v'] l IH]; [done|]. cbn [assoc]. destruct (String.eqb_spec k k') as [->|]; [|set_solver].
  intros [= ->]. set_solver.
Qed.
Lemma state_said d_key v s : d_state d_key v = Some s -> exists ms, names_handlers v ms /\
  (forall l n, ds_handlers s !! l = Some n -> exists x, (l, JStr x) ∈ ms /\ parse_uint U64 x = Some n) /\
  (forall l, l ∈ ms.*1 -> is_Some (ds_handlers s !! l)).
Proof.
  assert (Hf : forall h k, d_state_fields d_key h k = Some s -> exists ms, h = Some (JObj ms) /\
    (forall l n, ds_handlers s !! l = Some n -> exists x, (l, JStr x) ∈ ms /\ parse_uint U64 x = Some n) /\
    (forall l, l ∈ ms.*1 -> is_Some (ds_handlers s !! l))).
  { intros h k H. unfold d_state_fields in H. apply bind_Some in H as (hs & Hh & H). apply bind_Some in H as (key & _ & [= <-]).
    apply bind_Some in Hh as (v0 & -> & Hv). unfold d_map in Hv. destruct v0; try done.
    destruct (entries_said _ _ _ _ Hv) as [H1 H2]. cbn [ds_handlers]. eexists. split; [reflexivity|]. split; [|auto].
    intros l1 n Hl. destruct (H1 _ _ Hl) as [He|(x & Hx & Hd)]; [by rewrite lookup_empty in He|].
    unfold d_uint in Hd. apply bind_Some in Hd as (y & Hy & Hd). destruct x; try done. injection Hy as ->. eauto. }
  unfold d_state. intros H.
  assert (Ho : forall l, struct_open ["handlers"; "pub_key"] (fun l => d_state_fields d_key (assoc "handlers" l) (assoc "pub_key" l)) (JObj l) = Some s ->
    exists ms, names_handlers (JObj l) ms /\
    (forall l n, ds_handlers s !! l = Some n -> exists x, (l, JStr x) ∈ ms /\ parse_uint U64 x = Some n) /\
    (forall l, l ∈ ms.*1 -> is_Some (ds_handlers s !! l))).
  { intros l. cbn [struct_open]. destruct (distinct _); [|done]. intros (ms & Hh & H1 & H2)%Hf. exists ms.
    split; [|auto]. left. exists l. split; [done|]. by apply assoc_said. }
  destruct v as [| | | | |l|l]; try done; [|by apply Ho].
  destruct l as [|h [|k [|]]]; try done. apply Hf in H as (ms & [= ->] & H1 & H2). exists ms. split; [|auto]. right. eauto.
Qed.
Lemma load_said d_key t s : load d_key (Holds t) = Ok s -> exists v ms, of_wire t = Some v /\ names_handlers v ms /\
  (forall l n, ds_handlers s !! l = Some n -> exists x, (l, JStr x) ∈ ms /\ parse_uint U64 x = Some n) /\
  (forall l, l ∈ ms.*1 -> is_Some (ds_handlers s !! l)).
Proof.
  unfold load. intros (v & Hw & Hs)%of_option_ok%bind_Some. destruct (state_said _ _ _ Hs) as (ms & H). exists v, ms. split; [exact Hw|exact H].
Qed.
