(** Programs over texts against programs over values. *)
From Verif Require Import Base BaseLemmas Text TextLemmas StdModel StdProofs.
From Verif Require Import StorageModel StorageSpec StorageProofs StorageProofs2 StorageProofs3 StorageProofs4 EventsModel JsonModel WireModel Storage3Model.
From Verif Require Import Storage3Spec.

(** What a program may write, and what it gives, if whatever it reads is
    good. *)
Section Good.
  Context {V : Type} (P : string -> V -> Prop).
  Fixpoint wp {E A} (p : prog V E A) (Q : A -> Prop) : Prop :=
    match p with
    | Ret a => Q a
    | Fail _ | Crash => True
    | Get k f => forall o, (forall v, o = Some v -> P (name_of k) v) -> wp (f o) Q
    | Put k v p' => P (name_of k) v /\ wp p' Q
    | Del _ p' => wp p' Q
    | Scan ns ps f => forall l, (forall x v, (x, v) ∈ l -> P ns v) -> wp (f l) Q
    end.
  Lemma wp_mono {E A} (p : prog V E A) (Q Q' : A -> Prop) : (forall a, Q a -> Q' a) -> wp p Q -> wp p Q'.
  Proof. intros HQ. induction p; simpl; naive_solver. Qed.
  Lemma wp_bind {E A B} (p : prog V E A) (g : A -> prog V E B) (R : A -> Prop) (Q : B -> Prop) :
    wp p R -> (forall a, R a -> wp (g a) Q) -> wp (pbind p g) Q.
  Proof. intros Hp Hg. induction p; simpl in *; naive_solver. Qed.
  Lemma wp_own {E A} (r : res E A) (Q : A -> Prop) : (forall a, r = Ok a -> Q a) -> wp (own (V:=V) r) Q.
  Proof. intros H. destruct r; simpl; auto. Qed.
  Lemma wp_any {E A} (p : prog V E A) (Q : A -> Prop) : wp p (fun _ => True) -> (forall a, Q a) -> wp p Q.
  Proof. intros Hp HQ. by eapply wp_mono; [|exact Hp]. Qed.
  Lemma wp_collect {E A B} (f : A -> prog V E B) l (Q : B -> Prop) :
    (forall a, a ∈ l -> wp (f a) Q) -> wp (collect f l) (Forall Q).
  Proof.
    induction l as [|a l IH]; intros H; [constructor|]. simpl.
    eapply wp_bind; [apply H, elem_of_list_here|]. intros b Hb. eapply wp_bind; [apply IH|].
    - intros c Hc. apply H. by apply elem_of_list_further.
    - intros bs Hbs. by constructor.
  Qed.
  Lemma wp_for_each {E A} (f : A -> prog V E unit) l :
    (forall a, a ∈ l -> wp (f a) (fun _ => True)) -> wp (for_each f l) (fun _ => True).
  Proof.
    induction l as [|a l IH]; intros H; [done|]. simpl.
    eapply wp_bind; [apply H, elem_of_list_here|]. intros b Hb. apply IH.
    intros c Hc. apply H. by apply elem_of_list_further.
  Qed.

  Context (L : layout) (enc : V -> jval) (dec : string -> jval -> option V).
  Context (HL : proper L = true).
  Context (Hcodec : forall ns v, P ns v -> (j ← of_wire (to_json (enc v)); dec ns j) = Some v).
  Definition good (t : gmap skey V) : Prop := forall k v, t !! k = Some v -> P (name_of k) v.
  Definition tsim (mt : gmap string string) (m : gmap string V) : Prop :=
    mt = to_text enc <$> m /\ exists t, stored L m t /\ good t.
  Lemma stored_text m t : stored L m t -> stored L (to_text enc <$> m) (to_text enc <$> t).
  Proof using.
    intros [H1 H2]. split.
    - intros k [v Hv]. rewrite lookup_fmap in Hv. apply fmap_Some in Hv as (w & Hw & _). apply H1. by eexists.
    - intros x v. rewrite lookup_fmap, fmap_Some. split.
      + intros (w & Hw & ->). apply H2 in Hw as (k & Hk & Hw). exists k. split; [done|]. by rewrite lookup_fmap, Hw.
      + intros (k & Hk & Hv). rewrite lookup_fmap in Hv. apply fmap_Some in Hv as (w & Hw & ->).
        exists w. split; [|done]. apply H2. by exists k.
  Qed.
  Lemma entries_text t ns ps : entries (to_text enc <$> t) ns ps = to_text enc <$> entries t ns ps.
  Proof using.
    apply map_eq. intros x. rewrite lookup_fmap. apply option_eq. intros v.
    rewrite lookup_entries, lookup_fmap, !fmap_Some. split.
    - intros (w & Hw & ->). exists w. by rewrite lookup_entries.
    - intros (w & Hw & ->). rewrite lookup_entries in Hw. by exists w.
  Qed.
  Lemma of_texts_ok ns ps l :
    (forall x v, (x, v) ∈ l -> P ns v) -> of_texts dec ns ps (prod_map id (to_text enc) <$> l) = inl l.
  Proof using Hcodec.
    induction l as [|[x v] l IH]; intros H; [done|]. cbn [of_texts fmap list_fmap prod_map fst snd id].
    change (prod_map id (to_text enc) (x, v)) with (x, to_text enc v).
    cbn iota beta. unfold of_text, to_text at 1. cbn [name_of]. rewrite (Hcodec ns v) by (eapply H, elem_of_list_here).
    rewrite IH; [done|]. intros y w Hy. eapply H. by apply elem_of_list_further.
  Qed.
  Lemma texts_faithful {E A} (p : prog V E A) (Q : A -> Prop) mt m :
    keeps L p -> wp p Q -> tsim mt m -> agree tsim (raw (in_texts enc dec p) mt) (map_err TOwn (raw p m)).
  Proof using HL Hcodec.
    revert mt m. induction p as [a|e| |k f IH|k v p IH|k p IH|ns ps f IH]; intros mt m Hk Hw (-> & t & Hst & Hg);
      cbn [raw in_texts keeps wp] in *.
    - split; [done|]. split; [done|]. by exists t.
    - done.
    - done.
    - destruct Hk as [Hk Hf]. destruct (path k) as [x|] eqn:Hx; [|done].
      pose proof (stored_lookup L m t k x HL Hst Hk Hx) as Hm. rewrite lookup_fmap, Hm.
      specialize (Hw (t !! k)). feed specialize Hw. { intros v Hv. by apply Hg. }
      destruct (t !! k) as [v|] eqn:Ht; cbn [fmap option_fmap option_map].
      + unfold of_text, to_text at 1. rewrite (Hcodec (name_of k) v) by by apply Hg. apply IH; [done..|].
        split; [done|]. by exists t.
      + apply IH; [done..|]. split; [done|]. by exists t.
    - destruct Hk as [Hk Hf], Hw as [Hv Hw]. destruct (path k) as [x|] eqn:Hx; [|done].
      apply IH; [done..|]. split; [by rewrite fmap_insert|]. exists (<[k:=v]> t). split; [by apply stored_insert|].
      intros k' v' Hk'. apply lookup_insert_Some in Hk' as [[<- <-]|[_ Hk']]; [done|by apply Hg].
    - destruct Hk as [Hk Hf]. destruct (path k) as [x|] eqn:Hx; [|done].
      apply IH; [done..|]. split; [by rewrite fmap_delete|]. exists (delete k t). split; [by apply stored_delete|].
      intros k' v' Hk'. apply lookup_delete_Some in Hk' as [_ Hk']. by apply Hg.
    - destruct Hk as (Hm & Hs & Hf).
      destruct (with_lengths (ns :: ps)) as [q|] eqn:Hq; [|done].
      rewrite (prefix_range_ok L (to_text enc <$> m) (to_text enc <$> t) ns ps q HL) by (done || by apply stored_text).
      rewrite (prefix_range_ok L m t ns ps q HL Hst Hm Hs Hq). cbn [rbind].
      rewrite entries_text, btree_fmap.
      assert (Hl : forall x v, (x, v) ∈ btree_iter (entries t ns ps) -> P ns v).
      { intros x v Hx. apply elem_of_btree in Hx. rewrite lookup_entries in Hx. by apply (Hg (SEntry ns ps x)). }
      rewrite of_texts_ok by done. apply IH; [done|by apply Hw|]. split; [done|]. by exists t.
  Qed.

  (** A query: an answer, and the store as it was. *)
  Lemma texts_query {E A} (p : prog V (serr E) A) (Q : A -> Prop) mt m (r : res E A) :
    keeps L p -> wp p Q -> tsim mt m -> raw p m = (let? a := map_err SOwn r in Ok (m, a)) ->
    raw (in_texts enc dec p) mt = let? a := map_err (fun e => TOwn (SOwn e)) r in Ok (mt, a).
  Proof using HL Hcodec.
    intros Hk Hw Hs Hr. pose proof (texts_faithful p Q mt m Hk Hw Hs) as H. rewrite Hr in H. clear Hr.
    assert (Hmt : mt = to_text enc <$> m) by apply Hs.
    destruct r as [a|e|]; simpl in *; destruct (raw (in_texts enc dec p) mt) as [[mt' b]|f|]; simpl in H; try done.
    - destruct H as [-> [Hmt' _]]. by rewrite Hmt, Hmt'.
    - by subst.
  Qed.

  Section History.
    Context {E O R S : Type} (prg : O -> prog V (serr E) R) (step : S -> O -> res E (S * R)).
    Context (okop : O -> Prop) (St : gmap string V -> S -> Prop).
    Context (Hkeeps : forall op, okop op -> keeps L (prg op)) (Hwp : forall op, okop op -> wp (prg op) (fun _ => True)).
    Lemma texts_run mt m ops :
      tsim mt m -> Forall okop ops ->
      tsim (run (fun mt op => raw (in_texts enc dec (prg op)) mt) mt ops) (run (fun m op => raw (prg op) m) m ops) /\
      log (fun mt op => raw (in_texts enc dec (prg op)) mt) mt ops = log (fun m op => raw (prg op) m) m ops.
    Proof using HL Hcodec Hkeeps Hwp.
      intros Hs Hops. revert mt m Hs. induction Hops as [|op ops Hop Hops IH]; intros mt m Hs; simpl; [done|].
      pose proof (texts_faithful (prg op) _ mt m (Hkeeps op Hop) (Hwp op Hop) Hs) as H. unfold exec, log1.
      destruct (raw (in_texts enc dec (prg op)) mt) as [[mt' a]|e|], (raw (prg op) m) as [[m' b]|f|]; simpl in H; try done.
      - destruct H as [-> H]. destruct (IH mt' m' H) as [H1 H2]. by rewrite H2.
      - by apply IH.
      - by apply IH.
    Qed.
    Lemma tsim_texts mt m s : tsim mt m -> St m s -> texts_of L enc dec St mt s.
    Proof using HL Hcodec.
      intros (-> & t & Hst & Hg) H. exists m. split; [done|]. split; [done|]. intros k x v Hk Hx Hv. apply Hcodec.
      apply Hg. rewrite <- (stored_lookup L m t k x HL Hst Hk Hx). done.
    Qed.
    Lemma texts_history mt0 m0 s0 ops :
      tsim mt0 m0 -> Forall okop ops ->
      let mt := run (fun mt op => raw (in_texts enc dec (prg op)) mt) mt0 ops in
      let m := run (fun m op => raw (prg op) m) m0 ops in
      let s := run step s0 ops in
      log (fun m op => raw (prg op) m) m0 ops = log step s0 ops ->
      St m s -> (forall op, okop op -> agree St (raw (prg op) m) (map_err SOwn (step s op))) ->
      log (fun mt op => raw (in_texts enc dec (prg op)) mt) mt0 ops = log step s0 ops /\
      texts_of L enc dec St mt s /\
      (forall op, okop op ->
         agree (texts_of L enc dec St) (raw (in_texts enc dec (prg op)) mt)
           (map_err (fun e => TOwn (SOwn e)) (step s op))) /\
      tsim mt m.
    Proof using HL Hcodec Hkeeps Hwp.
      intros Hs Hops mt m s Hlog HSt Hstep.
      destruct (texts_run mt0 m0 ops Hs Hops) as [Hs' Hlog']. fold mt m in Hs'.
      split; [by rewrite Hlog'|]. split; [by eapply tsim_texts|]. split; [|done].
      intros op Hop. pose proof (texts_faithful (prg op) _ mt m (Hkeeps op Hop) (Hwp op Hop) Hs') as H.
      specialize (Hstep op Hop).
      destruct (raw (in_texts enc dec (prg op)) mt) as [[mt' a]|e|], (raw (prg op) m) as [[m' b]|f|]; simpl in H; try done;
        destruct (step s op) as [[s' c]|g|]; simpl in *; try done.
      - destruct H as [-> H], Hstep as [-> Hst]. split; [done|]. by eapply tsim_texts.
      - by subst.
    Qed.
  End History.
End Good.
