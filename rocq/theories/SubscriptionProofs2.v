(** Proofs about handlers and recorded heights. *)
From Verif Require Import Base Text BaseLemmas EventsModel HandlersProofs SubscriptionModel SubscriptionSpec SubscriptionProofs.

(** *** Frames *)
Definition is_abci (e : event) : Prop := exists ty attrs, e = Abci ty attrs.
Lemma answered_abci decode json ins h evs : answered decode json ins h evs -> Forall is_abci evs.
Proof.
  intros (t & r & _ & _ & HF). induction HF as [|a e l l' He _ IH]; constructor; [|done].
  unfold event_of_abci in He. destruct (kv_pairs _ _ _); [|done]. injection He as <-. by eexists _, _.
Qed.

(** Where a begin or end marker stands in a sequence of frames. *)
Lemma abci_before evs (e : event) rest p x q :
  Forall is_abci evs -> ~ is_abci x -> evs ++ e :: rest = p ++ x :: q ->
  (exists p', p = evs ++ p' /\ e :: rest = p' ++ x :: q).
Proof.
  intros He Hx. revert p. induction He as [|a evs Ha _ IH]; intros p H; cbn in H.
  - exists p. done.
  - destruct p as [|a' p]; cbn in H; injection H as -> H; [done|].
    destruct (IH p H) as (p' & -> & Hp'). by exists p'.
Qed.
Lemma begin_not_abci h : ~ is_abci (BlockBegin h).
Proof. by intros (? & ? & ?). Qed.
Lemma end_not_abci h : ~ is_abci (BlockEnd h).
Proof. by intros (? & ? & ?). Qed.

Lemma frames_at_begin fs p h q :
  Forall (fun b => Forall is_abci b.2) fs -> p ++ BlockBegin h :: q = frames fs ->
  exists g1 evs g2, fs = g1 ++ (h, evs) :: g2 /\ p = frames g1 /\ BlockBegin h :: q = frames ((h, evs) :: g2).
Proof.
  intros Ha. revert p. induction Ha as [|[k evs] fs Hk _ IH]; intros p H.
  { by destruct p. }
  rewrite frames_cons in H. destruct p as [|x p].
  - exists [], evs, fs. unfold frame in H. cbn in H. injection H as -> H. split; [done|]. split; [done|].
    rewrite frames_cons. unfold frame. cbn. by rewrite H.
  - unfold frame in H. cbn [fst snd] in H. injection H as -> H. rewrite <- app_assoc in H. symmetry in H.
    destruct (abci_before _ _ _ _ _ _ Hk (begin_not_abci h) H) as (p' & -> & Hp').
    destruct p' as [|y p']; [done|]. injection Hp' as <- Hp'. cbn in Hp'.
    destruct (IH p' (eq_sym Hp')) as (g1 & evs' & g2 & -> & -> & Hq).
    exists ((k, evs) :: g1), evs', g2. split; [done|]. split; [|done].
    rewrite frames_cons. unfold frame. cbn [fst snd]. cbn. by rewrite <- app_assoc.
Qed.
Lemma frames_at_end fs p h q :
  Forall (fun b => Forall is_abci b.2) fs -> p ++ BlockEnd h :: q = frames fs ->
  exists g1 evs g2, fs = g1 ++ (h, evs) :: g2 /\ p = frames g1 ++ BlockBegin h :: evs.
Proof.
  intros Ha. revert p. induction Ha as [|[k evs] fs Hk _ IH]; intros p H.
  { by destruct p. }
  rewrite frames_cons in H. unfold frame in H. cbn [fst snd] in H.
  destruct p as [|x p]; [done|]. injection H as -> H. rewrite <- app_assoc in H. symmetry in H.
  destruct (abci_before _ _ _ _ _ _ Hk (end_not_abci h) H) as (p' & -> & Hp').
  destruct p' as [|y p'].
  - injection Hp' as -> _. exists [], evs, fs. split; [done|]. by rewrite app_nil_r.
  - injection Hp' as <- Hp'. cbn in Hp'. destruct (IH p' (eq_sym Hp')) as (g1 & evs' & g2 & -> & ->).
    exists ((k, evs) :: g1), evs', g2. split; [done|].
    rewrite frames_cons. unfold frame. cbn [fst snd]. cbn. by rewrite <- !app_assoc.
Qed.

(** *** Heights *)
Lemma no_gaps_covers from hs1 h hs2 k :
  no_gaps from (hs1 ++ h :: hs2) -> from <= k -> k <= h -> k ∈ hs1 ++ [h].
Proof.
  revert from. induction hs1 as [|a hs1 IH]; intros from H Hk Hh; cbn in H.
  - cbn. assert (k = h) by lia. subst. left.
  - destruct H as [Ha H]. destruct (decide (k <= a)) as [Hle|Hgt].
    + assert (k = a) by lia. subst. left.
    + right. apply (IH (a + 1)); [done|lia|done].
Qed.
Lemma no_gaps_head from low hs1 h hs2 :
  no_gaps from (hs1 ++ h :: hs2) -> from <= low -> Forall (fun a => a < low) hs1 -> h <= low.
Proof.
  revert from. induction hs1 as [|a hs1 IH]; intros from H Hf Hall; cbn in H; [lia|].
  destruct H as [Ha H]. inversion_clear Hall. apply (IH (a + 1)); [done|lia|done].
Qed.
Lemma no_gaps_suffix from low hs1 h hs2 :
  no_gaps from (hs1 ++ h :: hs2) -> h <= low -> no_gaps low (h :: hs2).
Proof.
  revert from. induction hs1 as [|a hs1 IH]; intros from H Hl; cbn in H.
  - split; [done|]. apply H.
  - apply (IH (a + 1)); [apply H|done].
Qed.

(** *** Skipping *)
Lemma skip_split height s :
  exists a, s = a ++ skip_to_block height s /\
    (skip_to_block height s = [] \/ exists h s', skip_to_block height s = Item (BlockBegin h) :: s' /\ height <= h) /\
    Forall (fun x => match x with Item (BlockBegin h) => h < height | _ => True end) a.
Proof.
  induction s as [|x s (a & Hs & Hd & Hf)]; [exists []; split; [done|]; split; [by left|constructor]|].
  assert (Hskip : (forall h, x = Item (BlockBegin h) -> h < height) -> skip_to_block height (x :: s) = skip_to_block height s).
  { intros Hx. destruct x as [[h|h|ty at']|]; try done. cbn. specialize (Hx h eq_refl). by destruct (N.leb_spec height h); [lia|]. }
  assert (Hdec : (exists h, x = Item (BlockBegin h) /\ height <= h) \/ ~ exists h, x = Item (BlockBegin h) /\ height <= h).
  { destruct x as [[h|h|ty at']|]; try (right; by intros (? & ? & _)).
    destruct (decide (height <= h)); [left; by exists h|right]. by intros (? & [= ->] & ?). }
  destruct Hdec as [(h & -> & Hh)|Hn].
  - exists []. cbn. destruct (N.leb_spec height h); [|lia]. split; [done|]. split; [|constructor]. right. by exists h, s.
  - rewrite Hskip.
    + exists (x :: a). cbn. rewrite <- Hs. split; [done|]. split; [done|]. constructor; [|done].
      destruct x as [[h|h|ty at']|]; try done. destruct (decide (height <= h)); [|lia]. exfalso. apply Hn. by exists h.
    + intros h ->. destruct (decide (height <= h)); [|lia]. exfalso. apply Hn. by exists h.
Qed.
Lemma no_lag_items height s a :
  no_lag_before height s -> s = a ++ skip_to_block height s -> exists es, a = Item <$> es.
Proof.
  unfold no_lag_before. intros H Hs. assert (Hl : length s = (length a + length (skip_to_block height s))%nat) by (rewrite Hs at 1; apply app_length).
  rewrite Hl in H. replace (_ + _ - _)%nat with (length a) in H by lia. rewrite Hs, take_app in H. clear Hs Hl.
  induction a as [|[e|] a IH]; [by exists []| |set_solver].
  destruct IH as (es & ->); [set_solver|]. by exists (e :: es).
Qed.
Lemma delivers_items pub es s : delivers pub ((Item <$> es) ++ s) -> exists pub', pub = es ++ pub' /\ delivers pub' s.
Proof.
  revert pub. induction es as [|e es IH]; intros pub H; cbn in H; [by exists pub|].
  inversion H as [|? pub1 ? H'|]; subst. apply IH in H' as (pub' & -> & H'). by exists pub'.
Qed.
Lemma delivers_prefix pub s es : delivers pub s -> Item <$> es `prefix_of` s -> es `prefix_of` pub.
Proof.
  intros H (k & ->). apply delivers_items in H as (pub' & -> & _). by exists pub'.
Qed.

(** What a handler reads that continues after block [low - 1]. *)
Lemma skip_reads fs from low pub s :
  Forall (fun b => Forall is_abci b.2) fs -> no_gaps from fs.*1 -> from <= low ->
  pub `prefix_of` frames fs -> delivers pub s -> no_lag_before low s ->
  skip_to_block low s = [] \/
  exists g1 evs g2 pub', fs = g1 ++ (low, evs) :: g2 /\ no_gaps low (low :: g2.*1) /\
    pub' `prefix_of` frames ((low, evs) :: g2) /\ delivers pub' (skip_to_block low s).
Proof.
  intros Ha Hg Hfl [k Hk] Hd Hn. destruct (skip_split low s) as (a & Hs & [He|(h & s' & He & Hh)] & Hf); [by left|right].
  destruct (no_lag_items _ _ _ Hn Hs) as (es & ->). rewrite Hs in Hd. apply delivers_items in Hd as (pub' & -> & Hd).
  rewrite He in Hd. inversion Hd as [|? pub1 ? Hd1|]; subst.
  rewrite <- app_assoc in Hk. symmetry in Hk. cbn in Hk.
  destruct (frames_at_begin _ _ _ _ Ha Hk) as (g1 & evs & g2 & -> & -> & Hq).
  rewrite fmap_app in Hg. cbn in Hg.
  assert (Hlow : Forall (fun b => b < low) g1.*1).
  { clear -Hf. induction g1 as [|[b evs] g1 IH]; [constructor|]. rewrite frames_cons in Hf. unfold frame in Hf. cbn in Hf.
    inversion_clear Hf as [|? ? H1 H2]. cbn. constructor; [done|]. apply IH.
    rewrite !fmap_app, Forall_app in H2. by destruct H2. }
  assert (h = low) as -> by (pose proof (no_gaps_head _ _ _ _ _ Hg Hfl Hlow); lia).
  exists g1, evs, g2, (BlockBegin low :: pub1). split; [done|]. split; [by eapply no_gaps_suffix|].
  split; [|by rewrite He]. rewrite <- Hq. by exists k.
Qed.

(** *** Consuming *)
Lemma consume_spec ok cancelled recorded s given hts :
  let o := consume ok cancelled recorded given hts s in
  exists new hs, ho_given o = given ++ new /\ Item <$> new `prefix_of` s /\ ho_heights o = hts ++ hs /\
    (forall p e q, new = p ++ e :: q -> q <> [] -> ok (given ++ p) e = true) /\
    (forall h, h ∈ hs -> recorded = true /\ exists p q, new = p ++ BlockEnd h :: q /\ ok (given ++ p) (BlockEnd h) = true).
Proof.
  revert given hts. induction s as [|[e|] s IH]; intros given hts; cbn.
  - exists [], []. rewrite !app_nil_r. split; [done|]. split; [done|]. split; [done|]. split; [by intros []|].
    intros h Hh. by apply elem_of_nil in Hh.
  - assert (Hlast : exists new hs, given ++ [e] = given ++ new /\ Item <$> new `prefix_of` Item e :: s /\ hts = hts ++ hs /\
      (forall p x q, new = p ++ x :: q -> q <> [] -> ok (given ++ p) x = true) /\
      (forall h, h ∈ hs -> recorded = true /\ exists p q, new = p ++ BlockEnd h :: q /\ ok (given ++ p) (BlockEnd h) = true)).
    { exists [e], []. rewrite app_nil_r. split; [done|]. split; [by exists s|]. split; [done|]. split.
      - intros [|? p] x q [= -> H] Hq; [done|]. by destruct p.
      - intros h Hh. by apply elem_of_nil in Hh. }
    destruct (ok given e) eqn:Hok; [|exact Hlast].
    assert (Hgo : forall hts' more, hts' = hts ++ more ->
      (forall h, h ∈ more -> recorded = true /\ e = BlockEnd h) ->
      let o := consume ok cancelled recorded (given ++ [e]) hts' s in
      exists new hs, ho_given o = given ++ new /\ Item <$> new `prefix_of` Item e :: s /\ ho_heights o = hts ++ hs /\
      (forall p x q, new = p ++ x :: q -> q <> [] -> ok (given ++ p) x = true) /\
      (forall h, h ∈ hs -> recorded = true /\ exists p q, new = p ++ BlockEnd h :: q /\ ok (given ++ p) (BlockEnd h) = true)).
    { intros hts' more -> Hmore. destruct (IH (given ++ [e]) (hts ++ more)) as (new & hs & Hg & Hp & Hh & Hacc & Hhs).
      cbn. exists (e :: new), (more ++ hs). rewrite Hg, Hh, <- !app_assoc. split; [done|]. split; [by apply prefix_cons|].
      split; [done|]. split.
      - intros [|y p] x q [= -> H] Hq; [by rewrite app_nil_r|]. specialize (Hacc p x q H Hq). by rewrite <- app_assoc in Hacc.
      - intros h [Hm|Hm]%elem_of_app.
        + destruct (Hmore h Hm) as [-> ->]. split; [done|]. exists [], new. by rewrite app_nil_r.
        + destruct (Hhs h Hm) as (-> & p & q & -> & Hk). split; [done|]. exists (e :: p), q. split; [done|]. by rewrite <- app_assoc in Hk. }
    destruct e as [h|h|ty at'].
    + apply (Hgo hts []); [by rewrite app_nil_r|]. intros ? Hx. by apply elem_of_nil in Hx.
    + destruct recorded; [|exact Hlast]. destruct (cancelled (given ++ [BlockEnd h])).
      * exists [BlockEnd h], [h]. cbn. split; [done|]. split; [by exists s|]. split; [done|]. split.
        -- intros [|? p] x q Hpx Hq; [cbn in Hpx; by injection Hpx as _ <-|]. by destruct p.
        -- intros h' ->%elem_of_list_singleton. split; [done|]. exists [], []. by rewrite app_nil_r.
      * apply (Hgo (hts ++ [h]) [h]); [done|]. intros h' ->%elem_of_list_singleton. done.
    + apply (Hgo hts []); [by rewrite app_nil_r|]. intros ? Hx. by apply elem_of_nil in Hx.
  - exists [], []. rewrite !app_nil_r. split; [done|]. split; [apply prefix_nil|]. split; [done|]. split; [by intros []|].
    intros h Hh. by apply elem_of_nil in Hh.
Qed.

(** A handler that reads frames without gaps from [low] on has handled every
    block from [low] to any height it reports. *)
Lemma consume_frames ok cancelled recorded s gs low pub :
  Forall (fun b => Forall is_abci b.2) gs -> no_gaps low gs.*1 -> pub `prefix_of` frames gs -> delivers pub s ->
  let o := consume ok cancelled recorded [] [] s in
  (forall h, h ∈ ho_heights o -> forall k, low <= k -> k <= h ->
    exists evs, (k, evs) ∈ gs /\ handled_block ok (ho_given o) k evs) /\
  (forall e l, ho_given o = e :: l -> exists evs gs', gs = (match gs with b :: _ => b.1 | [] => low end, evs) :: gs' /\
     e = BlockBegin (match gs with b :: _ => b.1 | [] => low end)).
Proof.
  intros Ha Hg Hp Hd o. subst o.
  destruct (consume_spec ok cancelled recorded s [] []) as (new & hs & Hgv & Hpre & Hh & Hacc & Hhs). cbn in Hgv, Hh.
  rewrite Hgv, Hh. pose proof (delivers_prefix _ _ _ Hd Hpre) as Hnp.
  assert (Hnf : new `prefix_of` frames gs) by (by etrans). split.
  - intros h Hin k Hlk Hkh. destruct (Hhs h Hin) as (_ & p & q & Hnew & Hokend). destruct Hnf as [r Hr].
    rewrite Hnew, <- app_assoc in Hr. cbn in Hr. symmetry in Hr.
    destruct (frames_at_end _ _ _ _ Ha Hr) as (g1 & evs & g2 & -> & Hpeq).
    rewrite fmap_app in Hg. cbn in Hg. pose proof (no_gaps_covers _ _ _ _ _ Hg Hlk Hkh) as Hk.
    assert (Hdone : new = frames (g1 ++ [(h, evs)]) ++ q).
    { rewrite Hnew, Hpeq, frames_app. unfold frames at 3. cbn. rewrite app_nil_r. unfold frame. cbn.
      rewrite <- !app_assoc. cbn. by rewrite <- app_assoc. }
    assert (Hk' : exists evs', (k, evs') ∈ g1 ++ [(h, evs)]).
    { apply elem_of_app in Hk as [Hk|Hk%elem_of_list_singleton].
      - apply elem_of_list_fmap in Hk as ([k' evs'] & -> & Hk). exists evs'. apply elem_of_app. by left.
      - subst. exists evs. apply elem_of_app. right. by left. }
    destruct Hk' as (evs' & Hk'). exists evs'. split; [set_solver|].
    apply elem_of_list_split in Hk' as (a & b & Hab). rewrite Hab in Hdone.
    rewrite frames_app, frames_cons, <- !app_assoc in Hdone. exists (frames a), (frames b ++ q). split; [done|].
    intros x e y Hxy. rewrite Hxy in Hdone. rewrite <- !app_assoc in Hdone. cbn in Hdone.
    destruct (decide (y ++ frames b ++ q = [])) as [Hnil|Hne].
    + apply app_nil in Hnil as [-> Hnil]. apply app_nil in Hnil as [Hb ->].
      assert (b = []) as -> by (destruct b; [done|]; by rewrite frames_cons in Hb).
      apply app_inj_tail in Hab as [<- [= -> ->]].
      assert (e = BlockEnd k /\ x = BlockBegin k :: evs') as [-> ->].
      { unfold frame in Hxy. cbn in Hxy. change (BlockBegin k :: evs' ++ [BlockEnd k]) with ((BlockBegin k :: evs') ++ [BlockEnd k]) in Hxy.
        apply app_inj_tail in Hxy as [-> ->]. done. }
      rewrite Hpeq in Hokend. exact Hokend.
    + apply (Hacc (frames a ++ x) e (y ++ frames b ++ q)); [|done]. rewrite Hdone, <- app_assoc. done.
  - intros e l Hel. rewrite Hel in Hnf. destruct gs as [|[b evs] gs]; [by destruct Hnf|].
    destruct Hnf as [r Hr]. rewrite frames_cons in Hr. unfold frame in Hr. cbn in Hr. injection Hr as Hr _.
    cbn. exists evs, gs. split; [done|]. by symmetry.
Qed.
