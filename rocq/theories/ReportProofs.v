From Verif Require Import Base BaseLemmas Text TextLemmas ReportModel ReportSpec.

(** ** Reports as lists of errors *)

Definition frames_of (e : raised) : list rframe := rev (ra_attached e) ++ [FContext (ra_msg e)].
Lemma step_frames fs es s : es <> [] -> fs = concat (frames_of <$> es) -> step_report fs s = concat (frames_of <$> raise_step es s).
Proof.
  intros Hne ->. destruct s as [f|m]; cbn [step_report raise_step].
  - destruct es as [|e es]; [done|]. cbn [fmap list_fmap concat]. unfold frames_of at 3. cbn [ra_attached ra_msg].
    rewrite rev_app_distr. done.
  - done.
Qed.
Lemma report_frames msg steps : report_of msg steps = concat (frames_of <$> raised_by msg steps).
Proof.
  unfold report_of, raised_by.
  assert (forall steps fs es, es <> [] -> fs = concat (frames_of <$> es) ->
    foldl step_report fs steps = concat (frames_of <$> foldl raise_step es steps)) as H; [|by apply H].
  clear. intros l. induction l as [|s l IH]; intros fs es Hne E; [done|]. cbn [foldl]. apply IH; [|by apply step_frames].
  destruct s; destruct es; done.
Qed.
Lemma raised_nonempty msg steps : raised_by msg steps <> [].
Proof.
  unfold raised_by. assert (forall l es, es <> [] -> foldl raise_step es l <> []) as H; [|by apply H].
  induction l as [|s l IH]; intros es Hne; [done|]. cbn [foldl]. apply IH. destruct s, es; done.
Qed.
Lemma raised_no_context msg steps : Forall attached_only steps ->
  Forall (fun e => Forall no_context (ra_attached e)) (raised_by msg steps).
Proof.
  unfold raised_by. assert (forall l es, Forall attached_only l -> Forall (fun e => Forall no_context (ra_attached e)) es ->
    Forall (fun e => Forall no_context (ra_attached e)) (foldl raise_step es l)) as H.
  { induction l as [|s l IH]; intros es Hl He; [done|]. apply Forall_cons in Hl as [Hs Hl]. cbn [foldl]. apply IH; [done|].
    destruct s as [f|m]; cbn [raise_step].
    - destruct es as [|e es]; [done|]. apply Forall_cons in He as [He1 He]. constructor; [|done]. cbn.
      apply Forall_app; split; [done|]. by repeat constructor.
    - constructor; [constructor|exact He]. }
  intros Hs. apply H; [done|]. by repeat constructor.
Qed.

(** ** Reading one error *)

Lemma one_error_reads fs : forall e rest m, Forall no_context fs ->
  one_error (fs ++ FContext m :: rest) e =
    ({| le_msg := m; le_attachments := le_attachments e ++ omap note fs;
        le_location := default (le_location e) (last (omap place fs));
        le_backtrace := match last (omap trace fs) with Some b => Some (backtrace_lines b) | None => le_backtrace e end |}, rest).
Proof.
  induction fs as [|f fs IH]; intros e rest m Hf.
  - cbn. by rewrite app_nil_r.
  - apply Forall_cons in Hf as [H1 Hf]. destruct f as [|l|b|p|]; [done| | | |]; cbn [app one_error]; rewrite IH by done;
      cbn [le_msg le_attachments le_location le_backtrace omap list_omap note place trace].
    + rewrite last_cons. by destruct (last (omap place fs)).
    + rewrite last_cons. by destruct (last (omap trace fs)).
    + by rewrite <- app_assoc.
    + by rewrite <- app_assoc.
Qed.
Lemma omap_rev {A B} (f : A -> option B) (l : list A) : omap f (rev l) = rev (omap f l).
Proof.
  induction l as [|x l IH]; [done|]. cbn [rev]. rewrite omap_app, IH. cbn. destruct (f x); cbn; [done|]. by rewrite app_nil_r.
Qed.
Lemma last_rev {A} (l : list A) : last (rev l) = head l.
Proof. destruct l as [|x l]; [done|]. cbn [rev]. by rewrite last_snoc. Qed.

Definition lerror_of (e : raised) : lerror :=
  {| le_msg := ra_msg e; le_attachments := omap note (ra_attached e);
     le_location := default "" (head (omap place (ra_attached e)));
     le_backtrace := backtrace_lines <$> head (omap trace (ra_attached e)) |}.
Lemma frames_read e rest : Forall no_context (ra_attached e) ->
  let '(x, r) := one_error (frames_of e ++ rest) le_default in
  {| le_msg := le_msg x; le_attachments := rev (le_attachments x); le_location := le_location x; le_backtrace := le_backtrace x |} =
    lerror_of e /\ r = rest.
Proof.
  intros He. unfold frames_of. rewrite <- app_assoc. cbn [app]. rewrite one_error_reads.
  2: { apply Forall_forall. intros f Hf. rewrite Forall_forall in He. apply He. apply elem_of_list_In, in_rev. by apply elem_of_list_In. }
  cbn [le_msg le_attachments le_location le_backtrace le_default app]. split; [|done]. unfold lerror_of.
  rewrite !omap_rev, rev_involutive, !last_rev. by destruct (head (omap trace (ra_attached e))).
Qed.
Lemma errors_read es : forall n, (length (concat (frames_of <$> es)) <= n)%nat ->
  Forall (fun e => Forall no_context (ra_attached e)) es -> errors_of n (concat (frames_of <$> es)) = lerror_of <$> es.
Proof.
  induction es as [|e es IH]; intros n Hn He; [by destruct n|]. apply Forall_cons in He as [He1 He].
  cbn [fmap list_fmap concat] in Hn |- *. pose proof (frames_read e (concat (frames_of <$> es)) He1) as Hr.
  rewrite app_length in Hn. assert (0 < length (frames_of e))%nat as Hpos. { unfold frames_of. rewrite app_length. cbn. lia. }
  destruct n as [|n]; [lia|]. destruct (frames_of e) as [|f fr] eqn:Ef; [cbn in Hpos; lia|]. cbn [app errors_of].
  cbn [app] in Hr. destruct (one_error (f :: fr ++ concat (frames_of <$> es)) le_default) as [x r]. destruct Hr as [-> ->].
  f_equal. apply IH; [cbn [length] in Hn; lia|done].
Qed.

(** ** The chain *)

Definition link (e : lerror) (c : option loggable) : loggable :=
  {| lg_msg := le_msg e; lg_attachments := le_attachments e; lg_location := le_location e; lg_cause := c; lg_backtrace := le_backtrace e |}.
Fixpoint chained (es : list lerror) : option loggable := match es with [] => None | e :: es' => Some (link e (chained es')) end.
Lemma chain_causes_chained es : chain_causes es = chained es.
Proof.
  unfold chain_causes. induction es as [|e es IH]; [done|]. cbn [rev chained]. rewrite foldl_app. cbn [foldl]. by rewrite IH.
Qed.
Definition le_told (e : lerror) : string * list string * string * option (list string) :=
  (le_msg e, le_attachments e, le_location e, le_backtrace e).
Lemma chained_causes es x : chained es = Some x -> causes x = le_told <$> es.
Proof.
  revert x. induction es as [|e es IH]; intros x; [done|]. cbn [chained]. intros [= <-]. cbn [causes link lg_cause fmap list_fmap].
  f_equal. destruct (chained es) as [c|] eqn:E; [by apply IH|]. by destruct es.
Qed.
Lemma told_lerror (es : list raised) : le_told <$> (lerror_of <$> es) = told <$> es.
Proof. rewrite <- list_fmap_compose. by apply list_fmap_ext. Qed.

Lemma report_read msg steps : Forall attached_only steps ->
  chain_causes (errors_of (length (report_of msg steps)) (report_of msg steps)) = chained (lerror_of <$> raised_by msg steps).
Proof.
  intros Hs. rewrite chain_causes_chained, report_frames. rewrite errors_read; [done|done|by apply raised_no_context].
Qed.
Lemma c108_whole msg steps : Forall attached_only steps -> exists x, loggable_of (report_of msg steps) = Ok x /\
  causes x = told <$> raised_by msg steps.
Proof.
  intros Hs. unfold loggable_of. rewrite report_read by done.
  destruct (chained (lerror_of <$> raised_by msg steps)) as [x|] eqn:E.
  - exists x. split; [done|]. by rewrite (chained_causes _ _ E), told_lerror.
  - exfalso. pose proof (raised_nonempty msg steps). by destruct (raised_by msg steps).
Qed.
Lemma shown_chained debug (es : list raised) x : chained (lerror_of <$> es) = Some x -> shown debug x = join ": " (part debug <$> es).
Proof.
  revert x. induction es as [|e es IH]; intros x; [done|]. cbn [fmap list_fmap chained]. intros [= <-].
  cbn [shown link lg_cause lg_msg lg_attachments]. unfold part at 1. cbn [lerror_of le_msg le_attachments].
  destruct (chained (lerror_of <$> es)) as [c|] eqn:E.
  - rewrite (IH c eq_refl). destruct es as [|e' es]; [done|]. cbn [fmap list_fmap join]. by destruct (omap note (ra_attached e)).
  - destruct es; [|done]. cbn [fmap list_fmap join]. by destruct (omap note (ra_attached e)).
Qed.
Lemma c108_text debug msg steps : Forall attached_only steps -> exists x, loggable_of (report_of msg steps) = Ok x /\
  shown debug x = join ": " (part debug <$> raised_by msg steps).
Proof.
  intros Hs. unfold loggable_of. rewrite report_read by done.
  destruct (chained (lerror_of <$> raised_by msg steps)) as [x|] eqn:E.
  - exists x. split; [done|]. by apply shown_chained.
  - exfalso. pose proof (raised_nonempty msg steps). by destruct (raised_by msg steps).
Qed.

(** ** Any frames *)

Lemma one_error_shorter fs e : fs <> [] -> (length (one_error fs e).2 < length fs)%nat.
Proof.
  revert e. induction fs as [|f fs IH]; intros e Hne; [done|].
  assert (forall e, (length (one_error fs e).2 <= length fs)%nat) as H.
  { intros e'. destruct fs as [|g fs']; [done|]. specialize (IH e' ltac:(done)). lia. }
  destruct f; cbn [one_error snd length]; try (pose proof (H e)); try lia;
    match goal with |- context [one_error fs ?x] => specialize (H x); lia end.
Qed.
Lemma c108_total fs : loggable_of fs = Panic <-> fs = [].
Proof.
  unfold loggable_of. rewrite chain_causes_chained. destruct fs as [|f fs]; [done|]. cbn [length errors_of].
  destruct (one_error (f :: fs) le_default) as [e r]. cbn [chained]. done.
Qed.

(** ** Merged reports *)

Lemma foldl_step_app steps : forall fs gs, foldl step_report (fs ++ gs) steps = foldl step_report fs steps ++ gs.
Proof. induction steps as [|s l IH]; intros fs gs; [done|]. cbn [foldl]. rewrite <- IH. by destruct s. Qed.
Lemma merged_chained a sa b sb : merged (report_of a sa) (report_of b sb) = report_of b (sb ++ ChangeContext a :: sa).
Proof.
  unfold merged, report_of. rewrite foldl_app. cbn [foldl step_report].
  change (FContext a :: foldl step_report [FContext b] sb) with ([FContext a] ++ foldl step_report [FContext b] sb).
  by rewrite foldl_step_app.
Qed.
Lemma merged_ne1 : raised_by "failed to return updated state" [ChangeContext "event sub failed"] <> raised_by "event sub failed" [].
Proof. discriminate. Qed.
Lemma merged_ne2 : raised_by "failed to return updated state" [ChangeContext "event sub failed"] <> raised_by "failed to return updated state" [].
Proof. discriminate. Qed.
Lemma text_ambiguous (debug : string -> string) : exists x y,
  loggable_of (report_of "b" [ChangeContext "a"]) = Ok x /\ loggable_of (report_of "a: b" []) = Ok y /\
  causes x <> causes y /\ shown debug x = shown debug y.
Proof. do 2 eexists. split; [reflexivity|]. split; [reflexivity|]. split; [discriminate|reflexivity]. Qed.

Lemma c108_backtrace s : join (String (ascii_of_N 10) EmptyString) (backtrace_lines s) = s /\
  Forall (fun x => contains (ascii_of_N 10) x = false) (backtrace_lines s).
Proof.
  unfold backtrace_lines. split; [apply join_split|]. apply Forall_forall. intros x. apply split_pieces.
Qed.
