(** C108: what is told of an error. *)
From Verif Require Import Base Text ReportModel ReportSpec ReportProofs.

(** The structured error names every error of the report, the outermost first
    and each as the cause of the one before, with its message, everything
    attached to it in the order it was attached, the place it was raised at and
    its backtrace. *)
Theorem C108_whole : forall msg steps, Forall attached_only steps ->
  exists x, loggable_of (report_of msg steps) = Ok x /\ causes x = told <$> raised_by msg steps.
Proof. exact c108_whole. Qed.
Print Assumptions C108_whole.

(** A backtrace is told line by line, nothing of it left out. *)
Theorem C108_backtrace : forall s, join (String (ascii_of_N 10) EmptyString) (backtrace_lines s) = s /\
  Forall (fun x => contains (ascii_of_N 10) x = false) (backtrace_lines s).
Proof. exact c108_backtrace. Qed.
Print Assumptions C108_backtrace.

(** The text of a contract's error, likewise. *)
Theorem C108_text : forall debug msg steps, Forall attached_only steps ->
  exists x, loggable_of (report_of msg steps) = Ok x /\ shown debug x = join ": " (part debug <$> raised_by msg steps).
Proof. exact c108_text. Qed.
Print Assumptions C108_text.

(** No report with a frame in it stops the program. *)
Theorem C108_total : forall fs, loggable_of fs = Panic <-> fs = [].
Proof. exact c108_total. Qed.
Print Assumptions C108_total.

(** the project's own test, and what is raised in it *)
Definition ex_steps : list report_step :=
  [Attach (FLocation "loggable.rs:1:22"); Attach (FBacktrace "a"); Attach (FPrintable "foo1");
   ChangeContext "error2"; Attach (FLocation "loggable.rs:3:14"); Attach (FPrintable "test1"); Attach (FPrintable "test2");
   ChangeContext "error3"; Attach (FLocation "loggable.rs:6:14"); Attach FOpaque].
Example C108_ex_test : Forall attached_only ex_steps /\
  told <$> raised_by "error1" ex_steps =
    [("error3", ["opaque attachment"], "loggable.rs:6:14", None); ("error2", ["test1"; "test2"], "loggable.rs:3:14", None);
     ("error1", ["foo1"], "loggable.rs:1:22", Some ["a"])] /\
  join ": " (part (fun s => """" +:+ s +:+ """") <$> raised_by "error1" ex_steps) =
    "error3 (""opaque attachment""): error2 (""test1"", ""test2""): error1 (""foo1"")".
Proof. split; [repeat constructor|split; vm_compute; reflexivity]. Qed.

(** Two reports put together are told as if the second were the cause of the
    first, although neither caused the other. *)
Theorem C108_merged : forall a sa b sb,
  merged (report_of a sa) (report_of b sb) = report_of b (sb ++ ChangeContext a :: sa).
Proof. exact merged_chained. Qed.
Print Assumptions C108_merged.
(** So the daemon's log does not tell a failed run whose state could not be
    written either from a run that failed because of it. *)
Theorem C108_merged_refuted : exists r1 r2 r, raised_by "event sub failed" [] = r1 /\
  raised_by "failed to return updated state" [] = r2 /\
  raised_by "failed to return updated state" [ChangeContext "event sub failed"] = r /\ r <> r1 /\ r <> r2 /\
  loggable_of (merged (report_of "event sub failed" []) (report_of "failed to return updated state" [])) =
    loggable_of (report_of "failed to return updated state" [ChangeContext "event sub failed"]).
Proof. exact (ex_intro _ _ (ex_intro _ _ (ex_intro _ _ (conj eq_refl (conj eq_refl (conj eq_refl (conj merged_ne1 (conj merged_ne2
  (f_equal loggable_of (merged_chained _ [] _ [])))))))))). Qed.
Print Assumptions C108_merged_refuted.
(** Nor does the text of a contract's error tell where one message ends and the
    next begins. *)
Theorem C108_text_refuted : forall debug, exists x y,
  loggable_of (report_of "b" [ChangeContext "a"]) = Ok x /\ loggable_of (report_of "a: b" []) = Ok y /\
  causes x <> causes y /\ shown debug x = shown debug y.
Proof. exact text_ambiguous. Qed.
Print Assumptions C108_text_refuted.
