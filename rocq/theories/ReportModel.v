(** Model of packages/report: how an error report of the error-stack library
    becomes the structured error that is logged and the text a contract's
    caller is told (packages/axelar-wasm-std/src/error.rs:11-25,
    axelar-wasm-std-derive/src/lib.rs:6-24). *)
From Verif Require Import Base Text.

(** The frames of a report (loggable.rs:114-146 [FrameType]). Opaque
    attachments are those of other types than the ones listed. *)
Inductive rframe :=
| FContext (msg : string)
| FLocation (loc : string)
| FBacktrace (text : string)
| FPrintable (text : string)
| FOpaque.

(** error-stack, which is not part of the repository: what can be done with a
    report, as a list of frames with the latest first. Making a report and
    changing its context also attach the place in the source, and making one
    may attach a backtrace: these are attachments like any other here. *)
Inductive report_step := Attach (f : rframe) | ChangeContext (msg : string).
Definition step_report (fs : list rframe) (s : report_step) : list rframe :=
  match s with Attach f => f :: fs | ChangeContext m => FContext m :: fs end.
Definition report_of (msg : string) (steps : list report_step) : list rframe :=
  foldl step_report [FContext msg] steps.
(** [Report::extend_one] (commands/daemon.rs:17-20): frames are gone through
    one report after the other. *)
Definition merged (r1 r2 : list rframe) : list rframe := r1 ++ r2.

(** loggable.rs:11-18 [LoggableError] *)
Inductive loggable := Loggable {
  lg_msg : string;
  lg_attachments : list string;
  lg_location : string;
  lg_cause : option loggable;
  lg_backtrace : option (list string);
}.
(** the same without its cause, while it is being put together *)
Record lerror := {
  le_msg : string;
  le_attachments : list string;
  le_location : string;
  le_backtrace : option (list string);
}.
Definition le_default : lerror := {| le_msg := ""; le_attachments := []; le_location := ""; le_backtrace := None |}.

(** loggable.rs:97-112: [split('\n')] *)
Definition backtrace_lines (s : string) : list string := split (ascii_of_N 10) s.

(** loggable.rs:50-80, the inner loop: one error, and the frames that are left *)
Fixpoint one_error (fs : list rframe) (e : lerror) : lerror * list rframe :=
  match fs with
  | [] => (e, [])
  | FContext m :: fs' =>
      ({| le_msg := m; le_attachments := le_attachments e; le_location := le_location e; le_backtrace := le_backtrace e |}, fs')
  | FLocation l :: fs' =>
      one_error fs' {| le_msg := le_msg e; le_attachments := le_attachments e; le_location := l; le_backtrace := le_backtrace e |}
  | FPrintable p :: fs' =>
      one_error fs' {| le_msg := le_msg e; le_attachments := le_attachments e ++ [p]; le_location := le_location e;
                       le_backtrace := le_backtrace e |}
  | FOpaque :: fs' =>
      one_error fs' {| le_msg := le_msg e; le_attachments := le_attachments e ++ ["opaque attachment"];
                       le_location := le_location e; le_backtrace := le_backtrace e |}
  | FBacktrace b :: fs' =>
      one_error fs' {| le_msg := le_msg e; le_attachments := le_attachments e; le_location := le_location e;
                       le_backtrace := Some (backtrace_lines b) |}
  end.
(** loggable.rs:47-86, the outer loop; [n] bounds the number of errors. *)
Fixpoint errors_of (n : nat) (fs : list rframe) : list lerror :=
  match n, fs with
  | S n', _ :: _ =>
      let '(e, rest) := one_error fs le_default in
      {| le_msg := le_msg e; le_attachments := rev (le_attachments e); le_location := le_location e;
         le_backtrace := le_backtrace e |} :: errors_of n' rest
  | _, _ => []
  end.
(** loggable.rs:91-101 *)
Definition chain_causes (es : list lerror) : option loggable :=
  foldl (fun acc e => Some {| lg_msg := le_msg e; lg_attachments := le_attachments e; lg_location := le_location e;
                              lg_cause := acc; lg_backtrace := le_backtrace e |}) None (rev es).
(** loggable.rs:43-89 [LoggableError::from] *)
Definition loggable_of (fs : list rframe) : res Empty_set loggable :=
  match chain_causes (errors_of (length fs) fs) with Some e => Ok e | None => Panic end.

Section Display.
  (** Rust's [{:?}] of a string *)
  Context (debug : string -> string).
  (** loggable.rs:20-40 [Display]. It is the text of [ContractError]
      (error.rs:12-17, [transparent]). *)
  Fixpoint shown (e : loggable) : string :=
    let msg := match lg_attachments e with
               | [] => lg_msg e
               | _ => lg_msg e +:+ " (" +:+ join ", " (debug <$> lg_attachments e) +:+ ")"
               end in
    match lg_cause e with
    | None => msg
    | Some c => msg +:+ ": " +:+ shown c
    end.
End Display.
