(** What is to be known of an error, independently of how reports are kept. *)
From Verif Require Import Base Text ReportModel.

(** An error as it was raised: its message and what was attached to it, in the
    order it was attached. *)
Record raised := { ra_msg : string; ra_attached : list rframe }.

(** The errors of a report, the outermost first: changing the context raises a
    new error, attachments belong to the one raised last. *)
Definition raise_step (es : list raised) (s : report_step) : list raised :=
  match s, es with
  | Attach f, e :: es' => {| ra_msg := ra_msg e; ra_attached := ra_attached e ++ [f] |} :: es'
  | Attach _, [] => []
  | ChangeContext m, _ => {| ra_msg := m; ra_attached := [] |} :: es
  end.
Definition raised_by (msg : string) (steps : list report_step) : list raised :=
  foldl raise_step [{| ra_msg := msg; ra_attached := [] |}] steps.

(** the texts attached *)
Definition note (f : rframe) : option string :=
  match f with FPrintable p => Some p | FOpaque => Some "opaque attachment" | _ => None end.
Definition place (f : rframe) : option string := match f with FLocation l => Some l | _ => None end.
Definition trace (f : rframe) : option string := match f with FBacktrace b => Some b | _ => None end.
Definition no_context (f : rframe) : Prop := match f with FContext _ => False | _ => True end.

(** message, texts, first place and first backtrace of an error *)
Definition told (e : raised) : string * list string * string * option (list string) :=
  (ra_msg e, omap note (ra_attached e), default "" (head (omap place (ra_attached e))),
   backtrace_lines <$> head (omap trace (ra_attached e))).

(** the chain of causes of a structured error *)
Fixpoint causes (e : loggable) : list (string * list string * string * option (list string)) :=
  (lg_msg e, lg_attachments e, lg_location e, lg_backtrace e) ::
  match lg_cause e with None => [] | Some c => causes c end.

(** an error's part of the text *)
Definition part (debug : string -> string) (e : raised) : string :=
  match omap note (ra_attached e) with
  | [] => ra_msg e
  | l => ra_msg e +:+ " (" +:+ join ", " (debug <$> l) +:+ ")"
  end.

(** what is attached is not itself an error *)
Definition attached_only (s : report_step) : Prop := match s with Attach f => no_context f | _ => True end.
