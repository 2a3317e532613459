(** What the theorems about event texts are stated with. *)
From Verif Require Import Base Text StdModel VerifierModel EncodingModel EventsModel JsonModel.

(** A value the contracts can write and that nests at most [d] arrays and
    objects: no fractions or negative numbers, 64 bits, no key twice. *)
Inductive readable : nat -> jval -> Prop :=
| readable_null d : readable d JNull
| readable_bool d b : readable d (JBool b)
| readable_num d n : n < 2 ^ 64 -> readable d (JNum n)
| readable_str d s : readable d (JStr s)
| readable_arr d l : Forall (readable d) l -> readable (S d) (JArr l)
| readable_obj d l : NoDup l.*1 -> Forall (fun p => readable d p.2) l -> readable (S d) (JObj l).

(** All its texts are UTF-8, as Rust's strings are. *)
Inductive utf8_value : jval -> Prop :=
| utf8_null : utf8_value JNull
| utf8_bool b : utf8_value (JBool b)
| utf8_num n : utf8_value (JNum n)
| utf8_str s : utf8 s = true -> utf8_value (JStr s)
| utf8_arr l : Forall utf8_value l -> utf8_value (JArr l)
| utf8_obj l : Forall (fun p => utf8 p.1 = true /\ utf8_value p.2) l -> utf8_value (JObj l).

(** spaces, tabs and line ends *)
Fixpoint blank (s : string) : Prop :=
  match s with
  | EmptyString => True
  | String c r => (c = " "%char \/ c = "009"%char \/ c = "010"%char \/ c = "013"%char) /\ blank r
  end.

(** A text that starts with a letter and is none of the three words of JSON. *)
Definition letter (c : ascii) : Prop :=
  (97 <= N_of_ascii c <= 122) \/ (65 <= N_of_ascii c <= 90).
Definition word (s : string) : Prop :=
  (exists c r, s = String c r /\ letter c) /\
  forall b, blank b -> s <> "null" +:+ b /\ s <> "true" +:+ b /\ s <> "false" +:+ b.

(** only the ten decimal digits *)
Fixpoint decimal (s : string) : Prop :=
  match s with
  | EmptyString => True
  | String c r => 48 <= N_of_ascii c <= 57 /\ decimal r
  end.
(** doubles reach to 10^308 and beyond *)
Definition finite_ok (finite : string -> bool) : Prop :=
  forall s, decimal s -> (String.length s <= 308)%nat -> finite s = true.

(** The texts of a message and of a poll are UTF-8. *)
Definition utf8_message (e : tx_event) : Prop :=
  utf8 (te_tx_id e) = true /\ utf8 (te_daddr e) = true /\ utf8 (te_dchain e) = true /\ utf8 (te_src e) = true.
Definition utf8_poll (contract : addr) (m : poll_metadata) : Prop :=
  utf8 contract = true /\ utf8 (pm_chain m) = true /\ utf8 (pm_gateway m) = true /\
  Forall (fun a => utf8 a = true) (pm_participants m).
(** What the daemon makes of an event the node hands out as text. *)
Definition read_event (finite : string -> bool) : string -> text -> option event :=
  event_of_abci base64_to_utf8 (of_json finite).
