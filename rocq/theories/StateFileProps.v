(** C107: the file the worker daemon keeps its state in. *)
From Verif Require Import Base Text StdModel EventsModel JsonModel WireModel HandlersModel HandlersExamples SubscriptionModel
  SubscriptionSpec SubscriptionExamples QueueModel QueueSpec DaemonModel DaemonSpec DaemonExamples
  StateFileModel StateFileSpec StateFileProofs StateFileProofs2 StateFileExamples.

(** Whatever order the handlers are written in, the state written is the state
    read. *)
Theorem C107_read_back : forall e_key d_key, keys_read_back e_key d_key ->
  forall s t, text_of_state e_key s t -> load d_key (Holds t) = Ok s.
Proof. exact state_read_back. Qed.
Print Assumptions C107_read_back.
Example C107_ex_orders : keys_read_back fx_e_key fx_d_key /\
  text_of_state fx_e_key fx_two "{""handlers"":{""a"":""5"",""b"":""7""},""pub_key"":null}" /\
  text_of_state fx_e_key fx_two "{""handlers"":{""b"":""7"",""a"":""5""},""pub_key"":null}".
Proof. exact (conj fx_keys fx_orders). Qed.

(** Whatever text is read, the heights are those it names: those handlers and
    no others. *)
Theorem C107_says : forall d_key t s, load d_key (Holds t) = Ok s -> exists v ms, of_wire t = Some v /\ names_handlers v ms /\
  (forall l n, ds_handlers s !! l = Some n -> exists x, (l, JStr x) ∈ ms /\ parse_uint U64 x = Some n) /\
  (forall l, l ∈ ms.*1 -> is_Some (ds_handlers s !! l)).
Proof. exact load_said. Qed.
Print Assumptions C107_says.

(** If writing ends early, nothing else is read from what is there: the file is
    refused, *)
Theorem C107_cut_short : forall e_key d_key, keys_read_back e_key d_key ->
  forall s p q, text_of_state e_key s (p +:+ q) -> q <> "" -> load d_key (Holds p) = Err InvalidState.
Proof. exact (fun e_key d_key Hk s p q Ht Hq => state_cut e_key d_key Hk s _ p q Ht eq_refl Hq). Qed.
Print Assumptions C107_cut_short.
(** ... at this and every later start, and left as it is. *)
Theorem C107_refused : forall e_key d_key acc b58 de_key worker decode json B estimate broadcast limit f (xs : list (drun B)) f' log,
  load d_key f = Err InvalidState ->
  starts e_key d_key acc b58 de_key worker decode json estimate broadcast limit f xs f' log -> f' = f /\ log = [].
Proof. exact (fun e_key d_key acc b58 de_key worker decode json B => @refused_for_good e_key d_key acc b58 de_key worker decode json B). Qed.
Print Assumptions C107_refused.

(** However often the daemon is started over the file, and however its runs
    end, those that ran did what they would have done one after the other with
    the heights handed on directly, and these heights are in the file, unless it
    is refused from now on. *)
Theorem C107_starts : forall e_key d_key, keys_read_back e_key d_key ->
  forall acc b58 de_key worker decode json B estimate broadcast limit f (xs : list (drun B)) f' log,
  starts e_key d_key acc b58 de_key worker decode json estimate broadcast limit f xs f' log -> forall s, load d_key f = Ok s ->
  exists h, run_daemons acc b58 de_key worker decode json estimate broadcast limit (ds_handlers s) ((fun e => e.1.2) <$> log) =
      (h, (fun e => (ds_handlers e.1.1, e.1.2, e.2)) <$> log) /\
    ((exists k, load d_key f' = Ok {| ds_handlers := h; ds_key := k |} /\ (forall k0, ds_key s = Some k0 -> k = Some k0)) \/
     load d_key f' = Err InvalidState).
Proof. exact (fun e_key d_key Hk acc b58 de_key worker decode json B => @starts_run e_key d_key Hk acc b58 de_key worker decode json B). Qed.
Print Assumptions C107_starts.
(** So the blocks up to the height the file names for a handler were handled
    and what they called for was broadcast, under C91's conditions on the runs. *)
Theorem C107_served : forall e_key d_key, keys_read_back e_key d_key ->
  forall acc b58 de_key worker decode json B estimate broadcast limit f (xs : list (drun B)) f' log s s' l r,
  starts e_key d_key acc b58 de_key worker decode json estimate broadcast limit f xs f' log ->
  load d_key f = Ok s -> load d_key f' = Ok s' -> ds_handlers s !! l = Some r ->
  Forall (orderly decode json acc b58 de_key worker l) ((fun e => (ds_handlers e.1.1, e.1.2, e.2)) <$> log) ->
  exists r', ds_handlers s' !! l = Some r' /\ forall k, r < k -> k <= r' ->
    Exists (served_in decode json acc b58 de_key worker l k) ((fun e => (ds_handlers e.1.1, e.1.2, e.2)) <$> log).
Proof. exact (fun e_key d_key Hk acc b58 de_key worker decode json B => @starts_serve e_key d_key Hk acc b58 de_key worker decode json B). Qed.
Print Assumptions C107_served.
(** The key once in the file is the key of every later run and command; the key
    daemon is not asked again. *)
Theorem C107_key : forall e_key d_key, keys_read_back e_key d_key ->
  forall acc b58 de_key worker decode json B estimate broadcast limit f (xs : list (drun B)) f' log s s' k,
  starts e_key d_key acc b58 de_key worker decode json estimate broadcast limit f xs f' log ->
  load d_key f = Ok s -> load d_key f' = Ok s' -> ds_key s = Some k ->
  ds_key s' = Some k /\ forall t cf, worker_key (ds_key s') t cf = Ok k.
Proof. exact (fun e_key d_key Hk acc b58 de_key worker decode json B => @starts_key_used e_key d_key Hk acc b58 de_key worker decode json B). Qed.
Print Assumptions C107_key.
(** three starts, the second run killed before it writes *)
Example C107_ex_starts : exists f' log s', fx_starts (Holds fx_text) [dx_run1 true true; fx_killed dx_run2; dx_run2] f' log /\
  length log = 3%nat /\ load fx_d_key f' = Ok s' /\ ds_handlers s' !! "Eth-msg-verifier" = Some 9 /\ ds_key s' = Some "k".
Proof. exact fx_three. Qed.
(** the file the first of them starts from, and texts not written by the daemon *)
Example C107_ex_texts : text_of_state fx_e_key (fx_state 5) fx_text /\ is_ok (load fx_d_key (Holds "")) = false /\
  is_ok (load fx_d_key (Holds "{""handlers"":{""a"":""5""}}")) = true /\
  is_ok (load fx_d_key (Holds " [ {""a"":""5""} , null ] ")) = true /\
  is_ok (load fx_d_key (Holds "{""handlers"":{""a"":5}}")) = false /\
  is_ok (load fx_d_key (Holds "{""pub_key"":null}")) = false /\
  is_ok (load fx_d_key (Holds "{""handlers"":{},""since"":[1.5,-2]}")) = true /\
  is_ok (load fx_d_key (Holds "{""handlers"":{},""handlers"":{}}")) = false.
Proof. exact (conj fx_text_ok fx_other). Qed.

(** But a file that cannot be read at all is taken for a first start: the daemon
    begins at the node's latest block, and what it then writes takes the place
    of the heights that were there. A poll opened in block 15 is never looked
    at, although the file has 20 for its handler and had 5 before. *)
Theorem C107_unreadable_refuted : text_of_state fx_e_key (fx_state 5) fx_text /\
  (exists tx, handle hx_acc hs_b58 hm_key "w1" (EvmMsgVerifier "verifier" "Eth") (dx_calls 49 []) hx_poll = Ok (Some tx)) /\
  answered sx_decode (dx_json hx_poll) (rn_inputs fx_fresh) 15 [hx_poll] /\
  exists f' r s', fx_started NoText fx_fresh f' (Some ({| ds_handlers := ∅; ds_key := None |}, fx_fresh, r)) /\
    load fx_d_key f' = Ok s' /\ ds_handlers s' !! "Eth-msg-verifier" = Some 20 /\
    ho_given <$> (lb_outcomes r).*2 = [frame (20, [])] /\ delivered (lb_calls r) = [].
Proof. exact (conj fx_text_ok (conj fx_handle (conj fx_answered fx_unread))). Qed.
Print Assumptions C107_unreadable_refuted.
