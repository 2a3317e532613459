(** Concrete runs of the daemon: cases that meet the theorems' hypotheses, and
    runs that lose blocks or see them twice. *)
From Verif Require Import Base Text BaseLemmas RouterTypes EventsModel SubscriptionModel SubscriptionSpec
  SubscriptionProofs SubscriptionProofs2 SubscriptionProofs3 SubscriptionProofs4.

Definition sx_decode (x : string) : option string := Some x.
Definition sx_json (_ : string) : option jval := None.
(** every block has one event *)
Definition sx_results : block_results :=
  {| br_begin := None; br_txs := Some [[{| ae_type := "e"; ae_attrs := [] |}]]; br_end := None |}.
Definition sx_tick (latest : N) : sub_input :=
  Tick {| tk_latest := Some latest; tk_block := fun _ => Some sx_results; tk_cancelled := fun _ => false |}.
Definition sx_ev : event := Abci "e" ∅.
Definition sx_block (h : N) : N * list event := (h, [sx_ev]).

Lemma sx_answered l n h : sx_tick n ∈ l -> answered sx_decode sx_json l h [sx_ev].
Proof. intros H. eexists _, sx_results. split; [exact H|]. split; [done|]. repeat constructor. Qed.
Lemma sx_good l from to : from <= to -> to + 1 < HEIGHTS -> good_ticks sx_decode sx_json (to + 1) l (to + 5) ->
  good_ticks sx_decode sx_json from (sx_tick to :: l) (to + 5).
Proof.
  intros Hle Hto H. exists to. split; [lia|]. split; [|done]. split; [done|]. split; [done|]. split; [done|].
  intros h _ _. exists [sx_ev]. eapply (sx_answered _ to). left.
Qed.
Lemma sx_good_ticks : good_ticks sx_decode sx_json 6 [sx_tick 8; sx_tick 8; sx_tick 13] 13.
Proof.
  assert (G : forall from to, to + 1 < HEIGHTS -> good_tick sx_decode sx_json from to
    {| tk_latest := Some to; tk_block := fun _ => Some sx_results; tk_cancelled := fun _ => false |}).
  { intros from to H. split; [done|]. split; [done|]. split; [done|]. intros h _ _. exists [sx_ev]. apply (sx_answered _ to). left. }
  exists 8. split; [done|]. split; [by apply G|]. exists 8. split; [done|]. split; [by apply G|].
  exists 13. split; [done|]. split; [by apply G|]. done.
Qed.

Lemma delivers_all es : delivers es (Item <$> es).
Proof. induction es; constructor; done. Qed.
Lemma no_lag_all h es : no_lag_before h (Item <$> es).
Proof.
  unfold no_lag_before. rewrite <- fmap_take. intros H. apply elem_of_list_fmap in H as (? & ? & _). done.
Qed.

(** The node's latest height goes back from 5 to 3: blocks 4 and 5 come
    (again) after block 5. *)
Lemma sx_regress :
  sub_loop sx_decode sx_json (fun _ => true) [] 5 [sx_tick 5; sx_tick 3; sx_tick 6] =
    (frames (sx_block <$> [5; 4; 5; 6]), SubAt 7).
Proof. vm_compute. reflexivity. Qed.

(** Handlers [a] and [b] start again at different blocks; [a] fails in block 7
    in the first of two runs. *)
Definition sx_env (es : list event) (ok : list event -> event -> bool) : handler_env :=
  {| he_items := Item <$> es; he_ok := ok; he_cancelled := fun _ => false |}.
Definition sx_run (ins : list sub_input) (hs : list (string * handler_env)) : session :=
  {| se_latest := Some 10; se_inputs := ins; se_receivers := fun _ => true; se_handlers := hs; se_crashed := false |}.
Definition sx_fails_in_7 (given : list event) (e : event) : bool :=
  negb (existsb (fun e => match e with BlockBegin 7 => true | _ => false end) given).
Definition sx_start : heights := <["a" := 5]> (<["b" := 4]> ∅).
Definition sx_run1 : session :=
  let es := frames (sx_block <$> [5; 6; 7; 8]) in
  sx_run [sx_tick 8] [("a", sx_env es sx_fails_in_7); ("b", sx_env es (fun _ _ => true))].
Definition sx_run2 : session :=
  let es := frames (sx_block <$> [7; 8; 9]) in
  sx_run [sx_tick 9] [("a", sx_env es (fun _ _ => true)); ("b", sx_env es (fun _ _ => true))].
Lemma sx_runs :
  let (s, log) := run_sessions sx_start [sx_run1; sx_run2] in
  s !! "a" = Some 9 /\ s !! "b" = Some 9 /\ Forall (fair_run sx_decode sx_json "a") log /\
  (fun x : heights * session * list (string * outcome) => (ho_given <$> x.2.*2)) <$> log =
    [ [ frames [sx_block 6] ++ [BlockBegin 7; sx_ev]; frames (sx_block <$> [5; 6; 7; 8]) ];
      [ frames (sx_block <$> [7; 8; 9]); frames [sx_block 9] ] ].
Proof.
  destruct (run_sessions sx_start [sx_run1; sx_run2]) as [s log] eqn:E.
  assert (Es : s = (run_sessions sx_start [sx_run1; sx_run2]).1) by (by rewrite E).
  assert (El : log = (run_sessions sx_start [sx_run1; sx_run2]).2) by (by rewrite E).
  split; [rewrite Es; vm_compute; reflexivity|]. split; [rewrite Es; vm_compute; reflexivity|].
  split; [|rewrite El; vm_compute; reflexivity]. clear E Es.
  assert (Hf : forall s x os, (exists e es, configured x "a" e /\ published sx_decode sx_json s x = Ok es /\ he_items e = Item <$> es) ->
    fair_run sx_decode sx_json "a" (s, x, os)).
  { intros s0 x os (e & es & Hc & Hp & Hi). right. exists e, es. split; [done|]. split; [done|]. rewrite Hi.
    split; [apply delivers_all|]. intros r _. apply no_lag_all. }
  assert (exists s1 o1 o2, log = [(sx_start, sx_run1, o1); (s1, sx_run2, o2)] /\
    published sx_decode sx_json s1 sx_run2 = Ok (frames (sx_block <$> [7; 8; 9]))) as (s1 & o1 & o2 & -> & Hp2).
  { subst log. cbn [run_sessions].
    destruct (run_session sx_start sx_run1) as [[s1 o1]|e|] eqn:E1; [|by vm_compute in E1..].
    assert (min_height s1 = Some 6) as Hm.
    { assert (s1 = match run_session sx_start sx_run1 with Ok (s, _) => s | _ => ∅ end) as -> by (by rewrite E1). vm_compute. reflexivity. }
    assert (exists s2 o2, run_session s1 sx_run2 = Ok (s2, o2)) as (s2 & o2 & ->).
    { assert (s1 = match run_session sx_start sx_run1 with Ok (s, _) => s | _ => ∅ end) as -> by (by rewrite E1). eexists _, _. vm_compute. reflexivity. }
    exists s1, o1, o2. split; [done|]. unfold published, start_from. rewrite Hm. vm_compute. reflexivity. }
  constructor; [|constructor; [|constructor]].
  - apply Hf. eexists _, _. split; [|split; [vm_compute; reflexivity|]]; [eexists [], [_]; split; [reflexivity|]; split; set_solver|].
    vm_compute. reflexivity.
  - apply Hf. eexists _, _. split; [|split; [exact Hp2|]]; [eexists [], [_]; split; [reflexivity|]; split; set_solver|].
    reflexivity.
Qed.

(** [b] lags while it skips the blocks it knows: blocks 6 and 7 are gone, and
    nobody notices. *)
Definition sx_lag_env : handler_env :=
  {| he_items := Lagged :: (Item <$> frames [sx_block 8]); he_ok := fun _ _ => true; he_cancelled := fun _ => false |}.
Definition sx_lag_start : heights := <["a" := 0]> (<["b" := 5]> ∅).
Definition sx_lag_run : session :=
  sx_run [sx_tick 8] [("a", sx_env (frames (sx_block <$> [1; 2; 3; 4; 5; 6; 7; 8])) (fun _ _ => true)); ("b", sx_lag_env)].
Lemma sx_lag :
  published sx_decode sx_json sx_lag_start sx_lag_run = Ok (frames (sx_block <$> [1; 2; 3; 4; 5; 6; 7; 8])) /\
  delivers (frames (sx_block <$> [1; 2; 3; 4; 5; 6; 7; 8])) (he_items sx_lag_env) /\
  exists s' o oa, run_session sx_lag_start sx_lag_run = Ok (s', [("a", oa); ("b", o)]) /\
    sx_lag_start !! "b" = Some 5 /\ s' !! "b" = Some 8 /\
    o = {| ho_given := frames [sx_block 8]; ho_heights := [8]; ho_end := StreamOver |}.
Proof.
  split; [vm_compute; reflexivity|]. split.
  { change (he_items sx_lag_env) with (Lagged :: (Item <$> frames [sx_block 8])).
    replace (frames (sx_block <$> [1; 2; 3; 4; 5; 6; 7; 8])) with (frames (sx_block <$> [1; 2; 3; 4; 5; 6; 7]) ++ frames [sx_block 8]) by reflexivity.
    constructor; [done|]. apply delivers_all. }
  eexists _, _, _. split; [vm_compute; reflexivity|]. split; [vm_compute; reflexivity|]. split; vm_compute; reflexivity.
Qed.

(** [b] has nothing recorded when the first run ends because it failed in its
    first block; the second run starts after the blocks [a] handled. *)
Definition sx_new_run1 : session :=
  let es := frames (sx_block <$> [10; 11]) in
  sx_run [sx_tick 11] [("a", sx_env es (fun _ _ => true)); ("b", sx_env es (fun g _ => match g with [] => true | _ => false end))].
Definition sx_new_run2 : session :=
  let es := frames [sx_block 12] in
  sx_run [sx_tick 12] [("a", sx_env es (fun _ _ => true)); ("b", sx_env es (fun _ _ => true))].
Lemma sx_new :
  published sx_decode sx_json ∅ sx_new_run1 = Ok (frames (sx_block <$> [10; 11])) /\
  exists s1 oa ob s2 oa' ob',
    run_session ∅ sx_new_run1 = Ok (s1, [("a", oa); ("b", ob)]) /\
    ho_given ob = [BlockBegin 10; sx_ev] /\ ho_heights ob = [] /\
    published sx_decode sx_json s1 sx_new_run2 = Ok (frames [sx_block 12]) /\
    run_session s1 sx_new_run2 = Ok (s2, [("a", oa'); ("b", ob')]) /\
    ho_given ob' = frames [sx_block 12] /\ s2 !! "b" = Some 12.
Proof.
  split; [vm_compute; reflexivity|]. eexists _, _, _, _, _, _.
  split; [vm_compute; reflexivity|]. split; [vm_compute; reflexivity|]. split; [vm_compute; reflexivity|].
  split; [vm_compute; reflexivity|]. split; [vm_compute; reflexivity|]. split; vm_compute; reflexivity.
Qed.

(** Two handlers of the same name: the first ends in its first block, the
    height of the other is recorded for both. *)
Definition sx_twice_start : heights := <["a" := 5]> ∅.
Definition sx_twice_run : session :=
  let es := frames (sx_block <$> [6; 7; 8]) in
  sx_run [sx_tick 8] [("a", sx_env es (fun _ _ => true)); ("a", sx_env es (fun _ _ => true))].
Lemma sx_twice :
  published sx_decode sx_json sx_twice_start sx_twice_run = Ok (frames (sx_block <$> [6; 7; 8])) /\
  exists s' o1 o2, run_session sx_twice_start sx_twice_run = Ok (s', [("a", o1); ("a", o2)]) /\
    s' !! "a" = Some 8 /\ ho_given o1 = frames [sx_block 6] /\ ho_end o1 = HandlerError.
Proof.
  split; [vm_compute; reflexivity|]. eexists _, _, _.
  split; [vm_compute; reflexivity|]. split; [vm_compute; reflexivity|]. split; vm_compute; reflexivity.
Qed.

(** *** As stated in SubscriptionProps *)
Lemma not_begin (l : list event) h :
  Forall (fun e => match e with BlockBegin k => (k =? h) = false | _ => True end) l -> BlockBegin h ∉ l.
Proof. intros H Hin. rewrite Forall_forall in H. specialize (H _ Hin). cbn in H. by rewrite N.eqb_refl in H. Qed.
Ltac not_there := apply not_begin; repeat (constructor; [done|]); constructor.
Lemma begin_in h hs : h ∈ hs -> BlockBegin h ∈ frames (sx_block <$> hs).
Proof.
  intros H. apply elem_of_list_split in H as (a & b & ->). rewrite fmap_app, frames_app, fmap_cons, frames_cons.
  apply elem_of_app. right. left.
Qed.
Ltac decide_in := apply begin_in; apply (bool_decide_eq_true_1 _); vm_compute; reflexivity.

Lemma sub_regress : exists decode json ins fs,
  sub_loop decode json (fun _ => true) [] 5 ins = (frames fs, SubAt 7) /\
  fs.*1 = [5; 4; 5; 6] /\ Forall (fun b => answered decode json ins b.1 b.2) fs.
Proof.
  exists sx_decode, sx_json, [sx_tick 5; sx_tick 3; sx_tick 6], (sx_block <$> [5; 4; 5; 6]).
  split; [apply sx_regress|]. split; [done|]. repeat constructor; apply (sx_answered _ 5); left.
Qed.
Lemma lag_loses : exists decode json s x s' os pub e o,
  run_session s x = Ok (s', os) /\ configured x "b" e /\ s !! "b" = Some 5 /\
  published decode json s x = Ok pub /\ delivers pub (he_items e) /\
  BlockBegin 6 ∈ pub /\ BlockBegin 7 ∈ pub /\
  ("b", o) ∈ os /\ s' !! "b" = Some 8 /\ BlockBegin 6 ∉ ho_given o /\ BlockBegin 7 ∉ ho_given o /\ ho_end o = StreamOver.
Proof.
  destruct sx_lag as (Hp & Hd & s' & o & oa & Hs & Hb & Hb' & Ho).
  exists sx_decode, sx_json, sx_lag_start, sx_lag_run, s', [("a", oa); ("b", o)], (frames (sx_block <$> [1; 2; 3; 4; 5; 6; 7; 8])), sx_lag_env, o.
  split; [done|]. split. { eexists [_], []. split; [reflexivity|]. split; set_solver. } split; [done|]. split; [done|]. split; [done|].
  split; [decide_in|]. split; [decide_in|]. split; [right; left|]. split; [done|]. subst o. cbn [ho_given ho_end].
  split; [not_there|]. split; [not_there|done].
Qed.
Lemma new_handler_loses : exists decode json x1 s1 os1 o1 x2 s2 os2 o2 pub1 pub2,
  published decode json ∅ x1 = Ok pub1 /\ BlockBegin 11 ∈ pub1 /\
  run_session ∅ x1 = Ok (s1, os1) /\ ("b", o1) ∈ os1 /\ ho_given o1 = [BlockBegin 10; Abci "e" ∅] /\
  published decode json s1 x2 = Ok pub2 /\
  run_session s1 x2 = Ok (s2, os2) /\ ("b", o2) ∈ os2 /\ BlockBegin 10 ∉ ho_given o2 /\ BlockBegin 11 ∉ ho_given o2 /\
  s2 !! "b" = Some 12.
Proof.
  destruct sx_new as (Hp & s1 & oa & ob & s2 & oa' & ob' & H1 & Hg & _ & Hp2 & H2 & Hg2 & Hb).
  eexists sx_decode, sx_json, sx_new_run1, s1, _, ob, sx_new_run2, s2, _, ob', _, _.
  split; [exact Hp|]. split; [decide_in|]. split; [exact H1|]. split; [right; left|]. split; [exact Hg|].
  split; [exact Hp2|]. split; [exact H2|]. split; [right; left|]. rewrite Hg2. split; [not_there|]. split; [not_there|done].
Qed.
Lemma same_name_loses : exists decode json s x s' os pub o,
  published decode json s x = Ok pub /\ BlockBegin 7 ∈ pub /\ s !! "a" = Some 5 /\
  run_session s x = Ok (s', os) /\ ("a", o) ∈ os /\ BlockBegin 7 ∉ ho_given o /\ ho_end o = HandlerError /\
  s' !! "a" = Some 8.
Proof.
  destruct sx_twice as (Hp & s' & o1 & o2 & Hs & Ha & Hg & He).
  eexists sx_decode, sx_json, sx_twice_start, sx_twice_run, s', _, _, o1.
  split; [exact Hp|]. split; [decide_in|]. split; [vm_compute; reflexivity|]. split; [exact Hs|]. split; [left|].
  rewrite Hg. split; [not_there|done].
Qed.

Lemma sx_read : forall json, json "7" = Some (JNum 7) -> json "eth" = None ->
  exists m, event_of_abci sx_decode json "e" [("a", "eth"); ("b", "7"); ("a", "7"); ("c", "eth")] = Some (Abci "e" m) /\
    m !! "a" = Some (JNum 7) /\ m !! "b" = Some (JNum 7) /\ m !! "c" = Some (JStr "eth") /\ m !! "d" = None.
Proof.
  intros json H7 He. unfold event_of_abci. cbn [kv_pairs]. unfold kv_pair, attr_value. cbn [fst snd sx_decode]. rewrite H7, He.
  cbn [default from_option fmap option_fmap option_map]. eexists. split; [done|]. done.
Qed.
