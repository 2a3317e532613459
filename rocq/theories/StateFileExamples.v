(** Examples for C107. *)
From Verif Require Import Base BaseLemmas Text TextLemmas StdModel EventsModel JsonModel JsonSpec JsonProofs JsonProofs2 WireModel WireProofs
  HandlersModel HandlersExamples SubscriptionModel SubscriptionSpec SubscriptionExamples QueueModel QueueSpec DaemonModel DaemonSpec DaemonExamples
  StateFileModel StateFileSpec StateFileProofs StateFileProofs2.

(** the JSON of a secp256k1 key as cosmrs writes it *)
Definition fx_e_key (k : string) : jval :=
  JObj [("@type", JStr "/cosmos.crypto.secp256k1.PubKey"); ("key", JStr (to_base64 k))].
Definition fx_d_key : jval -> option string :=
  struct ["@type"; "key"] (fun l => fld l "@type" d_str (fun t =>
    if String.eqb t "/cosmos.crypto.secp256k1.PubKey" then fld l "key" d_str (fun k => of_base64 k) else None)).
Lemma fx_keys : keys_read_back fx_e_key fx_d_key.
Proof.
  intros k. split; [|split; [done|]].
  - unfold fx_e_key. change 100%nat with (S 99). constructor.
    + cbn. repeat constructor; set_solver.
    + repeat constructor.
  - unfold fx_d_key, fx_e_key, struct. cbn -[of_base64 to_base64]. by rewrite of_to_base64.
Qed.

Definition fx_state (h : N) : dstate := {| ds_handlers := dx_heights "Eth-msg-verifier" h; ds_key := Some "k" |}.
Definition fx_text : string :=
  "{""handlers"":{""Eth-msg-verifier"":""5""},""pub_key"":{""@type"":""/cosmos.crypto.secp256k1.PubKey"",""key"":""aw==""}}".
Lemma fx_text_ok : text_of_state fx_e_key (fx_state 5) fx_text.
Proof.
  exists [("Eth-msg-verifier", 5)]. split; [|split; [by repeat constructor|vm_compute; reflexivity]].
  change (map_to_list (ds_handlers (fx_state 5))) with (map_to_list ({[ "Eth-msg-verifier" := 5 ]} : gmap string N)). by rewrite map_to_list_singleton.
Qed.
(** two handlers, in either order *)
Definition fx_two : dstate := {| ds_handlers := {[ "a" := 5; "b" := 7 ]}; ds_key := None |}.
Lemma fx_orders : text_of_state fx_e_key fx_two "{""handlers"":{""a"":""5"",""b"":""7""},""pub_key"":null}" /\
  text_of_state fx_e_key fx_two "{""handlers"":{""b"":""7"",""a"":""5""},""pub_key"":null}".
Proof.
  assert ([("a", 5); ("b", 7)] ≡ₚ map_to_list (ds_handlers fx_two)) as Hp.
  { change (map_to_list (ds_handlers fx_two)) with (map_to_list (<["a" := 5]> ({[ "b" := 7 ]} : gmap string N))). rewrite map_to_list_insert by by rewrite lookup_singleton_ne.
    by rewrite map_to_list_singleton. }
  split.
  - exists [("a", 5); ("b", 7)]. split; [exact Hp|]. split; [by repeat constructor|vm_compute; reflexivity].
  - exists [("b", 7); ("a", 5)]. split; [rewrite <- Hp; apply Permutation_swap|]. split; [by repeat constructor|vm_compute; reflexivity].
Qed.
(** texts the daemon does not write itself *)
Lemma fx_other : is_ok (load fx_d_key (Holds "")) = false /\
  is_ok (load fx_d_key (Holds "{""handlers"":{""a"":""5""}}")) = true /\
  is_ok (load fx_d_key (Holds " [ {""a"":""5""} , null ] ")) = true /\
  is_ok (load fx_d_key (Holds "{""handlers"":{""a"":5}}")) = false /\
  is_ok (load fx_d_key (Holds "{""pub_key"":null}")) = false /\
  is_ok (load fx_d_key (Holds "{""handlers"":{},""since"":[1.5,-2]}")) = true /\
  is_ok (load fx_d_key (Holds "{""handlers"":{},""handlers"":{}}")) = false.
Proof. repeat split; vm_compute; reflexivity. Qed.

Definition fx_killed (x : drun bool) : drun bool :=
  {| rn_latest := rn_latest x; rn_inputs := rn_inputs x; rn_receivers := rn_receivers x; rn_handlers := rn_handlers x;
     rn_broadcaster := rn_broadcaster x; rn_queue := rn_queue x; rn_height := rn_height x; rn_first := rn_first x;
     rn_signal := rn_signal x; rn_flush := rn_flush x; rn_killed := true |}.
(** a first start when the node is at height 20: the daemon begins there *)
Definition fx_fresh : drun bool :=
  {| rn_latest := Some 20; rn_inputs := [Tick (dx_tick hx_poll 15 20)]; rn_receivers := fun _ => true;
     rn_handlers := [(EvmMsgVerifier "verifier" "Eth", dx_task 49 (dx_frames hx_poll 15 [20]))];
     rn_broadcaster := true; rn_queue := [QTick; QClose]; rn_height := true; rn_first := TaskQueue; rn_signal := true;
     rn_flush := true; rn_killed := false |}.

Notation fx_started := (started fx_e_key fx_d_key hx_acc hs_b58 hm_key "w1" sx_decode (dx_json hx_poll) dx_estimate dx_broadcast 10).
Notation fx_starts := (starts fx_e_key fx_d_key hx_acc hs_b58 hm_key "w1" sx_decode (dx_json hx_poll) dx_estimate dx_broadcast 10).

Definition small (m : heights) : bool := forallb (fun p => p.2 <? U64) (map_to_list m).
Lemma text_exists e_key s : small (ds_handlers s) = true -> text_of_state e_key s (state_text e_key (map_to_list (ds_handlers s)) (ds_key s)).
Proof.
  intros H. exists (map_to_list (ds_handlers s)). split; [done|]. split; [|done]. unfold small in H.
  apply Forall_forall. intros p Hp. rewrite forallb_forall in H. apply N.ltb_lt, H. by apply elem_of_list_In.
Qed.
(** a run that ends by itself *)
Lemma fx_runs f x s k : load fx_d_key f = Ok s -> rn_killed x = false -> rn_flush x = true -> key_used (ds_key s) k ->
  is_ok (dx_daemon hx_poll (ds_handlers s) x) = true ->
  small (final_heights (ds_handlers s) (lb_outcomes (dx_out (dx_daemon hx_poll (ds_handlers s) x)))) = true ->
  exists f', fx_started f x f' (Some (s, x, dx_out (dx_daemon hx_poll (ds_handlers s) x))) /\
    load fx_d_key f' = Ok {| ds_handlers := final_heights (ds_handlers s) (lb_outcomes (dx_out (dx_daemon hx_poll (ds_handlers s) x)));
                             ds_key := Some k |}.
Proof.
  intros Hs Hk Hf Hu Ho Hb. eexists. split.
  - eapply start_ran; [exact Hs|apply dx_out_ok, Ho|exact Hu|]. rewrite Hk, Hf. apply flush_done, text_exists. exact Hb.
  - apply (state_read_back fx_e_key fx_d_key fx_keys), text_exists. exact Hb.
Qed.
Lemma fx_run_killed f x s k : load fx_d_key f = Ok s -> rn_killed x = true -> key_used (ds_key s) k ->
  is_ok (dx_daemon hx_poll (ds_handlers s) x) = true ->
  fx_started f x f (Some (s, x, dx_out (dx_daemon hx_poll (ds_handlers s) x))).
Proof.
  intros Hs Hk Hu Ho. eapply start_ran; [exact Hs|apply dx_out_ok, Ho|exact Hu|]. rewrite Hk. apply flush_before.
Qed.
Lemma fx_three : exists f' log s', fx_starts (Holds fx_text) [dx_run1 true true; fx_killed dx_run2; dx_run2] f' log /\
  length log = 3%nat /\ load fx_d_key f' = Ok s' /\ ds_handlers s' !! "Eth-msg-verifier" = Some 9 /\ ds_key s' = Some "k".
Proof.
  pose proof (state_read_back fx_e_key fx_d_key fx_keys _ _ fx_text_ok) as H0.
  destruct (fx_runs (Holds fx_text) (dx_run1 true true) (fx_state 5) "k" H0 eq_refl eq_refl eq_refl
    ltac:(vm_compute; reflexivity) ltac:(vm_compute; reflexivity)) as (f1 & S1 & L1).
  pose proof (fx_run_killed f1 (fx_killed dx_run2) _ "k" L1 eq_refl eq_refl ltac:(vm_compute; reflexivity)) as S2.
  destruct (fx_runs f1 dx_run2 _ "k" L1 eq_refl eq_refl eq_refl
    ltac:(vm_compute; reflexivity) ltac:(vm_compute; reflexivity)) as (f3 & S3 & L3).
  eexists f3, _, _. split; [|split; [|split; [exact L3|split; [vm_compute; reflexivity|reflexivity]]]].
  - eapply starts_more; [exact S1|]. eapply starts_more; [exact S2|]. eapply starts_more; [exact S3|apply starts_none].
  - reflexivity.
Qed.
(** A file that cannot be read is taken for a first start. *)
Lemma fx_unread : exists f' r s', fx_started NoText fx_fresh f' (Some ({| ds_handlers := ∅; ds_key := None |}, fx_fresh, r)) /\
  load fx_d_key f' = Ok s' /\ ds_handlers s' !! "Eth-msg-verifier" = Some 20 /\
  ho_given <$> (lb_outcomes r).*2 = [frame (20, [])] /\ delivered (lb_calls r) = [].
Proof.
  destruct (fx_runs NoText fx_fresh {| ds_handlers := ∅; ds_key := None |} "other" eq_refl eq_refl eq_refl I
    ltac:(vm_compute; reflexivity) ltac:(vm_compute; reflexivity)) as (f1 & S1 & L1).
  eexists f1, _, _. split; [exact S1|]. split; [exact L1|]. split; [vm_compute; reflexivity|]. split; vm_compute; reflexivity.
Qed.
Lemma fx_handle : exists tx, handle hx_acc hs_b58 hm_key "w1" (EvmMsgVerifier "verifier" "Eth") (dx_calls 49 []) hx_poll = Ok (Some tx).
Proof. exists (dx_vote "w1"). vm_compute. reflexivity. Qed.
Lemma fx_answered : answered sx_decode (dx_json hx_poll) (rn_inputs fx_fresh) 15 [hx_poll].
Proof.
  destruct dx_hx_poll as (ty & m & Hp). exists (dx_tick hx_poll 15 20). eexists.
  split; [left|]. split; [reflexivity|]. change (15 =? 15) with true. cbn [br_begin br_txs br_end default concat app].
  rewrite Hp. change (concat (id [[dx_raw (Abci ty m)]]) ++ []) with [dx_raw (Abci ty m)]. constructor; [apply dx_reads|constructor].
Qed.
