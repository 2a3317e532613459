From Verif Require Import Base BaseLemmas Text TextLemmas StdModel StdSpec RouterTypes RegistryTypes OperatorsModel EncodingModel MultisigTypes
  VerifierModel VerifierSpec EventsModel HandlersModel HandlersSpec HandlersProofs HandlersProofs2 HandlersProofs3 WorkersSpec
  SubscriptionModel SubscriptionSpec SubscriptionProofs2 SubscriptionProofs3 SubscriptionProofs4 QueueModel QueueSpec
  SystemModel DaemonModel DaemonSpec DaemonSpec2 DaemonProofs DaemonProofs2.

(** ** One call *)
Lemma handles acc b58 de_key worker c v ev o : handle acc b58 de_key worker c v ev = Ok o -> concerns worker c (ce_height v) ev ->
  exists tx, o = Some tx /\ does b58 de_key worker c v ev tx.
Proof.
  intros H Hc. destruct c as [a n|a n|a|a|a]; cbn [handle hconfig_of concerns does] in *.
  - destruct Hc as (poll & Hp & Hch). destruct o as [tx|]; [|by destruct (proj1 (evm_msg_ignored _ _ _ _ _ _ H) _ Hp Hch)].
    exists tx. split; [done|]. apply evm_msg_votes in H as (p & confs & gw & js & votes & (_ & (x & Hx & Hpx) & _) & _ & H1 & (y & Hy & Hg) & H3 & -> & H4).
    exists x, p, confs, gw, y, js, votes. done.
  - destruct Hc as (poll & Hp & Hch). destruct o as [tx|]; [|by destruct (proj1 (evm_ws_ignored _ _ _ _ _ _ H) _ Hp Hch)].
    exists tx. split; [done|]. apply evm_ws_vote in H as (p & confs & gw & j & vote & (_ & (x & Hx & Hpx) & _) & _ & H1 & (y & Hy & Hg) & H3 & -> & H4).
    exists x, p, confs, gw, y, j, vote. done.
  - destruct Hc as (Ha & l & w & Hl & Hw). destruct o as [tx|]; [|by destruct (proj1 (multisig_ignored _ _ _ _ _ _ H) _ _ Ha Hl Hw)].
    exists tx. split; [done|]. apply multisig_submits in H as (session & l' & w' & pk & x & digest & sig & _ & H1 & H2 & H3 & H4 & H5 & H6 & H7 & H8 & ->).
    exists session, l', w', pk, x, digest, sig. done.
  - destruct Hc as (poll & Hp). destruct o as [tx|]; [|by destruct (proj1 (sui_msg_ignored _ _ _ _ _ _ _ H) _ Hp)].
    exists tx. split; [done|]. apply sui_msg_votes in H as (p & gw & js & votes & ids & bs & (_ & (x & Hx & Hpx) & _) & (y & Hy & Hg) & H3 & -> & H4 & _ & H5).
    exists x, p, gw, y, js, votes, ids, bs. done.
  - destruct Hc as (poll & Hp). destruct o as [tx|]; [|by destruct (proj1 (sui_ws_ignored _ _ _ _ _ _ _ H) _ Hp)].
    exists tx. split; [done|]. apply sui_ws_vote in H as (p & gw & j & vote & (_ & (x & Hx & Hpx) & _) & (y & Hy & Hg) & H3 & -> & H4).
    exists x, p, gw, y, j, vote. done.
Qed.

Section Runs.
  Context (is_account : string -> bool) (base58 : string -> option string) (de_key : jval -> option string).
  Context (worker : addr).
  Context (decode : string -> option string) (json : string -> option jval).
  Context {B : Type} (estimate : B -> list wasm_tx -> B * option N) (broadcast : B -> list wasm_tx -> B * bool).
  Context (limit : N).
  Notation druns := (run_daemons is_account base58 de_key worker decode json estimate broadcast limit).
  Notation orderly := (orderly (B:=B) decode json is_account base58 de_key worker).

  Lemma runs_do s xs s' log c r k ev :
    druns s xs = (s', log) -> s !! label c = Some r -> Forall (orderly (label c)) log ->
    (forall s0 x y evs, (s0, x, y) ∈ log -> answered decode json (rn_inputs x) k evs -> ev ∈ evs) ->
    (forall s0 x y c' t given, (s0, x, y) ∈ log -> (c', t) ∈ rn_handlers x -> label c' = label c ->
       c' = c /\ (inside k given -> concerns worker c (ce_height (te_calls t given)) ev)) ->
    exists r', s' !! label c = Some r' /\ (r < k -> k <= r' ->
      exists s0 x y t given tx, (s0, x, y) ∈ log /\ (c, t) ∈ rn_handlers x /\ inside k given /\
        does base58 de_key worker c (te_calls t given) ev tx /\ tx ∈ delivered (lb_calls y)).
  Proof.
    intros H Hr Hf Hev Hcfg.
    destruct (runs_serve is_account base58 de_key worker decode json estimate broadcast limit _ _ _ _ _ _ H Hr Hf) as (r' & Hr' & Hk).
    exists r'. split; [done|]. intros Hgt Hle. specialize (Hk k Hgt Hle).
    apply Exists_exists in Hk as ([[s0 x] y] & Hin & c' & t & o & evs & Hl & Hct & Ho & Hans & pre & post & Hgiv & Hserve).
    pose proof (Hev _ _ _ _ Hin Hans) as Hm. apply elem_of_list_split in Hm as (p & q & Hpq).
    destruct (Hcfg _ _ _ _ _ (pre ++ BlockBegin k :: p) Hin Hct Hl) as [-> Hc].
    assert (inside k (pre ++ BlockBegin k :: p)) as Hins.
    { exists pre, p. split; [done|]. intros Hend. apply answered_abci in Hans. rewrite Hpq in Hans.
      rewrite Forall_forall in Hans. apply (end_not_abci k), Hans, elem_of_app. by left. }
    specialize (Hc Hins).
    destruct (Hserve (BlockBegin k :: p) ev (q ++ [BlockEnd k])) as (o' & Hh & Htx).
    { unfold frame. cbn [fst snd]. rewrite Hpq. cbn [app]. by rewrite <- app_assoc. }
    destruct (handles _ _ _ _ _ _ _ _ Hh Hc) as (tx & Eo & Hd).
    exists s0, x, y, t, (pre ++ BlockBegin k :: p), tx. split; [done|]. split; [done|]. split; [done|]. split; [done|]. by apply Htx.
  Qed.

  (** ** How a run ends *)
  Lemma run_exit s (x : drun B) r : run_daemon is_account base58 de_key worker decode json estimate broadcast limit s x = Ok r ->
    (rn_signal x = true -> lb_exit r = if rn_flush x then Ok tt else Err ReturnState) /\
    (rn_signal x = false -> lb_exit r = Ok tt -> rn_flush x = true /\
       match rn_first x with
       | TaskHandlers => forall l o, (l, o) ∈ lb_outcomes r -> ho_end o <> StreamError /\ ho_end o <> HandlerError
       | TaskQueue => (forall e, lb_queue r <> QueueModel.Stopped e) /\ lb_queue r <> Crashed
       | TaskHeight => rn_height x = true
       | _ => True
       end).
  Proof.
    intros H. unfold run_daemon in H. apply rbind_ok in H as (start & _ & H). apply rbind_ok in H as ([hs os] & _ & H).
    destruct (qrun _ _ _ _ _) as [[? calls] q]. injection H as <-. cbn [lb_exit lb_outcomes lb_queue fst snd].
    unfold exit_result. split; intros Hs; rewrite Hs; cbn [rbind].
    - done.
    - intros Hx. apply rbind_ok in Hx as ([] & H1 & H2). destruct (rn_flush x); [|done]. split; [done|].
      destruct (rn_first x); try done.
      + unfold handlers_result in H1. destruct (forallb _ os) eqn:E; [|done]. rewrite forallb_forall in E. intros l o Hin.
        apply elem_of_list_In, E in Hin. cbn in Hin. destruct (ho_end o); try done.
      + unfold queue_result in H1. by destruct q.
      + by destruct (rn_height x).
  Qed.
End Runs.

(** ** Examples *)
From Verif Require Import HandlersExamples DaemonExamples.
Ltac attr := eexists; split; [reflexivity|vm_compute; reflexivity].
Lemma dx_concerns :
  concerns "w1" (EvmMsgVerifier "verifier" "Eth") 49 hx_poll /\
  concerns "w1" (EvmWorkerSetVerifier "verifier" "Eth") 49 hx_ws_poll /\
  concerns "w1" (SuiMsgVerifier "sui verifier") 49 hs_poll /\
  concerns "w1" (SuiWorkerSetVerifier "sui verifier") 49 hs_ws_poll /\
  concerns "w1" (MultisigSigner "multisig") 49 hm_event.
Proof.
  assert (forall a w l e p (n : N) ty attrs, attrs !! "_contract_address" = Some (JStr a) -> attrs !! "poll_id" = Some (JStr p) -> parse_u64 p = Some n ->
    attrs !! "participants" = Some (JArr l) -> JStr w ∈ l -> attrs !! "expires_at" = Some (JNum e) -> 49 < e ->
    forall ch, poll_for {| hc_worker := w; hc_contract := a; hc_chain := ch |} 49 (Abci ty attrs) ty n) as Hp.
  { intros a w l e p n ty attrs H1 H2 H3 H4 H5 H6 H7 ch. split; [by exists attrs|]. split; [exists p; split; [by exists attrs|done]|].
    split; [exists l; split; [by exists attrs|done]|]. exists e. split; [by exists attrs|done]. }
  split; [|split; [|split; [|split]]].
  - exists 7. split; [eapply Hp; try (vm_compute; reflexivity); left|]. eexists. split; [attr|vm_compute; reflexivity].
  - exists 7. split; [eapply Hp; try (vm_compute; reflexivity); left|]. eexists. split; [attr|vm_compute; reflexivity].
  - exists 8. eapply Hp; try (vm_compute; reflexivity); left.
  - exists 8. eapply Hp; try (vm_compute; reflexivity); left.
  - split; [attr|]. eexists _, _. split; [attr|]. left.
Qed.
