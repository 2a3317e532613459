From Verif Require Import Base BaseLemmas Text QueueModel QueueSpec QueueProofs BroadcasterModel BroadcasterSpec.

Lemma txs_app {M} (l1 l2 : list (rpc M)) : txs (l1 ++ l2) = txs l1 ++ txs l2.
Proof. unfold txs. apply omap_app. Qed.
Lemma confirmations_app {M} (l1 l2 : list (rpc M)) : confirmations (l1 ++ l2) = confirmations l1 + confirmations l2.
Proof. unfold confirmations. rewrite omap_app, app_length. lia. Qed.

Section Proofs.
  Context {W M : Type}.
  Context (simulate : W -> tx M -> W * option (option N)) (sign : W -> tx M -> W * bool).
  Context (broadcast_tx : W -> tx M -> W * option string) (get_tx : W -> string -> W * tx_answer) (cfg : bconfig).
  Notation estimate_fee := (estimate_fee simulate cfg).
  Notation confirm := (confirm get_tx).
  Notation confirm_tx := (confirm_tx get_tx cfg).
  Notation client_broadcast := (client_broadcast simulate sign broadcast_tx get_tx cfg).
  Notation requests := (requests simulate sign broadcast_tx get_tx cfg).

  Lemma estimate_spec (c : client (W:=W) (M:=M)) ms c' f : estimate_fee c ms = (c', f) ->
    cl_seq c' = cl_seq c /\ exists answer, cl_log c' = cl_log c ++ [RSimulate (dummy_tx ms (cl_seq c)) answer] /\
      ((exists g, answer = Some (Some g) /\ f = Ok (bc_fee cfg g)) \/
       ((forall g, answer <> Some (Some g)) /\ f = Err BGasEstimation)).
  Proof.
    unfold BroadcasterModel.estimate_fee. destruct (simulate (cl_world c) (dummy_tx ms (cl_seq c))) as [w a].
    intros [= <- <-]. split; [done|]. exists a. split; [done|].
    destruct a as [[g|]|]; [left; by exists g|by right..].
  Qed.

  Lemma confirm_spec n (c : client (W:=W) (M:=M)) hash c' r : confirm n c hash = (c', r) ->
    cl_seq c' = cl_seq c /\ exists answers retries, cl_log c' = cl_log c ++ (RGetTx hash <$> answers) /\ Forall retriable retries /\
      ((exists code, answers = retries ++ [TCode code] /\ (length retries < n)%nat /\
          r = if code =? 0 then Ok tt else Err (BExecution code)) \/
       (answers = retries /\ length retries = n /\ r = Err BTxConfirmation)).
  Proof.
    revert c. induction n as [|n IH]; intros c; cbn [BroadcasterModel.confirm].
    - intros [= <- <-]. split; [done|]. exists [], []. rewrite app_nil_r. split; [done|]. split; [by apply Forall_nil|]. by right.
    - destruct (get_tx (cl_world c) hash) as [w a].
      assert (Hretry : retriable a -> confirm n {| cl_seq := cl_seq c; cl_world := w; cl_log := cl_log c ++ [RGetTx hash a] |} hash = (c', r) ->
        cl_seq c' = cl_seq c /\ exists answers retries, cl_log c' = cl_log c ++ (RGetTx hash <$> answers) /\ Forall retriable retries /\
          ((exists code, answers = retries ++ [TCode code] /\ (length retries < S n)%nat /\
              r = if code =? 0 then Ok tt else Err (BExecution code)) \/
           (answers = retries /\ length retries = S n /\ r = Err BTxConfirmation))).
      { intros Ha H. apply IH in H as (Hs & answers & retries & Hl & Hr & H). split; [done|].
        exists (a :: answers), (a :: retries). split; [rewrite Hl; cbn [cl_log]; by rewrite <- app_assoc|].
        split; [by apply Forall_cons|]. destruct H as [(code & -> & Hn & ->)|(-> & Hn & ->)].
        - left. exists code. split; [done|]. split; [cbn; lia|done].
        - right. split; [done|]. split; [cbn; lia|done]. }
      destruct a as [| |code]; [apply Hretry; by left|apply Hretry; by right|].
      assert (Hc : (match code with 0 => ({| cl_seq := cl_seq c; cl_world := w; cl_log := cl_log c ++ [RGetTx hash (TCode code)] |}, Ok tt)
                | N.pos _ => ({| cl_seq := cl_seq c; cl_world := w; cl_log := cl_log c ++ [RGetTx hash (TCode code)] |}, Err (BExecution code)) end)
              = ({| cl_seq := cl_seq c; cl_world := w; cl_log := cl_log c ++ [RGetTx hash (TCode code)] |},
                 if code =? 0 then Ok tt else Err (BExecution code))) by (destruct code; done).
      intros H. assert (H' : ({| cl_seq := cl_seq c; cl_world := w; cl_log := cl_log c ++ [RGetTx hash (TCode code)] |},
                 if code =? 0 then Ok tt else Err (BExecution code)) = (c', r)) by (rewrite <- H; destruct code; done).
      clear H Hc Hretry. injection H' as <- <-. split; [done|]. exists [TCode code], []. split; [done|].
      split; [by apply Forall_nil|]. left. exists code. split; [done|]. split; [cbn; lia|done].
  Qed.

  Lemma confirm_tx_spec (c : client (W:=W) (M:=M)) hash c' r : confirm_tx c hash = (c', r) ->
    cl_seq c' = cl_seq c /\
    ((bc_max_retries cfg + 1 < U32 /\ exists answers, cl_log c' = cl_log c ++ (RGetTx hash <$> answers) /\ concludes (bc_max_retries cfg) answers r)
     \/ (U32 <= bc_max_retries cfg + 1 /\ r = Panic /\ c' = c)).
  Proof.
    unfold BroadcasterModel.confirm_tx, checked. destruct (bc_max_retries cfg + 1 <? U32) eqn:Hu.
    - intros H. apply confirm_spec in H as (Hs & answers & retries & Hl & Hr & H). split; [done|]. left.
      apply N.ltb_lt in Hu. split; [done|]. exists answers. split; [done|]. exists retries. split; [done|].
      destruct H as [(code & -> & Hn & ->)|(-> & Hn & ->)].
      + left. exists code. split; [done|]. split; [lia|done].
      + right. split; [done|]. split; [lia|done].
    - apply N.ltb_ge in Hu. intros [= <- <-]. split; [done|]. by right.
  Qed.

  (** One broadcast: its calls, its result, and the sequence number after it. *)
  Lemma broadcast_spec (c : client (W:=W) (M:=M)) ms c' r : client_broadcast c ms = (c', r) ->
    bc_max_retries cfg + 1 < U32 -> cl_seq c + 1 < U64 ->
    exists calls, cl_log c' = cl_log c ++ calls /\ broadcast_calls cfg (cl_seq c) ms calls r /\
      cl_seq c' = cl_seq c + (if is_ok r then 1 else 0).
  Proof.
    unfold BroadcasterModel.client_broadcast. intros H Hmax Hseq. revert H.
    destruct (estimate_fee c ms) as [c1 f] eqn:He.
    apply estimate_spec in He as (Hs1 & a & Hl1 & [(g & -> & ->)|(Ha & ->)]).
    2: { intros [= <- <-]. exists [RSimulate (dummy_tx ms (cl_seq c)) a]. split; [done|].
         split; [left; by exists a|]. cbn. lia. }
    rewrite Hs1. set (t := Build_tx _ _ _ _ _).
    destruct (sign (cl_world c1) t) as [w2 signed]. destruct signed; cbn [negb].
    2: { intros [= <- <-]. eexists. split; [cbn [cl_log]; by rewrite Hl1, <- app_assoc|].
         split; [right; exists g; by left|]. cbn. lia. }
    cbn [cl_world cl_seq cl_log]. destruct (broadcast_tx w2 t) as [w3 [hash|]].
    2: { intros [= <- <-]. eexists. split; [cbn [cl_log]; by rewrite Hl1, <- !app_assoc|].
         split; [right; exists g; right; by left|]. cbn. lia. }
    destruct (confirm_tx _ hash) as [c4 r4] eqn:Hc.
    apply confirm_tx_spec in Hc as (Hs4 & [(_ & answers & Hl4 & Hcon)|(? & _)]); [|lia].
    cbn [cl_seq cl_log] in Hs4, Hl4.
    assert (Hlog : cl_log c4 = cl_log c ++ [RSimulate (dummy_tx ms (cl_seq c)) (Some (Some g)); RSign t true; RBroadcast t (Some hash)]
                     ++ (RGetTx hash <$> answers)) by (rewrite Hl4, Hl1, <- !app_assoc; done).
    assert (Hcase : r4 = Ok tt \/ exists e, r4 = Err e).
    { destruct Hcon as (rt & _ & [(code & _ & _ & ->)|(_ & _ & ->)]); [destruct (code =? 0)|]; [by left|right; by eexists|right; by eexists]. }
    destruct Hcase as [-> |[e ->]].
    - rewrite Hs4. unfold add_u64, checked. destruct (cl_seq c + 1 <? U64) eqn:Hb; [|apply N.ltb_ge in Hb; lia].
      intros [= <- <-]. eexists. split; [exact Hlog|]. split; [|cbn; lia]. right. exists g. right. right. by exists hash, answers.
    - intros [= <- <-]. eexists. split; [exact Hlog|]. split; [|cbn; lia]. right. exists g. right. right. by exists hash, answers.
  Qed.

  (** Whatever the configuration and the number: the transaction carries the
      number, and the number follows the confirmations unless there is a panic. *)
  Lemma confirmations_gets hash answers max r : concludes max answers r ->
    confirmations (M:=M) (RGetTx hash <$> answers) = if is_ok r then 1 else 0.
  Proof.
    intros (retries & Hr & H).
    assert (H0 : omap (fun r : rpc M => match r with RGetTx _ (TCode 0) => Some tt | _ => None end) (RGetTx hash <$> retries) = []).
    { clear H. induction Hr as [|a l Ha _ IH]; [done|]. destruct Ha as [-> | ->]; apply IH. }
    destruct H as [(code & -> & _ & ->)|(-> & _ & ->)]; unfold confirmations.
    - rewrite fmap_app, omap_app, H0. destruct code; done.
    - by rewrite H0.
  Qed.

  Lemma broadcast_log (c : client (W:=W) (M:=M)) ms c' r : client_broadcast c ms = (c', r) ->
    exists calls, cl_log c' = cl_log c ++ calls /\
      (forall l1 t a l2, calls = l1 ++ RBroadcast t a :: l2 -> tx_seq t = cl_seq c /\ tx_msgs t = ms /\ confirmations l1 = 0) /\
      (r <> Panic -> cl_seq c' = cl_seq c + confirmations calls) /\
      (length (txs calls) <= 1)%nat /\ (is_ok r = true -> length (txs calls) = 1%nat /\ cl_seq c' = cl_seq c + 1).
  Proof.
    unfold BroadcasterModel.client_broadcast.
    destruct (estimate_fee c ms) as [c1 f] eqn:He.
    apply estimate_spec in He as (Hs1 & a & Hl1 & [(g & -> & ->)|(Ha & ->)]).
    2: { intros [= <- <-]. eexists. split; [exact Hl1|]. split.
         { intros [|x l1] t b l2 H; [done|]. injection H as <- H. by destruct l1. }
         split; [intros _; cbn; lia|]. split; [cbn; lia|done]. }
    rewrite Hs1. set (t := Build_tx _ _ _ _ _).
    destruct (sign (cl_world c1) t) as [w2 signed]. destruct signed; cbn [negb].
    2: { intros [= <- <-]. eexists. split; [cbn [cl_log]; by rewrite Hl1, <- app_assoc|]. split.
         { intros [|x [|y l1]] t' b l2 H; [done|done|]. injection H as _ _ H. by destruct l1. }
         split; [intros _; cbn; lia|]. split; [cbn; lia|done]. }
    cbn [cl_world cl_seq cl_log]. destruct (broadcast_tx w2 t) as [w3 [hash|]].
    2: { intros [= <- <-]. eexists. split; [cbn [cl_log]; by rewrite Hl1, <- !app_assoc|]. split.
         { intros [|x [|y [|z l1]]] t' b l2 H; [done|done| |].
           - injection H as <- <- <- _. done.
           - injection H as _ _ _ H. by destruct l1. }
         split; [intros _; cbn; lia|]. split; [cbn; lia|done]. }
    destruct (confirm_tx _ hash) as [c4 r4] eqn:Hc. apply confirm_tx_spec in Hc as (Hs4 & Hc). cbn [cl_seq cl_log] in Hs4, Hc.
    assert (exists gets, cl_log c4 = cl_log c ++ [RSimulate (dummy_tx ms (cl_seq c)) (Some (Some g)); RSign t true; RBroadcast t (Some hash)] ++ gets /\
      (forall x, x ∈ gets -> exists h a, x = RGetTx h a) /\ (r4 <> Panic -> confirmations gets = if is_ok r4 then 1 else 0)) as (gets & Hlog & Hg & Hconf).
    { destruct Hc as [(_ & answers & Hl4 & Hcon)|(_ & -> & ->)].
      - exists (RGetTx hash <$> answers). rewrite Hl4, Hl1, <- !app_assoc. split; [done|].
        split; [intros x (y & -> & _)%elem_of_list_fmap; eauto|]. intros _. by eapply confirmations_gets.
      - exists []. cbn [cl_log]. rewrite Hl1, <- !app_assoc. split; [done|]. split; [set_solver|]. done. }
    assert (Hbr : forall l1 t' a l2, [RSimulate (dummy_tx ms (cl_seq c)) (Some (Some g)); RSign t true; RBroadcast t (Some hash)] ++ gets
        = l1 ++ RBroadcast t' a :: l2 -> tx_seq t' = cl_seq c /\ tx_msgs t' = ms /\ confirmations l1 = 0).
    { intros [|x [|y [|z l1]]] t' b l2 H; [done|done| |].
      - injection H as <- <- <- _. done.
      - injection H as _ _ _ H. exfalso. destruct (Hg (RBroadcast t' b)) as (? & ? & ?); [|done]. rewrite H. set_solver. }
    assert (Htxs : txs ([RSimulate (dummy_tx ms (cl_seq c)) (Some (Some g)); RSign t true; RBroadcast t (Some hash)] ++ gets) = [t]).
    { rewrite txs_app. cbn. f_equal. clear -Hg. induction gets as [|x l IH]; [done|].
      destruct (Hg x) as (h & a & ->); [set_solver|]. apply IH. set_solver. }
    assert (Hcf : confirmations ([RSimulate (dummy_tx ms (cl_seq c)) (Some (Some g)); RSign t true; RBroadcast t (Some hash)] ++ gets) = confirmations gets).
    { rewrite confirmations_app. cbn. lia. }
    destruct r4 as [[]|e|].
    - specialize (Hconf ltac:(done)). cbn in Hconf.
      rewrite Hs4. unfold add_u64, checked. destruct (cl_seq c + 1 <? U64).
      + intros [= <- <-]. eexists. split; [exact Hlog|]. split; [exact Hbr|]. split; [intros _; cbn [cl_seq]; rewrite Hcf, Hconf; lia|].
        rewrite Htxs. split; [done|]. intros _. split; [done|]. cbn [cl_seq]. lia.
      + intros [= <- <-]. eexists. split; [exact Hlog|]. split; [exact Hbr|]. split; [done|]. rewrite Htxs. split; [done|]. done.
    - specialize (Hconf ltac:(done)). cbn in Hconf.
      intros [= <- <-]. eexists. split; [exact Hlog|]. split; [exact Hbr|]. split; [intros _; rewrite Hcf, Hconf; lia|].
      rewrite Htxs. split; [done|]. done.
    - intros [= <- <-]. eexists. split; [exact Hlog|]. split; [exact Hbr|]. split; [done|]. rewrite Htxs. split; [done|]. done.
  Qed.

  Lemma requests_seq (c : client (W:=W) (M:=M)) rs c' alive : requests c rs = (c', alive) ->
    exists new, cl_log c' = cl_log c ++ new /\
      (forall l1 t a l2, new = l1 ++ RBroadcast t a :: l2 -> tx_seq t = cl_seq c + confirmations l1) /\
      (alive = true -> cl_seq c' = cl_seq c + confirmations new).
  Proof.
    revert c. induction rs as [|r rs IH]; intros c; cbn [BroadcasterModel.requests].
    - intros [= <- <-]. exists []. rewrite app_nil_r. split; [done|]. split; [intros [] *; done|]. intros _. cbn. lia.
    - assert (Hstep : forall c1 al, request_step simulate sign broadcast_tx get_tx cfg c r = (c1, al) ->
        exists calls, cl_log c1 = cl_log c ++ calls /\
          (forall l1 t a l2, calls = l1 ++ RBroadcast t a :: l2 -> tx_seq t = cl_seq c + confirmations l1) /\
          (al = true -> cl_seq c1 = cl_seq c + confirmations calls)).
      { intros c1 al. unfold request_step. destruct r as [ms|ms].
        - destruct (estimate_fee c ms) as [c2 f] eqn:He. apply estimate_spec in He as (Hs & a & Hl & _).
          intros [= <- _]. eexists. split; [exact Hl|]. split.
          + intros [|x l1] t b l2 H; [done|]. injection H as _ H. by destruct l1.
          + intros _. cbn. lia.
        - destruct (client_broadcast c ms) as [c2 f] eqn:He. apply broadcast_log in He as (calls & Hl & Hb & Hs & _).
          intros [= <- <-]. exists calls. split; [done|]. split.
          + intros l1 t b l2 H. destruct (Hb _ _ _ _ H) as (-> & _ & ->). lia.
          + intros Ha. apply Hs. by destruct f. }
      destruct (request_step simulate sign broadcast_tx get_tx cfg c r) as [c1 al].
      destruct (Hstep _ _ eq_refl) as (calls & Hl & Hb & Hs). destruct al.
      2: { intros [= <- <-]. exists calls. done. }
      intros H. apply IH in H as (new & Hl2 & Hb2 & Hs2). specialize (Hs eq_refl).
      exists (calls ++ new). split; [by rewrite Hl2, Hl, app_assoc|]. split.
      + intros l1 t a l2 H. apply app_eq_app in H as (k & [(-> & H)|(-> & H)]).
        * destruct k as [|x k]; cbn in H.
          -- rewrite app_nil_r in Hs. rewrite (Hb2 [] t a l2) by done. rewrite Hs. cbn. lia.
          -- injection H as <- ->. by apply (Hb l1 t a k).
        * rewrite (Hb2 k t a l2) by done. rewrite Hs, confirmations_app. lia.
      + intros Ha. rewrite (Hs2 Ha), Hs, confirmations_app. lia.
  Qed.
End Proofs.
