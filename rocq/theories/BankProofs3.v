(** Transactions the bank cannot refuse; what claims and distributions pay. *)
From Verif Require Import Base BaseLemmas MapLemmas Text StdModel StdProofs RouterTypes RegistryTypes OperatorsModel MultisigTypes
  RouterModel GatewayModel NexusModel RewardsModel RewardsSpec RewardsProofs RewardsProofs3 RegistryModel RegistrySpec RegistryProofs VerifierModel MultisigModel
  EncodingModel ProverModel SystemModel SystemSpec SystemProofs SystemProofs3 SystemProofs9 BankModel BankSpec BankProofs BankProofs2.

Section Free.
  Context (keccak : string -> string) (wshash : worker_set -> string)
          (sec1 : string -> option string)
          (crypto : key_type -> string -> string -> string -> option bool) (zero : bool).
  Notation fstep := (funded_step keccak wshash sec1 crypto zero).
  Notation frun := (funded_run keccak wshash sec1 crypto zero).
  Notation sstep := (system_step keccak wshash sec1 crypto).

  Lemma pay_calls_err st calls : forall others n b e, pay_calls zero st others n b calls = Err e ->
    match e with
    | Uncovered a _ => exists m, m ∈ tx_moves others n calls /\ mv_from m = a
    | BadCoins => exists k, k ∈ calls /\ good_coins (sb_funds (k_sub k)) = false
    | ZeroPaid _ => True
    | NotTheirs => exists n' m, m ∈ others n'
    end.
  Proof.
    induction calls as [|k calls IH]; intros others n b e H; cbn [pay_calls tx_moves] in *;
      destruct (pay_others st b (others n)) as [b1|e1|] eqn:E1; cbn [rbind] in H; try done.
    2: { destruct (pay_call zero b1 k) as [b2|e2|] eqn:E2; cbn [rbind] in H; [|injection H as <-|done].
      - specialize (IH _ _ _ _ H). destruct e; [|..|done].
        + destruct IH as (m & Hm & Hma). exists m. split; [|done]. rewrite !elem_of_app. auto.
        + destruct IH as (k' & Hk' & ?). exists k'. split; [by right|done].
        + done.
      - unfold pay_call in E2. destruct (good_coins (sb_funds (k_sub k))) eqn:Eg; cbn [ensure rbind] in E2.
        2: { injection E2 as <-. exists k. split; [by left|done]. }
        destruct (transfers b1 (attached k)) as [b3|e3|] eqn:E3; cbn [rbind] in E2; [|injection E2 as <-|done].
        + destruct (zero || _); cbn [ensure rbind] in E2; [|by injection E2 as <-].
          apply transfers_err in E2 as (m & Hm & ->). exists m. split; [|done]. rewrite !elem_of_app. auto.
        + apply transfers_err in E3 as (m & Hm & ->). exists m. split; [|done]. rewrite !elem_of_app. auto. }
    all: injection H as <-; unfold pay_others in E1; destruct (forallb _ (others n)) eqn:Ef; cbn [ensure rbind] in E1;
      [apply transfers_err in E1 as (m & Hm & ->); exists m; split; [|done]; rewrite ?elem_of_app; auto|];
      injection E1 as <-; exists n; destruct (others n) as [|m l]; [done|exists m; by left].
  Qed.

  Lemma tx_moves_free others n calls : (forall n, others n = []) ->
    tx_moves others n calls = calls ≫= (fun k => attached k ++ payments k).
  Proof.
    intros Ho. revert n. induction calls as [|k calls IH]; intros n; cbn; rewrite Ho; cbn; [done|].
    rewrite IH. by rewrite <- app_assoc.
  Qed.
  Lemma c90_free dep b ts t st' calls : sstep (frun dep b ts).1 (bt_tx t) = Ok (st', calls) ->
    nobody_else t -> Forall (fun k => sb_funds (k_sub k) = []) calls ->
    zero = true \/ Forall (fun k => ~ zero_claim k) calls ->
    exists b', fstep (frun dep b ts) t = Ok (st', b', calls).
  Proof.
    intros Hs Ho Hf Hz. destruct (fstep (frun dep b ts) t) as [[[st2 b2] calls2]|e|] eqn:E.
    - pose proof (funded_ok _ _ _ _ _ _ _ _ _ _ E) as [E1 _]. rewrite Hs in E1. injection E1 as <- <-. eauto.
    - exfalso. destruct e as [e|e].
      { unfold funded_step in E. rewrite Hs in E. cbn [map_err rbind] in E. by destruct (pay_calls _ _ _ _ _ _). }
      pose proof (funded_err _ _ _ _ _ _ _ _ _ _ E) as (txs & st & calls' & H1 & H2 & H3 & H4 & H5).
      rewrite Hs in H2. injection H2 as <- <-. pose proof (pay_calls_err _ _ _ _ _ _ H5) as He.
      rewrite Forall_forall in Hf. destruct e as [a d| |a|].
      + destruct He as (m & Hm & Hma). rewrite tx_moves_free in Hm by exact Ho.
        apply elem_of_list_bind in Hm as (k & Hm & Hk).
        assert (attached k = []) as Ha by (unfold attached; by rewrite (Hf _ Hk)). rewrite Ha in Hm. cbn in Hm.
        pose proof (payments_from _ _ Hm) as Hk2.
        pose proof (c90_only_outsiders_lack _ _ _ _ _ _ _ _ _ _ _ E) as Hn. apply run_domain in Hn.
        apply elem_of_list_split in Hk as (l1 & l2 & ->).
        assert (history keccak wshash sec1 crypto dep (txs ++ [bt_tx t]) =
          (funded_history keccak wshash sec1 crypto zero dep b ts ++ l1) ++ k :: l2) as Hh.
        { rewrite H3, app_nil_r. by rewrite <- app_assoc. }
        pose proof (prefix_at _ _ _ _ _ _ _ _ _ Hh) as Hp. apply (prefix_domain _ _ _ _ _ _ _ _ _ Hp) in Hn.
        unfold payments in Hm. fold (k_to k) in Hm. rewrite <- Hk2, Hma, Hn in Hm. by apply not_elem_of_nil in Hm.
      + destruct He as (k & Hk & Hg). rewrite (Hf _ Hk) in Hg. done.
      + apply c90_zero in E as (Hzf & st & calls' & k & Hs2 & Hk & _ & Hzc). rewrite Hs in Hs2. injection Hs2 as <- <-.
        destruct Hz as [Hz|Hz]; [congruence|]. rewrite Forall_forall in Hz. by apply (Hz _ Hk).
      + destruct He as (n & m & Hm). rewrite Ho in Hm. by apply not_elem_of_nil in Hm.
    - exfalso. unfold funded_step in E. rewrite Hs in E. cbn [map_err rbind] in E.
      destruct (pay_calls zero _ _ _ _ _) as [|e|] eqn:Ep; [done|done|]. clear -Ep.
      revert Ep. generalize (frun dep b ts).2, 0%nat. induction calls as [|k calls IH]; intros b0 n Ep; cbn [pay_calls] in Ep.
      all: destruct (pay_others _ b0 _) as [b1|e1|] eqn:E1; cbn [rbind] in Ep; try done.
      all: try (unfold pay_others in E1; destruct (forallb _ _); cbn [ensure rbind] in E1; [by apply transfers_no_panic in E1|done]).
      destruct (pay_call zero b1 k) as [b2|e2|] eqn:E2; cbn [rbind] in Ep; [by eapply IH|done|].
      unfold pay_call in E2. destruct (good_coins _); cbn [ensure rbind] in E2; [|done].
      destruct (transfers b1 (attached k)) as [b3|e3|] eqn:E3; cbn [rbind] in E2; [|done|by apply transfers_no_panic in E3].
      destruct (zero || _); cbn [ensure rbind] in E2; [by apply transfers_no_panic in E2|done].
  Qed.

  Lemma pays_exactly dep b ts g e w a bd st' k l d0 :
    sstep (frun dep b ts).1 (bt_tx (simple g e w a bd)) = Ok (st', [k]) ->
    sb_funds (k_sub k) = [] -> (frun dep b ts).1 !! a <> None ->
    payments k = (fun x => {| mv_from := a; mv_to := x.1; mv_denom := d0; mv_amount := x.2 |}) <$> l ->
    zero = true \/ ~ zero_claim k ->
    exists b', fstep (frun dep b ts) (simple g e w a bd) = Ok (st', b', [k]) /\
      forall x d, balance b' x d + (if bool_decide (x = a /\ d = d0) then lsum snd l else 0) =
        balance (frun dep b ts).2 x d + (if bool_decide (d = d0) then lsum (fun y => if bool_decide (y.1 = x) then y.2 else 0) l else 0).
  Proof.
    intros Hs Hf Ha Hp Hz. destruct (c90_free dep b ts (simple g e w a bd) st' [k] Hs) as [b' Hb'].
    { intros n. done. }
    { by constructor. }
    { destruct Hz; [by left|right; by constructor]. }
    exists b'. split; [done|]. intros x d. pose proof (c90_moves _ _ _ _ _ _ _ _ _ _ Hb' x d) as Hm.
    rewrite (tx_moves_free (bt_others (simple g e w a bd))) in Hm by done. cbn [mbind list_bind] in Hm.
    unfold attached in Hm. rewrite Hf in Hm. cbn [fmap list_fmap app] in Hm. rewrite app_nil_r, Hp in Hm.
    assert (forall (P : move -> Prop) `{forall m, Decision (P m)} (Q : string * N -> bool),
      (forall y, Q y = bool_decide (P {| mv_from := a; mv_to := y.1; mv_denom := d0; mv_amount := y.2 |})) ->
      moved d (filter P ((fun x => {| mv_from := a; mv_to := x.1; mv_denom := d0; mv_amount := x.2 |}) <$> l)) =
      if bool_decide (d = d0) then lsum (fun y => if Q y then y.2 else 0) l else 0) as Hgen.
    { clear. intros P HP Q HQ. induction l as [|y l IH]; cbn [fmap list_fmap]; [by destruct (bool_decide (d = d0))|].
      rewrite filter_cons, lsum_cons, HQ. destruct (decide (P _)) as [HPy|HPy].
      - rewrite (bool_decide_eq_true_2 (P _)) by done. unfold moved in *. rewrite lsum_cons, IH. cbn.
        repeat case_bool_decide; subst; try done.
      - rewrite (bool_decide_eq_false_2 (P _)) by done. rewrite IH. by destruct (bool_decide (d = d0)). }
    rewrite (Hgen (fun m => mv_from m = x) _ (fun y => bool_decide (x = a))) in Hm.
    2: { intros y. apply bool_decide_ext. cbn. split; congruence. }
    rewrite (Hgen (fun m => mv_to m = x) _ (fun y => bool_decide (y.1 = x))) in Hm by done.
    clear Hgen. rewrite <- Hm. f_equal. repeat case_bool_decide; try naive_solver.
    clear. induction l; [done|]. by rewrite lsum_cons, <- IHl.
  Qed.
  Definition simple_call (st : chain) (e : env) (w a : addr) (bd : body) : call :=
    {| k_chain := st; k_env := e; k_index := 0; k_sender := w; k_sub := plain a bd |}.
  Lemma simple_step st g e w a bd c : st !! w = None ->
    receive keccak wshash sec1 crypto e 0 st w (plain a bd) = Ok (Some c, [], None) ->
    sstep st (bt_tx (simple g e w a bd)) = Ok (<[a := c]> st, [simple_call st e w a bd]).
  Proof.
    intros Hw Hr. unfold system_step, simple. cbn [bt_tx tx_sender tx_gas tx_env tx_sub].
    rewrite bool_decide_eq_true_2 by done. cbn [ensure rbind exec_call length]. rewrite Hr. cbn [rbind fst snd run_subs settle app]. done.
  Qed.

  Lemma c90_claim dep b ts g e w a svc s sv wk n t0 :
    (frun dep b ts).1 !! a = Some (CRegistry s) -> (frun dep b ts).1 !! w = None ->
    sr_services s !! svc = Some sv -> sr_workers s !! (svc, w) = Some wk -> w_bond wk = Unbonding n t0 ->
    t0 + period sv <= en_time e -> en_time e < U64 -> 0 < n \/ zero = true ->
    exists st' b' calls, fstep (frun dep b ts) (simple g e w a (BClaim svc)) = Ok (st', b', calls) /\
      balance b' w (sv_denom sv) = balance (frun dep b ts).2 w (sv_denom sv) + n /\
      balance b' a (sv_denom sv) + n = balance (frun dep b ts).2 a (sv_denom sv) /\
      forall x d, (x <> w /\ x <> a) \/ d <> sv_denom sv -> balance b' x d = balance (frun dep b ts).2 x d.
  Proof.
    intros Ha Hw Hsv Hwk Hb Ht Htu Hn.
    assert (exists s', registry_step s (ClaimStake (en_time e) w svc) = Ok (s', [(w, (sv_denom sv, n))])) as [s' Hst].
    { cbn [registry_step]. unfold claim_stake. rewrite Hsv. cbn [of_option rbind]. rewrite Hwk. cbn [of_option rbind].
      rewrite Hb. cbn [claim_bond]. unfold plus_days, add_u64, checked. unfold period in Ht. change (24 * 60 * 60 * 1000000000) with NANOS_PER_DAY in Ht.
      assert (sv_unbonding_days sv * NANOS_PER_DAY < U64) as H1 by lia. apply N.ltb_lt in H1. rewrite H1. cbn [rbind].
      assert (t0 + sv_unbonding_days sv * NANOS_PER_DAY < U64) as H2 by lia. apply N.ltb_lt in H2. rewrite H2. cbn [rbind].
      apply N.leb_le in Ht. rewrite Ht. cbn [rbind fst snd]. eauto. }
    pose proof (simple_step (frun dep b ts).1 g e w a (BClaim svc) (CRegistry s') Hw) as Hss.
    unfold receive in Hss. cbn [plain sb_to sb_body sb_funds] in Hss. rewrite Ha in Hss.
    cbn [registry_op of_option rbind] in Hss. rewrite Hst in Hss. cbn [map_err rbind] in Hss. specialize (Hss eq_refl).
    destruct (pays_exactly dep b ts g e w a (BClaim svc) _ _ [(w, n)] (sv_denom sv) Hss) as (b' & Hf & Hbal).
    - done.
    - by rewrite Ha.
    - unfold payments, simple_call. cbn [k_sub k_chain k_env k_sender plain sb_to sb_body sb_funds]. rewrite Ha.
      cbn [registry_op]. rewrite Hst. done.
    - destruct Hn as [Hn|Hn]; [right|by left]. intros (s1 & svc1 & sv1 & w1 & t1 & H1 & H2 & H3 & H4 & H5).
      unfold simple_call, k_to in *. cbn [k_sub k_chain k_sender plain sb_to sb_body] in *.
      rewrite Ha in H1. injection H1 as <-. injection H2 as <-. rewrite Hwk in H4. injection H4 as <-. rewrite Hb in H5.
      injection H5 as ? ?. lia.
    - assert (w <> a) as Hwa by congruence.
      eexists _, b', _. split; [exact Hf|]. split; [|split].
      + specialize (Hbal w (sv_denom sv)). rewrite bool_decide_eq_false_2 in Hbal by naive_solver.
        rewrite bool_decide_eq_true_2 in Hbal by done. cbn in Hbal. rewrite bool_decide_eq_true_2 in Hbal by done. lia.
      + specialize (Hbal a (sv_denom sv)). rewrite bool_decide_eq_true_2 in Hbal by done.
        rewrite bool_decide_eq_true_2 in Hbal by done. cbn in Hbal. rewrite bool_decide_eq_false_2 in Hbal by done. lia.
      + intros x d Hx. specialize (Hbal x d). rewrite bool_decide_eq_false_2 in Hbal by naive_solver.
        case_bool_decide; cbn in Hbal; [|lia]. rewrite bool_decide_eq_false_2 in Hbal by naive_solver. lia.
  Qed.

  Lemma c90_distribute dep b ts g e w a c lim s s' l :
    (frun dep b ts).1 !! a = Some (CRewards s) -> (frun dep b ts).1 !! w = None ->
    rewards_step s (Distribute (en_height e) c lim) = Ok (s', l) ->
    exists st' b' calls, fstep (frun dep b ts) (simple g e w a (BDistribute c lim)) = Ok (st', b', calls) /\
      st' !! a = Some (CRewards s') /\
      forall x d, balance b' x d + (if bool_decide (x = a /\ d = r_denom s) then pooled s - pooled s' else 0) =
        balance (frun dep b ts).2 x d +
        (if bool_decide (d = r_denom s) then lsum (fun y => if bool_decide (y.1 = x) then y.2 else 0) l else 0).
  Proof.
    intros Ha Hw Hst.
    pose proof (simple_step (frun dep b ts).1 g e w a (BDistribute c lim) (CRewards s') Hw) as Hss.
    unfold receive in Hss. cbn [plain sb_to sb_body sb_funds] in Hss. rewrite Ha in Hss.
    cbn [rewards_op of_option rbind] in Hss. rewrite Hst in Hss. cbn [map_err rbind] in Hss. specialize (Hss eq_refl).
    destruct (pays_exactly dep b ts g e w a (BDistribute c lim) _ _ l (r_denom s) Hss) as (b' & Hf & Hbal).
    - done.
    - by rewrite Ha.
    - unfold payments, simple_call. cbn [k_sub k_chain k_env k_sender plain sb_to sb_body sb_funds]. rewrite Ha.
      cbn [rewards_op]. rewrite Hst. done.
    - right. intros (s1 & svc1 & sv1 & w1 & t1 & H1 & H2 & _). done.
    - eexists _, b', _. split; [exact Hf|]. split; [apply lookup_insert|].
      apply rewards_books in Hst as (_ & _ & Hbk). intros x d. rewrite <- Hbal. f_equal. destruct (bool_decide _); [|done]. lia.
  Qed.
End Free.
