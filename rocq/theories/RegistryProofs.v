(** Proofs about the service registry. *)
From Verif Require Import Base BaseLemmas Text StdModel StdProofs MapLemmas RegistryTypes RegistryModel RegistrySpec.

(** The bond named by the attached funds. *)
Lemma find_amount denom (funds : list coin) :
  NoDup funds.*1 ->
  match List.find (fun c => String.eqb c.1 denom) funds with
  | Some c => c.2 = amount_of denom funds /\ c.1 = denom
  | None => amount_of denom funds = 0 /\ denom ∉ funds.*1
  end.
Proof.
  unfold amount_of. induction funds as [|[d n] funds IH]; cbn [fmap list_fmap]; intros Hn.
  - split; [done|apply not_elem_of_nil].
  - apply NoDup_cons in Hn as [Hd Hn]. cbn [List.find fst]. rewrite lsum_cons. cbn [fst snd].
    destruct (String.eqb_spec d denom) as [->|Hne].
    + rewrite bool_decide_true by done. cbn. split; [|done].
      rewrite (lsum_ext _ (fun _ => 0)); [rewrite lsum_const; lia|].
      intros [d' n'] Hin. cbn. rewrite bool_decide_false; [done|]. intros ->. apply Hd.
      apply elem_of_list_fmap. by exists (denom, n').
    + rewrite bool_decide_false by done. specialize (IH Hn).
      destruct (List.find (fun c : string * N => String.eqb c.1 denom) funds).
      * destruct IH. split; [lia|done].
      * destruct IH. split; [lia|]. cbn. apply not_elem_of_cons. done.
Qed.
Definition bond_amount (denom : string) (funds : list coin) : N :=
  match funds with
  | [] => 0
  | _ => match List.find (fun c => String.eqb c.1 denom) funds with Some c => c.2 | None => 0 end
  end.
Lemma bond_amount_of denom funds : NoDup funds.*1 -> bond_amount denom funds = amount_of denom funds.
Proof.
  intros Hn. pose proof (find_amount denom funds Hn) as H. unfold bond_amount.
  destruct funds; [done|]. destruct (List.find (fun c : string * N => String.eqb c.1 denom) _); [apply H|symmetry; apply H].
Qed.


Lemma bond_amount_lt denom funds : Forall (fun c : coin => c.2 < U128) funds -> bond_amount denom funds < U128.
Proof.
  intros Hf. unfold bond_amount. destruct funds as [|c0 funds]; [done|].
  destruct (List.find (fun c : string * N => String.eqb c.1 denom) _) as [c|] eqn:Hc; [|done]. apply List.find_some in Hc as [Hin _].
  rewrite Forall_forall in Hf. apply Hf. by apply elem_of_list_In.
Qed.

(** Effect of an accepted bond. *)
Lemma add_bond_inv b n b' :
  add_bond b n = Ok b' -> b' = Bonded (owed b + n) /\ owed b + n <> 0.
Proof.
  unfold add_bond. destruct b as [m|m|m t|]; cbn [owed]; intros H; res_inv; subst.
  1-3: destruct (N.eqb_spec (m + n) 0); [done|]; by injection H as <-.
  destruct (N.eqb_spec v 0); [done|]. rewrite N.add_0_l. by injection H as <-.
Qed.
Lemma bond_funds (denom : string) (funds : list coin) v :
  match funds with
  | [] => Ok 0
  | _ => let? c := of_option WrongDenom (List.find (fun c => String.eqb c.1 denom) funds) in Ok c.2
  end = Ok v ->
  v = bond_amount denom funds /\ (funds = [] \/ denom ∈ funds.*1).
Proof.
  unfold bond_amount. destruct funds as [|c0 funds]; intros H; [injection H as <-; split; [done|by left]|].
  res_inv. subst. rename v0 into c. rewrite Hv. apply List.find_some in Hv as [Hin Hd].
  apply String.eqb_eq in Hd. split; [done|]. right. apply elem_of_list_fmap. exists c.
  split; [done|]. by apply elem_of_list_In.
Qed.
Lemma bond_inv s a funds svc s' out :
  bond_worker s a funds svc = Ok (s', out) ->
  exists sv w', sr_services s !! svc = Some sv /\ out = [] /\
    s' = set_workers s (<[(svc, a) := w']> (sr_workers s)) /\
    w_bond w' = Bonded (owes s svc a + bond_amount (sv_denom sv) funds) /\
    (funds = [] \/ sv_denom sv ∈ funds.*1) /\
    match record s svc a with
    | Some w => w_addr w' = w_addr w /\ w_auth w' = w_auth w /\ w_service w' = w_service w /\
        owes s svc a + bond_amount (sv_denom sv) funds <> 0
    | None => w_addr w' = a /\ w_auth w' = NotAuthorized /\ w_service w' = svc
    end.
Proof.
  unfold bond_worker. intros H. apply rbind_ok in H as (sv & Hsv & H).
  apply of_option_ok in Hsv. apply rbind_ok in H as (bond & Hb & H).
  apply bond_funds in Hb as [-> Hf]. apply rbind_ok in H as (w' & Hw & H).
  injection H as <- <-. exists sv, w'. unfold owes, record.
  destruct (sr_workers s !! (svc, a)) as [w|].
  - apply rbind_ok in Hw as (b & Hb & Hw). injection Hw as <-. apply add_bond_inv in Hb as [-> Hne].
    split_and!; done.
  - injection Hw as <-. split_and!; done.
Qed.

Lemma unbond_inv s t a svc s' out :
  unbond_worker s t a svc = Ok (s', out) ->
  exists sv w n, sr_services s !! svc = Some sv /\ out = [] /\ record s svc a = Some w /\
    (w_bond w = Bonded n \/ w_bond w = RequestedUnbonding n) /\
    s' = set_workers s (<[(svc, a) := {| w_addr := w_addr w; w_bond := Unbonding n t; w_auth := w_auth w;
                                         w_service := w_service w |}]> (sr_workers s)).
Proof.
  unfold unbond_worker, unbond. intros H. apply rbind_ok in H as (sv & Hsv & H).
  apply of_option_ok in Hsv. apply rbind_ok in H as (w & Hw & H). apply of_option_ok in Hw.
  apply rbind_ok in H as (b & Hb & H). injection H as <- <-. unfold record. rewrite Hw.
  destruct (w_bond w) eqn:?; try discriminate; injection Hb as <-; eauto 12.
Qed.

Lemma claim_inv s t a svc s' out :
  claim_stake s t a svc = Ok (s', out) ->
  exists sv w n t0, sr_services s !! svc = Some sv /\ record s svc a = Some w /\
    w_bond w = Unbonding n t0 /\ t0 + period sv < U64 /\ t0 + period sv <= t /\
    out = [(a, (sv_denom sv, n))] /\
    s' = set_workers s (<[(svc, a) := {| w_addr := w_addr w; w_bond := Unbonded; w_auth := w_auth w;
                                         w_service := w_service w |}]> (sr_workers s)).
Proof.
  unfold claim_stake, claim_bond, plus_days. intros H. apply rbind_ok in H as (sv & Hsv & H).
  apply of_option_ok in Hsv. apply rbind_ok in H as (w & Hw & H). apply of_option_ok in Hw.
  apply rbind_ok in H as ([b n] & Hb & H). injection H as <- <-. unfold record. rewrite Hw.
  destruct (w_bond w) as [| |n' t0|] eqn:Hbond; try discriminate.
  apply rbind_ok in Hb as (due & Hd & Hb). apply rbind_ok in Hd as (d & Hd & Hdue).
  apply checked_ok in Hd as [_ ->]. apply add_u64_ok in Hdue as [Hlt ->].
  destruct (N.leb_spec (t0 + sv_unbonding_days sv * NANOS_PER_DAY) t); [|done].
  injection Hb as <- <-. exists sv, w, n', t0. split_and!; done.
Qed.
Lemma claim_ok s t a svc sv w n t0 :
  sr_services s !! svc = Some sv -> record s svc a = Some w -> w_bond w = Unbonding n t0 ->
  t0 + period sv <= t -> t < U64 ->
  exists s', claim_stake s t a svc = Ok (s', [(a, (sv_denom sv, n))]).
Proof.
  intros Hsv Hw Hb Hle Hlt. unfold claim_stake, claim_bond, plus_days, record in *. rewrite Hsv, Hw.
  cbn [of_option rbind]. rewrite Hb. unfold add_u64, checked, period in *.
  change (24 * 60 * 60 * 1000000000) with NANOS_PER_DAY in Hle.
  rewrite (proj2 (N.ltb_lt (sv_unbonding_days sv * NANOS_PER_DAY) U64)) by lia. cbn [rbind].
  rewrite (proj2 (N.ltb_lt (t0 + sv_unbonding_days sv * NANOS_PER_DAY) U64)) by lia. cbn [rbind].
  rewrite (proj2 (N.leb_le _ _) Hle). cbn [rbind]. eauto.
Qed.

(** Effect of an authorisation. *)
Lemma authorize_fold (svc : string) (st : auth_state) (ws : list addr) (m : gmap (string * addr) worker)
  (svc' : string) (a : addr) :
  foldl (authorize_one svc st) m ws !! (svc', a) =
  if bool_decide (a ∈ ws /\ svc = svc') then
    Some match m !! (svc', a) with
         | Some w => {| w_addr := w_addr w; w_bond := w_bond w; w_auth := st; w_service := w_service w |}
         | None => {| w_addr := a; w_bond := Unbonded; w_auth := st; w_service := svc' |}
         end
  else m !! (svc', a).
Proof.
  induction ws as [|b ws IH] using rev_ind.
  - rewrite bool_decide_false; [done|]. intros [H _]. by apply not_elem_of_nil in H.
  - rewrite foldl_app. cbn [foldl]. unfold authorize_one at 1.
    destruct (decide (b = a /\ svc = svc')) as [[-> ->]|Hne].
    + rewrite lookup_insert, IH. rewrite (bool_decide_true (a ∈ ws ++ [a] /\ _)) by set_solver.
      case_bool_decide; [|done]. by destruct (m !! (svc', a)).
    + rewrite lookup_insert_ne by naive_solver. rewrite IH.
      assert ((a ∈ ws /\ svc = svc') <-> (a ∈ ws ++ [b] /\ svc = svc')) as Hiff.
      { rewrite elem_of_app, elem_of_list_singleton. naive_solver. }
      by rewrite (bool_decide_ext _ _ Hiff).
Qed.

(** Effect of a chain declaration. *)
Lemma declare_fold (svc : string) (a : addr) (cs : list string)
  (m : gmap (string * string) (gmap addr unit)) (svc' c : string) (b : addr) :
  default ∅ (foldl (fun m c => <[(svc, c) := <[a := tt]> (default ∅ (m !! (svc, c)))]> m) m cs !! (svc', c)) !! b
    = Some tt <->
  default ∅ (m !! (svc', c)) !! b = Some tt \/ (svc' = svc /\ b = a /\ c ∈ cs).
Proof.
  induction cs as [|c0 cs IH] using rev_ind.
  - cbn. split; [by left|]. intros [?|(_ & _ & H)]; [done|]. by apply not_elem_of_nil in H.
  - rewrite foldl_app. cbn [foldl]. rewrite elem_of_app, elem_of_list_singleton.
    destruct (decide (svc' = svc /\ c = c0)) as [[-> ->]|Hne].
    + rewrite lookup_insert. cbn [default]. unfold default, id in *.
      destruct (decide (b = a)) as [->|Hb].
      * rewrite lookup_insert. naive_solver.
      * rewrite lookup_insert_ne by done. rewrite IH. naive_solver.
    + rewrite lookup_insert_ne by naive_solver. rewrite IH. naive_solver.
Qed.

(** What an accepted call does to a worker's record, to the services and to
    the declarations. *)
Definition bcall (op : srop) (svc : string) (a : addr) : option bond_call :=
  match op with
  | BondWorker b _ svc' => if bool_decide (b = a /\ svc' = svc) then Some CBond else None
  | UnbondWorker t b svc' => if bool_decide (b = a /\ svc' = svc) then Some (CUnbond t) else None
  | ClaimStake _ b svc' => if bool_decide (b = a /\ svc' = svc) then Some CClaim else None
  | _ => None
  end.
Definition acall (op : srop) (svc : string) (a : addr) : option bool :=
  match op with
  | AuthorizeWorkers _ ws svc' => if bool_decide (a ∈ ws /\ svc' = svc) then Some true else None
  | UnauthorizeWorkers _ ws svc' => if bool_decide (a ∈ ws /\ svc' = svc) then Some false else None
  | _ => None
  end.

Lemma record_set s k w svc a :
  record (set_workers s (<[k := w]> (sr_workers s))) svc a =
  if bool_decide (k = (svc, a)) then Some w else record s svc a.
Proof.
  unfold record. cbn [set_workers sr_workers]. case_bool_decide as Hk.
  - subst. apply lookup_insert.
  - by apply lookup_insert_ne.
Qed.

(** One accepted call, seen from one worker's record. *)
Lemma step_record s op s' out svc a :
  registry_step s op = Ok (s', out) ->
  match bcall op svc a, acall op svc a with
  | Some CBond, _ => exists sv w' funds, op = BondWorker a funds svc /\ sr_services s !! svc = Some sv /\
      record s' svc a = Some w' /\
      w_bond w' = Bonded (owes s svc a + bond_amount (sv_denom sv) funds) /\
      w_auth w' = auth_of s svc a /\
      (w_addr w' = a /\ w_service w' = svc \/
       exists w, record s svc a = Some w /\ w_addr w' = w_addr w /\ w_service w' = w_service w)
  | Some (CUnbond t), _ => exists w n, record s svc a = Some w /\
      (w_bond w = Bonded n \/ w_bond w = RequestedUnbonding n) /\
      record s' svc a = Some {| w_addr := w_addr w; w_bond := Unbonding n t; w_auth := w_auth w;
                                w_service := w_service w |}
  | Some CClaim, _ => exists sv w n t0, record s svc a = Some w /\ w_bond w = Unbonding n t0 /\
      sr_services s !! svc = Some sv /\ out = [(a, (sv_denom sv, n))] /\
      record s' svc a = Some {| w_addr := w_addr w; w_bond := Unbonded; w_auth := w_auth w;
                                w_service := w_service w |}
  | None, Some b => exists w', record s' svc a = Some w' /\ w_bond w' = bond_of s svc a /\
      w_auth w' = (if b then Authorized else NotAuthorized) /\
      (w_addr w' = a /\ w_service w' = svc \/
       exists w, record s svc a = Some w /\ w_addr w' = w_addr w /\ w_service w' = w_service w)
  | None, None => record s' svc a = record s svc a
  end.
Proof.
  destruct op as [a0 sv0|a0 ws svc0|a0 ws svc0|a0 svc0 cs|a0 funds svc0|t a0 svc0|t a0 svc0];
    cbn [registry_step bcall acall]; intros H.
  - apply rbind_ok in H as (_ & _ & H). apply rbind_ok in H as (_ & _ & H). by injection H as <- <-.
  - apply rbind_ok in H as (_ & _ & H). apply rbind_ok in H as (_ & _ & H). injection H as <- <-.
    case_bool_decide as Hc.
    + destruct Hc as [Hin ->]. eexists. unfold record. cbn [set_workers sr_workers].
      rewrite authorize_fold, bool_decide_true by done. split; [done|]. unfold bond_of, record.
      destruct (sr_workers s !! (svc, a)) as [w|]; cbn; eauto 10.
    + unfold record. cbn [set_workers sr_workers]. rewrite authorize_fold, bool_decide_false by done. done.
  - apply rbind_ok in H as (_ & _ & H). apply rbind_ok in H as (_ & _ & H). injection H as <- <-.
    case_bool_decide as Hc.
    + destruct Hc as [Hin ->]. eexists. unfold record. cbn [set_workers sr_workers].
      rewrite authorize_fold, bool_decide_true by done. split; [done|]. unfold bond_of, record.
      destruct (sr_workers s !! (svc, a)) as [w|]; cbn; eauto 10.
    + unfold record. cbn [set_workers sr_workers]. rewrite authorize_fold, bool_decide_false by done. done.
  - unfold declare_chains in H. apply rbind_ok in H as (_ & _ & H). apply rbind_ok in H as (_ & _ & H).
    by injection H as <- <-.
  - apply bond_inv in H as (sv & w' & Hsv & -> & -> & Hb & Hf & Hw).
    rewrite record_set. case_bool_decide as Hc.
    + destruct Hc as [-> ->]. exists sv, w', funds. rewrite bool_decide_true by done.
      split_and!; try done; unfold auth_of; destruct (record s svc a) as [w|]; naive_solver.
    + rewrite bool_decide_false by naive_solver. done.
  - apply unbond_inv in H as (sv & w & n & Hsv & -> & Hw & Hn & ->). rewrite record_set.
    case_bool_decide as Hc.
    + destruct Hc as [-> ->]. rewrite bool_decide_true by done. eauto.
    + rewrite bool_decide_false by naive_solver. done.
  - apply claim_inv in H as (sv & w & n & t0 & Hsv & Hw & Hb & _ & _ & -> & ->). rewrite record_set.
    case_bool_decide as Hc.
    + destruct Hc as [-> ->]. rewrite bool_decide_true by done. eauto 12.
    + rewrite bool_decide_false by naive_solver. done.
Qed.

(** Services are only added, by governance. *)
Lemma step_services s op s' out :
  registry_step s op = Ok (s', out) ->
  sr_governance s' = sr_governance s /\
  match op with
  | RegisterService a sv => a = sr_governance s /\ sr_services s !! sv_name sv = None /\
      sr_services s' = <[sv_name sv := sv]> (sr_services s)
  | _ => sr_services s' = sr_services s
  end.
Proof.
  destruct op as [a0 sv0|a0 ws svc0|a0 ws svc0|a0 svc0 cs|a0 funds svc0|t a0 svc0|t a0 svc0];
    cbn [registry_step]; intros H.
  - unfold register_service in H. res_inv. subst. apply bool_decide_eq_true in Hv, Hv0. done.
  - unfold update_authorization in H. res_inv. by subst.
  - unfold update_authorization in H. res_inv. by subst.
  - unfold declare_chains in H. res_inv. by subst.
  - apply bond_inv in H as (sv & w' & Hsv & -> & -> & _). done.
  - apply unbond_inv in H as (sv & w & n & Hsv & -> & Hw & Hn & ->). done.
  - apply claim_inv in H as (sv & w & n & t0 & Hsv & Hw & Hb & _ & _ & -> & ->). done.
Qed.
Lemma step_services_mono s op s' out svc sv :
  registry_step s op = Ok (s', out) -> sr_services s !! svc = Some sv -> sr_services s' !! svc = Some sv.
Proof.
  intros [_ H]%step_services Hsv. destruct op; try by rewrite H.
  destruct H as (_ & Hn & ->). rewrite lookup_insert_ne; [done|]. congruence.
Qed.

(** Declarations. *)
Lemma step_declares s op s' out svc c a :
  registry_step s op = Ok (s', out) ->
  declares s' svc c a <->
  declares s svc c a \/ exists cs, op = DeclareChainSupport a svc cs /\ c ∈ cs.
Proof.
  unfold declares.
  destruct op as [a0 sv0|a0 ws svc0|a0 ws svc0|a0 svc0 cs|a0 funds svc0|t a0 svc0|t a0 svc0];
    cbn [registry_step]; intros H.
  1: unfold register_service in H; res_inv; subst; naive_solver.
  1,2: unfold update_authorization in H; res_inv; subst; naive_solver.
  - unfold declare_chains in H. res_inv. subst. cbn [sr_chains]. rewrite declare_fold. naive_solver.
  - apply bond_inv in H as (sv & w' & Hsv & -> & -> & _). naive_solver.
  - apply unbond_inv in H as (sv & w & n & Hsv & -> & Hw & Hn & ->). naive_solver.
  - apply claim_inv in H as (sv & w & n & t0 & Hsv & Hw & Hb & _ & _ & -> & ->). naive_solver.
Qed.

(** Accepted calls name registered services; declaring needs a record. *)
Lemma step_service_of s op s' out :
  registry_step s op = Ok (s', out) ->
  match op with
  | RegisterService _ _ => True
  | AuthorizeWorkers a _ svc | UnauthorizeWorkers a _ svc =>
      a = sr_governance s /\ is_Some (sr_services s !! svc)
  | DeclareChainSupport a svc _ => is_Some (sr_services s !! svc) /\ is_Some (record s svc a)
  | BondWorker _ _ svc | UnbondWorker _ _ svc | ClaimStake _ _ svc => is_Some (sr_services s !! svc)
  end.
Proof.
  destruct op as [a0 sv0|a0 ws svc0|a0 ws svc0|a0 svc0 cs|a0 funds svc0|t a0 svc0|t a0 svc0];
    cbn [registry_step]; intros H; [done|..].
  - unfold update_authorization in H. res_inv. apply bool_decide_eq_true in Hv. by rewrite Hv0.
  - unfold update_authorization in H. res_inv. apply bool_decide_eq_true in Hv. by rewrite Hv0.
  - unfold declare_chains in H. res_inv. unfold record. rewrite Hv, Hv0. done.
  - apply bond_inv in H as (sv & w' & Hsv & _). by rewrite Hsv.
  - apply unbond_inv in H as (sv & w & n & Hsv & _). by rewrite Hsv.
  - apply claim_inv in H as (sv & w & n & t0 & Hsv & _). by rewrite Hsv.
Qed.

(** Snoc forms of the vocabulary. *)
Lemma last_call_snoc l op out svc a :
  last_call (l ++ [(op, out)]) svc a =
  match bcall op svc a with Some c => Some c | None => last_call l svc a end.
Proof. unfold last_call. rewrite last_snoc_omap. by destruct op. Qed.
Definition last_auth (l : list (srop * srout)) (svc : string) (a : addr) : option bool :=
  last (omap (fun e => acall e.1 svc a) l).
Lemma last_auth_snoc l op out svc a :
  last_auth (l ++ [(op, out)]) svc a =
  match acall op svc a with Some c => Some c | None => last_auth l svc a end.
Proof. unfold last_auth. rewrite last_snoc_omap. done. Qed.
Lemma authorised_alt l svc a : authorised l svc a <-> last_auth l svc a = Some true.
Proof. done. Qed.
Lemma declared_snoc l op out svc c a :
  declared (l ++ [(op, out)]) svc c a <->
  declared l svc c a \/ exists cs, op = DeclareChainSupport a svc cs /\ c ∈ cs.
Proof.
  unfold declared. split.
  - intros (cs & o & [Hin|Heq%elem_of_list_singleton]%elem_of_app & Hc); [left; eauto|].
    injection Heq as <- <-. right. eauto.
  - intros [(cs & o & Hin & Hc)|(cs & -> & Hc)].
    + exists cs, o. split; [|done]. apply elem_of_app. by left.
    + exists cs, out. split; [|done]. apply elem_of_app. right. by apply elem_of_list_singleton.
Qed.

(** The record of a worker against the history. *)
Definition winv (s : srstate) (l : list (srop * srout)) (svc : string) (a : addr) : Prop :=
  match record s svc a with
  | None => last_call l svc a = None /\ last_auth l svc a = None
  | Some w => w_addr w = a /\ w_service w = svc /\
      (w_auth w = Authorized <-> last_auth l svc a = Some true) /\
      match w_bond w with
      | Bonded _ => last_call l svc a = Some CBond
      | RequestedUnbonding _ => False
      | Unbonding _ t => last_call l svc a = Some (CUnbond t)
      | Unbonded => last_call l svc a = None \/ last_call l svc a = Some CClaim
      end
  end.
Lemma winv_step s l op s' out svc a :
  winv s l svc a -> registry_step s op = Ok (s', out) -> winv s' (l ++ [(op, out)]) svc a.
Proof.
  intros Hw H. pose proof (step_record s op s' out svc a H) as Hr. unfold winv in *.
  rewrite last_call_snoc, last_auth_snoc. unfold auth_of, bond_of in Hr.
  assert (Hab : bcall op svc a <> None -> acall op svc a = None) by (destruct op; cbn; done).
  destruct (bcall op svc a) as [[|t|]|].
  - destruct Hr as (sv & w' & funds & -> & Hsv & -> & Hb & Ha & Hid). rewrite Hab by done. rewrite Hb, Ha.
    destruct (record s svc a) as [w|]; [naive_solver|]. destruct Hw as [_ ->]. naive_solver.
  - destruct Hr as (w & n & Hw0 & Hn & ->). rewrite Hw0 in Hw. rewrite Hab by done. cbn. naive_solver.
  - destruct Hr as (sv & w & n & t0 & Hw0 & Hn & Hsv & -> & ->). rewrite Hw0 in Hw.
    rewrite Hab by done. cbn. naive_solver.
  - clear Hab. destruct (acall op svc a) as [b|].
    + destruct Hr as (w' & -> & Hb & Ha & Hid). rewrite Hb, Ha.
      destruct (record s svc a) as [w|]; destruct b; naive_solver.
    + by rewrite Hr.
Qed.
Lemma winv_run g ops svc a : winv (srrun g ops) (srlog g ops) svc a.
Proof.
  apply (run_log_inv registry_step (fun s l => winv s l svc a)); [done|].
  intros s l op s' out Hw H. by eapply winv_step.
Qed.

(** Declarations against the history. *)
Lemma declares_run g ops svc c a :
  (declares (srrun g ops) svc c a <-> declared (srlog g ops) svc c a) /\
  (declares (srrun g ops) svc c a -> is_Some (record (srrun g ops) svc a)).
Proof.
  apply (run_log_inv registry_step (fun s l => (declares s svc c a <-> declared l svc c a) /\
    (declares s svc c a -> is_Some (record s svc a)))).
  - split; [|done]. split; [done|]. intros (cs & o & Hin & _). by apply not_elem_of_nil in Hin.
  - intros s l op s' out [H1 H2] Hs. rewrite declared_snoc, (step_declares _ _ _ _ _ _ _ Hs), H1. split; [done|].
    pose proof (step_record s op s' out svc a Hs) as Hr. intros [Hd|(cs & -> & Hc)].
    + apply H1 in Hd. apply H2 in Hd. clear H1 H2 Hs.
      destruct (bcall op svc a) as [[|t|]|]; [naive_solver..|].
      destruct (acall op svc a); [naive_solver|]. by rewrite Hr.
    + cbn in Hr. rewrite Hr. by apply step_service_of in Hs as [_ ?].
Qed.

(** C41: what is owed. *)
Lemma bonded_total_snoc l op out svc a d :
  bonded_total (l ++ [(op, out)]) svc a d =
  bonded_total l svc a d +
  match op with
  | BondWorker b funds svc' => if bool_decide (b = a /\ svc' = svc) then amount_of d funds else 0
  | _ => 0
  end.
Proof. unfold bonded_total. by rewrite lsum_app, lsum_one. Qed.
Lemma claimed_total_snoc l op out svc a :
  claimed_total (l ++ [(op, out)]) svc a =
  claimed_total l svc a +
  match op with
  | ClaimStake _ b svc' => if bool_decide (b = a /\ svc' = svc) then lsum (fun x => x.2.2) out else 0
  | _ => 0
  end.
Proof. unfold claimed_total. by rewrite lsum_app, lsum_one. Qed.

Definition minv (s : srstate) (l : list (srop * srout)) (svc : string) (a : addr) : Prop :=
  match sr_services s !! svc with
  | Some sv => owes s svc a + claimed_total l svc a = bonded_total l svc a (sv_denom sv)
  | None => record s svc a = None /\ claimed_total l svc a = 0 /\ forall d, bonded_total l svc a d = 0
  end.
Lemma owes_step s op s' out svc a :
  valid_funds op -> registry_step s op = Ok (s', out) ->
  forall sv, sr_services s !! svc = Some sv ->
  owes s' svc a + match op with
                  | ClaimStake _ b svc' => if bool_decide (b = a /\ svc' = svc) then lsum (fun x => x.2.2) out else 0
                  | _ => 0
                  end =
  owes s svc a + match op with
                 | BondWorker b funds svc' => if bool_decide (b = a /\ svc' = svc) then amount_of (sv_denom sv) funds else 0
                 | _ => 0
                 end.
Proof.
  intros Hvf H sv Hsv. pose proof (step_record s op s' out svc a H) as Hr.
  destruct op as [a0 sv0|a0 ws svc0|a0 ws svc0|a0 svc0 cs|a0 funds svc0|t a0 svc0|t a0 svc0];
    cbn [bcall acall] in Hr; unfold owes at 1.
  - rewrite Hr. done.
  - case_bool_decide; [|by rewrite Hr]. destruct Hr as (w' & -> & -> & _). unfold owes, bond_of.
    destruct (record s svc a); done.
  - case_bool_decide; [|by rewrite Hr]. destruct Hr as (w' & -> & -> & _). unfold owes, bond_of.
    destruct (record s svc a); done.
  - rewrite Hr. done.
  - case_bool_decide.
    + destruct Hr as (sv' & w' & funds' & [= -> <- ->] & Hsv' & -> & -> & _).
      rewrite Hsv in Hsv'. injection Hsv' as <-. destruct Hvf as [Hnd _]. rewrite bond_amount_of by done.
      cbn [owed]. lia.
    + rewrite Hr. done.
  - case_bool_decide; [|by rewrite Hr]. destruct Hr as (w & n & Hw & Hn & ->). unfold owes. rewrite Hw.
    destruct Hn as [-> | ->]; done.
  - case_bool_decide; [|by rewrite Hr]. destruct Hr as (sv' & w & n & t0 & Hw & Hn & Hsv' & -> & ->).
    unfold owes. rewrite Hw, Hn. cbn [owed w_bond]. rewrite lsum_one. cbn. lia.
Qed.
Lemma minv_step s l op s' out svc a :
  valid_funds op -> minv s l svc a -> registry_step s op = Ok (s', out) -> minv s' (l ++ [(op, out)]) svc a.
Proof.
  intros Hvf Hm H. unfold minv in *. rewrite claimed_total_snoc.
  destruct (sr_services s !! svc) as [sv|] eqn:Hsv.
  - rewrite (step_services_mono _ _ _ _ _ _ H Hsv). rewrite bonded_total_snoc.
    pose proof (owes_step _ _ _ _ svc a Hvf H sv Hsv). lia.
  - destruct Hm as (Hr0 & Hc0 & Hb0). pose proof (step_record s op s' out svc a H) as Hr.
    pose proof (step_service_of _ _ _ _ H) as Hso. rewrite Hc0.
    assert (Hrec : record s' svc a = None).
    { destruct op as [a0 sv0|a0 ws svc0|a0 ws svc0|a0 svc0 cs|a0 funds svc0|t a0 svc0|t a0 svc0];
        cbn [bcall acall] in Hr; try (by rewrite Hr); case_bool_decide as Hc; try (by rewrite Hr);
        destruct Hc as [_ ->]; rewrite Hsv in Hso; destruct Hso as [? ?]; try done.
      all: by destruct H1. }
    assert (Hcl : match op with
                  | ClaimStake _ b svc' => if bool_decide (b = a /\ svc' = svc) then lsum (fun x => x.2.2) out else 0
                  | _ => 0
                  end = 0).
    { destruct op; try done. case_bool_decide as Hc; [|done]. destruct Hc as [_ ->]. rewrite Hsv in Hso. by destruct Hso. }
    assert (Hbl : forall d, bonded_total (l ++ [(op, out)]) svc a d = 0).
    { intros d. rewrite bonded_total_snoc, Hb0. destruct op; try done. case_bool_decide as Hc; [|done].
      destruct Hc as [_ ->]. rewrite Hsv in Hso. by destruct Hso. }
    rewrite Hcl. destruct (sr_services s' !! svc) as [sv'|]; [|done]. unfold owes. rewrite Hrec, Hbl. done.
Qed.
Lemma minv_run g ops svc a :
  Forall valid_funds ops -> minv (srrun g ops) (srlog g ops) svc a.
Proof.
  intros Hv. apply (run_log_inv_ops registry_step valid_funds (fun s l => minv s l svc a)); [done|done|].
  intros s l op s' out Hvf Hm H. by eapply minv_step.
Qed.
Lemma c41_owed g ops svc sv a :
  Forall valid_funds ops -> sr_services (srrun g ops) !! svc = Some sv ->
  owes (srrun g ops) svc a + claimed_total (srlog g ops) svc a =
  bonded_total (srlog g ops) svc a (sv_denom sv).
Proof. intros Hv Hsv. pose proof (minv_run g ops svc a Hv) as H. unfold minv in H. by rewrite Hsv in H. Qed.

Lemma c41_claim s t a svc s' out :
  registry_step s (ClaimStake t a svc) = Ok (s', out) ->
  exists sv, sr_services s !! svc = Some sv /\ out = [(a, (sv_denom sv, owes s svc a))] /\
    bond_of s' svc a = Unbonded /\
    forall svc' b, (svc', b) <> (svc, a) -> record s' svc' b = record s svc' b.
Proof.
  cbn [registry_step]. intros H.
  apply claim_inv in H as (sv & w & n & t0 & Hsv & Hw & Hb & _ & _ & -> & ->). exists sv.
  split_and!; [done|unfold owes; by rewrite Hw, Hb| |].
  - unfold bond_of. rewrite record_set, bool_decide_true by done. done.
  - intros svc' b Hne. rewrite record_set, bool_decide_false by congruence. done.
Qed.
Lemma c41_only_claims s op s' out :
  registry_step s op = Ok (s', out) -> out <> [] -> exists t a svc, op = ClaimStake t a svc.
Proof.
  destruct op as [a0 sv0|a0 ws svc0|a0 ws svc0|a0 svc0 cs|a0 funds svc0|t a0 svc0|t a0 svc0];
    cbn [registry_step]; intros H Hne; [..|eauto]; exfalso; apply Hne.
  - unfold register_service in H. res_inv. by subst.
  - unfold update_authorization in H. res_inv. by subst.
  - unfold update_authorization in H. res_inv. by subst.
  - unfold declare_chains in H. res_inv. by subst.
  - by apply bond_inv in H as (sv & w' & Hsv & -> & _).
  - by apply unbond_inv in H as (sv & w & n & Hsv & -> & _).
Qed.

Lemma last_call_none (l : list (srop * srout)) svc a l0 c :
  last_call l0 svc a = Some c -> last_call (l0 ++ l) svc a <> Some c ->
  exists op out, (op, out) ∈ l /\ bcall op svc a <> None.
Proof.
  intros H0. induction l as [|[op out] l IH] using rev_ind; [by rewrite app_nil_r|].
  rewrite app_assoc, last_call_snoc. destruct (bcall op svc a) eqn:Hb.
  - intros _. exists op, out. split; [set_solver|congruence].
  - intros Hne. destruct (IH Hne) as (op' & out' & ? & ?). exists op', out'. split; [set_solver|done].
Qed.
(** Between two accepted claims the worker bonded again. *)
Lemma c41_claims_apart g ops svc a l1 l2 l3 t1 o1 t2 o2 :
  srlog g ops = l1 ++ (ClaimStake t1 a svc, o1) :: l2 ++ (ClaimStake t2 a svc, o2) :: l3 ->
  exists funds o, (BondWorker a funds svc, o) ∈ l2.
Proof.
  unfold srlog. intros H. rewrite app_comm_cons, app_assoc in H.
  apply log_split in H as (ops1 & ops2 & s' & -> & Hl & Hs & _).
  cbn [registry_step] in Hs. apply claim_inv in Hs as (sv & w & n & t0 & Hsv & Hw & Hb & _).
  pose proof (winv_run g ops1 svc a) as Hi. unfold winv, srrun, srlog in Hi. unfold srrun in Hw. rewrite Hw, Hb in Hi.
  destruct Hi as (_ & _ & _ & Hi). rewrite Hl in Hi. clear Hw Hb Hsv.
  (* an unbond happened in l2; walk back to the bond *)
  assert (Hun : exists u l2a l2b o, l2 = l2a ++ (UnbondWorker u a svc, o) :: l2b).
  { clear Hl. induction l2 as [|[op out] l2 IH] using rev_ind.
    - rewrite last_call_snoc in Hi. cbn in Hi. rewrite bool_decide_true in Hi by done. done.
    - rewrite app_comm_cons, app_assoc, last_call_snoc in Hi. destruct (bcall op svc a) as [c|] eqn:Hb.
      + injection Hi as ->. destruct op; cbn in Hb; try done; case_bool_decide as Hc; try done.
        destruct Hc as [-> ->]. by exists time, l2, [], out.
      + destruct (IH Hi) as (u & la & lb & o & ->). exists u, la, (lb ++ [(op, out)]), o.
        by rewrite <- app_assoc. }
  destruct Hun as (u & la & lb & o & ->). clear Hi.
  assert (Hl' : log registry_step (registry_init g) ops1 =
    (l1 ++ (ClaimStake t1 a svc, o1) :: la) ++ (UnbondWorker u a svc, o) :: lb).
  { rewrite Hl. by rewrite <- app_assoc. }
  apply log_split in Hl' as (ops3 & ops4 & s2 & _ & Hl3 & Hs & _). cbn [registry_step] in Hs.
  apply unbond_inv in Hs as (sv' & w' & n' & _ & _ & Hw' & Hn' & _).
  pose proof (winv_run g ops3 svc a) as Hi. unfold winv, srrun, srlog in Hi. unfold srrun in Hw'. rewrite Hw' in Hi.
  destruct Hi as (_ & _ & _ & Hi). destruct Hn' as [Hn'|Hn']; rewrite Hn' in Hi; [|done].
  rewrite Hl3 in Hi. clear -Hi.
  assert (exists funds o, (BondWorker a funds svc, o) ∈ la) as (funds & o' & Hin);
    [|exists funds, o'; set_solver].
  induction la as [|[op out] la IH] using rev_ind.
  - rewrite last_call_snoc in Hi. cbn in Hi. rewrite bool_decide_true in Hi by done. done.
  - rewrite app_comm_cons, app_assoc, last_call_snoc in Hi. destruct (bcall op svc a) as [c|] eqn:Hb.
    + injection Hi as ->. destruct op; cbn in Hb; try done; case_bool_decide as Hc; try done.
      destruct Hc as [-> ->]. exists funds, out. set_solver.
    + destruct (IH Hi) as (funds & o' & ?). exists funds, o'. set_solver.
Qed.

(** The balance. *)
Lemma amount_of_one d d' n : amount_of d [(d', n)] = if bool_decide (d' = d) then n else 0.
Proof. unfold amount_of. by rewrite lsum_one. Qed.
Lemma msum_insert_any {K A} `{Countable K} (f : K -> A -> N) (m : gmap K A) k w :
  msum f (<[k := w]> m) + match m !! k with Some w0 => f k w0 | None => 0 end = msum f m + f k w.
Proof.
  destruct (m !! k) as [w0|] eqn:Hk.
  - by apply msum_insert.
  - rewrite msum_insert_fresh by done. lia.
Qed.
Definition owed_fun (s : srstate) (d : string) (k : string * addr) (w : worker) : N :=
  match sr_services s !! k.1 with
  | Some sv => if bool_decide (sv_denom sv = d) then owed (w_bond w) else 0
  | None => 0
  end.
Lemma owed_in_set s d svc a sv w :
  sr_services s !! svc = Some sv ->
  owed_in (set_workers s (<[(svc, a) := w]> (sr_workers s))) d +
    (if bool_decide (sv_denom sv = d) then owes s svc a else 0) =
  owed_in s d + (if bool_decide (sv_denom sv = d) then owed (w_bond w) else 0).
Proof.
  intros Hsv. unfold owed_in. cbn [set_workers sr_services sr_workers].
  pose proof (msum_insert_any (owed_fun s d) (sr_workers s) (svc, a) w) as H.
  unfold owed_fun at 4 in H. cbn [fst] in H. rewrite Hsv in H. fold (owed_fun s d).
  change (fun (k : string * string) (w0 : worker) => owed_fun s d k w0) with (owed_fun s d).
  rewrite <- H. f_equal. unfold owes, record, owed_fun. destruct (sr_workers s !! (svc, a)); cbn [fst].
  - by rewrite Hsv.
  - by case_bool_decide.
Qed.
Lemma owed_in_auth s d svc st ws :
  owed_in (set_workers s (foldl (authorize_one svc st) (sr_workers s) ws)) d = owed_in s d.
Proof.
  unfold owed_in. cbn [set_workers sr_services sr_workers]. generalize (sr_workers s) as m.
  induction ws as [|a ws IH]; intros m; cbn [foldl]; [done|]. rewrite IH. unfold authorize_one.
  pose proof (msum_insert_any (owed_fun s d) m (svc, a)) as H. unfold owed_fun in H.
  match goal with |- msum _ (<[_ := ?w]> _) = _ => specialize (H w) end. cbn [fst] in H.
  destruct (m !! (svc, a)) as [w|]; cbn [w_bond owed] in H.
  - lia.
  - destruct (sr_services s !! svc) as [sv|]; [|lia]. destruct (bool_decide _); lia.
Qed.

Definition binv (s : srstate) (l : list (srop * srout)) : Prop :=
  (forall svc a, is_Some (record s svc a) -> is_Some (sr_services s !! svc)) /\
  (forall a funds svc out, (BondWorker a funds svc, out) ∈ l -> is_Some (sr_services s !! svc)) /\
  forall d, owed_in s d + sent l d + stray s l d = received l d.
Lemma stray_snoc s l op out d :
  stray s (l ++ [(op, out)]) d = stray s l d +
  match op with
  | BondWorker _ funds svc =>
      match sr_services s !! svc with
      | Some sv => if bool_decide (sv_denom sv = d) then 0 else amount_of d funds
      | None => 0
      end
  | _ => 0
  end.
Proof. unfold stray. by rewrite lsum_app, lsum_one. Qed.
Lemma stray_mono s s' l d :
  (forall a funds svc out, (BondWorker a funds svc, out) ∈ l -> is_Some (sr_services s !! svc)) ->
  (forall svc sv, sr_services s !! svc = Some sv -> sr_services s' !! svc = Some sv) ->
  stray s' l d = stray s l d.
Proof.
  intros Hl Hm. unfold stray. apply lsum_ext. intros [op out] Hin. cbn [fst]. destruct op; try done.
  destruct (Hl _ _ _ _ Hin) as [sv Hsv]. by rewrite Hsv, (Hm _ _ Hsv).
Qed.
Lemma received_snoc l op out d :
  received (l ++ [(op, out)]) d = received l d + match op with BondWorker _ funds _ => amount_of d funds | _ => 0 end.
Proof. unfold received. by rewrite lsum_app, lsum_one. Qed.
Lemma sent_snoc l op out d : sent (l ++ [(op, out)]) d = sent l d + amount_of d out.*2.
Proof. unfold sent. by rewrite lsum_app, lsum_one. Qed.

Lemma binv_step s l op s' out :
  valid_funds op -> binv s l -> registry_step s op = Ok (s', out) -> binv s' (l ++ [(op, out)]).
Proof.
  intros Hvf (Hr & Hl & Hb) H. pose proof (step_service_of _ _ _ _ H) as Hso.
  assert (Hmono : forall svc sv, sr_services s !! svc = Some sv -> sr_services s' !! svc = Some sv).
  { intros. by eapply step_services_mono. }
  assert (Hsome : forall svc, is_Some (sr_services s !! svc) -> is_Some (sr_services s' !! svc)).
  { intros svc [sv Hsv]. rewrite (Hmono _ _ Hsv). done. }
  split_and!.
  - intros svc a Hw. pose proof (step_record s op s' out svc a H) as Hrec. apply Hsome.
    destruct op as [a0 sv0|a0 ws svc0|a0 ws svc0|a0 svc0 cs|a0 funds svc0|t a0 svc0|t a0 svc0];
      cbn [bcall acall] in Hrec; try (rewrite Hrec in Hw; by eapply Hr);
      case_bool_decide as Hc; try (rewrite Hrec in Hw; by eapply Hr);
      destruct Hc as [_ <-]; first [apply Hso|exact Hso].
  - intros a funds svc o [Hin|Heq%elem_of_list_singleton]%elem_of_app; [eauto|].
    injection Heq as <- <-. apply Hsome. exact Hso.
  - intros d. rewrite stray_snoc, received_snoc, sent_snoc, (stray_mono s s' l d Hl Hmono).
    specialize (Hb d).
    destruct op as [a0 sv0|a0 ws svc0|a0 ws svc0|a0 svc0 cs|a0 funds svc0|t a0 svc0|t a0 svc0];
      cbn [registry_step] in H.
    + unfold register_service in H. res_inv. subst. rewrite <- Hb.
      match goal with |- owed_in ?s' d + _ + _ = _ => assert (owed_in s' d = owed_in s d) as -> end; [|cbn; lia].
      unfold owed_in. cbn. apply msum_ext. intros [svc a] w Hw. cbn [fst].
      destruct (Hr svc a) as [sv Hsv]; [unfold record; by rewrite Hw|].
      apply bool_decide_eq_true in Hv0. rewrite lookup_insert_ne, Hsv by congruence. done.
    + unfold update_authorization in H. res_inv. subst. rewrite owed_in_auth. cbn. lia.
    + unfold update_authorization in H. res_inv. subst. rewrite owed_in_auth. cbn. lia.
    + unfold declare_chains in H. res_inv. subst. unfold owed_in in *. cbn in *. lia.
    + apply bond_inv in H as (sv & w' & Hsv & -> & -> & Hwb & Hf & _). cbn [set_workers sr_services].
      rewrite Hsv. pose proof (owed_in_set s d svc0 a0 sv w' Hsv) as Hos. rewrite Hwb in Hos.
      destruct Hvf as [Hnd _]. rewrite bond_amount_of in Hos by done. cbn [owed] in Hos.
      change (amount_of d ([] : srout).*2) with 0. case_bool_decide as Hd; [subst d|]; lia.
    + apply unbond_inv in H as (sv & w & n & Hsv & -> & Hw & Hn & ->).
      match goal with |- context [<[_ := ?w1]> _] => pose proof (owed_in_set s d svc0 a0 sv w1 Hsv) as Hos end.
      unfold owes in Hos. rewrite Hw in Hos. cbn [w_bond owed] in Hos.
      change (amount_of d ([] : srout).*2) with 0. destruct Hn as [Hn|Hn]; rewrite Hn in Hos; cbn [owed] in Hos; lia.
    + apply claim_inv in H as (sv & w & n & t0 & Hsv & Hw & Hn & _ & _ & -> & ->).
      match goal with |- context [<[_ := ?w1]> _] => pose proof (owed_in_set s d svc0 a0 sv w1 Hsv) as Hos end.
      unfold owes in Hos. rewrite Hw in Hos. cbn [w_bond owed] in Hos. rewrite Hn in Hos. cbn [owed] in Hos.
      cbn [fmap list_fmap snd]. rewrite amount_of_one. case_bool_decide; lia.
Qed.
Lemma c41_balance g ops d :
  Forall valid_funds ops ->
  owed_in (srrun g ops) d + sent (srlog g ops) d + stray (srrun g ops) (srlog g ops) d = received (srlog g ops) d.
Proof.
  intros Hv. revert d. apply (run_log_inv_ops registry_step valid_funds binv); [done| |].
  - split_and!.
    + intros svc a. unfold record. cbn. rewrite lookup_empty. by intros [? ?].
    + intros ???? H. by apply not_elem_of_nil in H.
    + intros d. unfold owed_in. cbn. by rewrite msum_empty.
  - intros s l op s' out Hvf Hm H. by eapply binv_step.
Qed.

(** C42. *)
Lemma is_ok_iff {E A} (r : res E A) : is_ok r = true <-> exists x, r = Ok x.
Proof. destruct r; cbn; naive_solver. Qed.
Lemma c42_claim g ops t a svc :
  t < U64 ->
  is_ok (registry_step (srrun g ops) (ClaimStake t a svc)) = true <->
  exists sv t0, get_service (srrun g ops) svc = Ok sv /\
    last_call (srlog g ops) svc a = Some (CUnbond t0) /\ t0 + period sv <= t.
Proof.
  intros Ht. rewrite is_ok_iff. pose proof (winv_run g ops svc a) as Hi. unfold winv in Hi. split.
  - intros [[s' out] H]. cbn [registry_step] in H.
    apply claim_inv in H as (sv & w & n & t0 & Hsv & Hw & Hb & _ & Hle & _).
    rewrite Hw, Hb in Hi. exists sv, t0. unfold get_service. rewrite Hsv. naive_solver.
  - intros (sv & t0 & Hsv & Hl & Hle). unfold get_service in Hsv. apply of_option_ok in Hsv.
    destruct (record (srrun g ops) svc a) as [w|] eqn:Hw; [|naive_solver].
    destruct Hi as (_ & _ & _ & Hi).
    destruct (w_bond w) as [| |n t1|] eqn:Hb; [rewrite Hl in Hi; naive_solver|done| |rewrite Hl in Hi; naive_solver].
    rewrite Hl in Hi. injection Hi as <-.
    destruct (claim_ok (srrun g ops) t a svc sv w n t0 Hsv Hw Hb Hle Ht) as [s' H]. cbn [registry_step]. eauto.
Qed.
Lemma c42_unbond g ops t a svc :
  is_ok (registry_step (srrun g ops) (UnbondWorker t a svc)) = true <->
  is_ok (get_service (srrun g ops) svc) = true /\ last_call (srlog g ops) svc a = Some CBond.
Proof.
  rewrite is_ok_iff. pose proof (winv_run g ops svc a) as Hi. unfold winv in Hi. split.
  - intros [[s' out] H]. cbn [registry_step] in H.
    apply unbond_inv in H as (sv & w & n & Hsv & _ & Hw & Hn & _). unfold get_service. rewrite Hsv.
    rewrite Hw in Hi. destruct Hn as [Hn|Hn]; rewrite Hn in Hi; naive_solver.
  - intros [Hsv Hl]. unfold get_service in Hsv.
    destruct (sr_services (srrun g ops) !! svc) as [sv|] eqn:Hsv'; [|done].
    destruct (record (srrun g ops) svc a) as [w|] eqn:Hw; [|naive_solver].
    destruct Hi as (_ & _ & _ & Hi). unfold record in Hw.
    cbn [registry_step]. unfold unbond_worker. rewrite Hsv', Hw. cbn [of_option rbind].
    destruct (w_bond w); [cbn; eauto|done|rewrite Hl in Hi; naive_solver..].
Qed.
Lemma c42_bond g ops a funds svc :
  valid_funds (BondWorker a funds svc) ->
  is_ok (registry_step (srrun g ops) (BondWorker a funds svc)) = true <->
  exists sv, get_service (srrun g ops) svc = Ok sv /\ (funds = [] \/ sv_denom sv ∈ funds.*1) /\
    owes (srrun g ops) svc a + amount_of (sv_denom sv) funds < U128 /\
    (owes (srrun g ops) svc a + amount_of (sv_denom sv) funds = 0 -> record (srrun g ops) svc a = None).
Proof.
  intros [Hnd Hlt]. rewrite is_ok_iff. generalize (srrun g ops) as s. intros s. split.
  - intros [[s' out] H]. cbn [registry_step] in H. pose proof H as H0.
    apply bond_inv in H as (sv & w' & Hsv & -> & -> & Hb & Hf & Hw). exists sv. unfold get_service.
    rewrite Hsv. rewrite <- bond_amount_of by done. split_and!; [done|done| |].
    + unfold bond_worker in H0. rewrite Hsv in H0. cbn [of_option rbind] in H0.
      apply rbind_ok in H0 as (bond & Hbd & H0). apply bond_funds in Hbd as [-> _].
      apply rbind_ok in H0 as (w2 & Hw2 & _). unfold owes, record.
      pose proof (bond_amount_lt (sv_denom sv) funds Hlt).
      destruct (sr_workers s !! (svc, a)) as [w|]; [|lia].
      apply rbind_ok in Hw2 as (b & Hadd & _). unfold add_bond in Hadd. apply rbind_ok in Hadd as (m & Hm & _).
      destruct (w_bond w); cbn [owed]; [apply add_u128_ok in Hm; lia..|lia].
    + intros Hz. destruct (record s svc a); [|done]. naive_solver.
  - intros (sv & Hsv & Hf & Hl & Hz). unfold get_service in Hsv. apply of_option_ok in Hsv.
    rewrite <- bond_amount_of in Hl, Hz by done.
    cbn [registry_step]. unfold bond_worker. rewrite Hsv. cbn [of_option rbind].
    assert (Hbd : match funds with
      | [] => Ok 0
      | _ => let? c := of_option WrongDenom (List.find (fun c => String.eqb c.1 (sv_denom sv)) funds) in Ok c.2
      end = Ok (bond_amount (sv_denom sv) funds)).
    { unfold bond_amount. destruct funds as [|c funds]; [done|].
      destruct (List.find (fun c : string * N => String.eqb c.1 (sv_denom sv)) (c :: funds)) as [c'|] eqn:Hfd; [done|].
      exfalso. destruct Hf as [Hf|Hf]; [done|]. apply elem_of_list_fmap in Hf as (c' & Hc & Hin).
      apply elem_of_list_In in Hin. pose proof (List.find_none _ _ Hfd _ Hin) as Hn. cbn in Hn.
      rewrite <- Hc, String.eqb_refl in Hn. done. }
    rewrite Hbd. cbn [rbind]. unfold owes, record in *. destruct (sr_workers s !! (svc, a)) as [w|]; [|cbn; eauto].
    assert (Hadd : exists b, add_bond (w_bond w) (bond_amount (sv_denom sv) funds) = Ok b).
    { unfold add_bond, add_u128, checked. destruct (w_bond w) as [n|n|n t|]; cbn [owed] in *.
      1-3: rewrite (proj2 (N.ltb_lt _ _) Hl); cbn [rbind].
      4: cbn [rbind]; rewrite N.add_0_l in Hz.
      all: match goal with |- context [?x =? 0] => destruct (N.eqb_spec x 0) end; [|eauto]; exfalso; naive_solver. }
    destruct Hadd as [b ->]. cbn. eauto.
Qed.
Lemma c42_rebond s a funds svc s' out :
  valid_funds (BondWorker a funds svc) ->
  registry_step s (BondWorker a funds svc) = Ok (s', out) ->
  exists sv, get_service s svc = Ok sv /\ out = [] /\
    bond_of s' svc a = Bonded (owes s svc a + amount_of (sv_denom sv) funds).
Proof.
  intros [Hnd _] H. cbn [registry_step] in H. apply bond_inv in H as (sv & w' & Hsv & -> & -> & Hb & _).
  exists sv. unfold get_service, bond_of. rewrite Hsv, record_set, bool_decide_true by done.
  rewrite <- bond_amount_of by done. done.
Qed.

(** C43. *)
Lemma btree_keys_sorted {A} (m : gmap addr A) :
  Sorted (fun x y => String.leb x y = true) (btree_iter m).*1.
Proof.
  unfold btree_iter.
  assert (H : Sorted (fun x y : addr * A => String.leb x.1 y.1 = true)
    (isort (fun x y => String.leb x.1 y.1) (map_to_list m))).
  { apply (isort_sorted (fun x y : addr * A => String.leb x.1 y.1)). intros x y. apply String.leb_total. }
  revert H. generalize (isort (fun x y : addr * A => String.leb x.1 y.1) (map_to_list m)).
  induction 1 as [|x l H IH Hh]; cbn; [constructor|]. constructor; [done|].
  destruct Hh; cbn; by constructor.
Qed.
Lemma leb_trans (x y z : string) : String.leb x y = true -> String.leb y z = true -> String.leb x z = true.
Proof.
  unfold String.leb. revert y z. induction x as [|c x IH]; intros y z; destruct y as [|d y], z as [|e z]; cbn; try done.
  destruct (Ascii.compare c d) eqn:H1, (Ascii.compare d e) eqn:H2; try done; intros Hxy Hyz.
  all: unfold Ascii.compare in *; destruct (N.compare _ _) eqn:H3 in |- *; try done.
  all: rewrite ?N.compare_eq_iff, ?N.compare_lt_iff, ?N.compare_gt_iff in *; try lia.
  by apply (IH y z).
Qed.
Lemma Sorted_filter {A} (R : A -> A -> Prop) (P : A -> Prop) `{forall x, Decision (P x)} l :
  (forall x y z, R x y -> R y z -> R x z) -> Sorted R l -> Sorted R (filter P l).
Proof.
  intros Ht Hs. apply StronglySorted_Sorted.
  assert (Hss : StronglySorted R l) by (apply Sorted_StronglySorted; [exact Ht|done]).
  induction Hss as [|x l Hl IH Hx]; [constructor|].
  assert (Sorted R l) by (by apply StronglySorted_Sorted).
  rewrite filter_cons. case_decide; [|auto]. constructor; [auto|].
  rewrite Forall_forall in *. intros y Hy. apply Hx. by apply elem_of_list_filter in Hy as [_ ?].
Qed.
Lemma Sorted_fmap {A B} (f : A -> B) (R : B -> B -> Prop) l :
  Sorted R (f <$> l) <-> Sorted (fun x y => R (f x) (f y)) l.
Proof.
  split.
  - induction l as [|x l IH]; cbn; [constructor|]. intros H. apply Sorted_inv in H as [H1 H2].
    constructor; [auto|]. destruct l; cbn in *; constructor. by apply HdRel_inv in H2.
  - induction 1 as [|x l H IH Hh]; cbn; [constructor|]. constructor; [done|]. destruct Hh; cbn; by constructor.
Qed.
Lemma try_map_total {E A B} (f : A -> res E B) l :
  (forall a, a ∈ l -> exists b, f a = Ok b) -> exists bs, try_map f l = Ok bs.
Proof.
  induction l as [|a l IH]; intros H; cbn; [eauto|]. destruct (H a) as [b ->]; [by left|]. cbn.
  destruct IH as [bs ->]; [intros; apply H; by right|]. cbn. eauto.
Qed.
Lemma NoDup_fmap_filter {A B} (f : A -> B) (P : A -> Prop) `{forall x, Decision (P x)} l :
  NoDup (f <$> l) -> NoDup (f <$> filter P l).
Proof.
  induction l as [|x l IH]; intros Hn; [constructor|]. apply NoDup_cons in Hn as [Hx Hn].
  rewrite filter_cons. case_decide; [|auto]. apply NoDup_cons. split; [|auto].
  intros Hin. apply Hx. apply elem_of_list_fmap in Hin as (y & Hy & Hin).
  apply elem_of_list_filter in Hin as [_ Hin]. apply elem_of_list_fmap. eauto.
Qed.
Lemma Forall2_in_l {A B} (R : A -> B -> Prop) l k x : Forall2 R l k -> x ∈ l -> exists y, y ∈ k /\ R x y.
Proof.
  induction 1 as [|a b l k Hab _ IH]; intros Hin; [by apply not_elem_of_nil in Hin|].
  apply elem_of_cons in Hin as [->|Hin]; [exists b; split; [left|done]|].
  destruct (IH Hin) as (y & ? & ?). exists y. split; [by right|done].
Qed.
Lemma Forall2_in_r {A B} (R : A -> B -> Prop) l k y : Forall2 R l k -> y ∈ k -> exists x, x ∈ l /\ R x y.
Proof.
  induction 1 as [|a b l k Hab _ IH]; intros Hin; [by apply not_elem_of_nil in Hin|].
  apply elem_of_cons in Hin as [->|Hin]; [exists a; split; [left|done]|].
  destruct (IH Hin) as (x & ? & ?). exists x. split; [by right|done].
Qed.
Lemma c43 g ops svc c sv :
  get_service (srrun g ops) svc = Ok sv ->
  exists ws, get_active_workers (srrun g ops) svc c = Ok ws /\
    NoDup (w_addr <$> ws) /\ Sorted (fun x y => String.leb x y = true) (w_addr <$> ws) /\
    forall w, w ∈ ws <->
      record (srrun g ops) svc (w_addr w) = Some w /\
      declared (srlog g ops) svc c (w_addr w) /\ authorised (srlog g ops) svc (w_addr w) /\
      last_call (srlog g ops) svc (w_addr w) = Some CBond /\ sv_min_bond sv <= owes (srrun g ops) svc (w_addr w).
Proof.
  intros Hsv. unfold get_service in Hsv. apply of_option_ok in Hsv. unfold get_active_workers. rewrite Hsv.
  cbn [of_option rbind].
  pose proof (fun a => winv_run g ops svc a) as Hi. pose proof (fun a => declares_run g ops svc c a) as Hd.
  set (s := srrun g ops) in *. set (l := srlog g ops) in *.
  set (its := btree_iter (default ∅ (sr_chains s !! (svc, c)))).
  assert (Hits : forall a, (a, tt) ∈ its <-> declares s svc c a) by (intros a; apply elem_of_btree_iter).
  destruct (try_map_total (E:=srerror) (fun x : addr * unit => of_option SrStdError (sr_workers s !! (svc, x.1))) its)
    as [ws Hws].
  { intros [a []] Hin. apply Hits in Hin. destruct (Hd a) as [_ H]. destruct (H Hin) as [w Hw]. exists w.
    unfold record in Hw. cbn. by rewrite Hw. }
  rewrite Hws. cbn [rbind]. apply try_map_ok in Hws.
  assert (Haddr : w_addr <$> ws = its.*1).
  { clearbody its. clear Hits. induction Hws as [|[a []] w its ws Hw _ IH]; [done|]. cbn [fmap list_fmap fst].
    f_equal; [|done]. apply of_option_ok in Hw. cbn in Hw. specialize (Hi a). unfold winv, record in Hi.
    rewrite Hw in Hi. apply Hi. }
  assert (Hmem : forall w, w ∈ ws <-> record s svc (w_addr w) = Some w /\ declares s svc c (w_addr w)).
  { intros w. split.
    - intros Hin. destruct (Forall2_in_r _ _ _ _ Hws Hin) as ([a []] & Hina & Hw). apply of_option_ok in Hw.
      cbn in Hw. pose proof (Hi a) as Ha. unfold winv, record in Ha. rewrite Hw in Ha. destruct Ha as (Ha & _).
      rewrite Ha. split; [done|]. by apply Hits.
    - intros [Hr Hdc]. apply Hits in Hdc. destruct (Forall2_in_l _ _ _ _ Hws Hdc) as (w' & Hin & Hw).
      apply of_option_ok in Hw. cbn in Hw. unfold record in Hr. rewrite Hr in Hw. injection Hw as ->. done. }
  eexists. split; [done|]. split_and!.
  - do 2 apply NoDup_fmap_filter. rewrite Haddr. apply btree_iter_NoDup.
  - apply Sorted_fmap. apply Sorted_filter; [intros x y z; apply leb_trans|].
    apply Sorted_filter; [intros x y z; apply leb_trans|].
    apply (Sorted_fmap w_addr (fun x y => String.leb x y = true)). rewrite Haddr. apply btree_keys_sorted.
  - intros w. rewrite !elem_of_list_filter, Hmem. destruct (Hd (w_addr w)) as [Hdd _]. rewrite Hdd.
    specialize (Hi (w_addr w)). unfold winv in Hi. unfold owes, authorised.
    change (last (omap _ l)) with (last_auth l svc (w_addr w)).
    split.
    + intros (Ha & Hb & Hr & Hdc). rewrite Hr in Hi |- *. destruct Hi as (_ & _ & Hau & Hbo).
      destruct (w_bond w); try done. apply N.leb_le in Hb. cbn [owed]. naive_solver.
    + intros (Hr & Hdc & Hau & Hl & Hb). rewrite Hr in Hi, Hb. destruct Hi as (_ & _ & Hau' & Hbo).
      split_and!; [naive_solver| |done|done]. destruct (w_bond w); [by apply N.leb_le|done|rewrite Hl in Hbo; naive_solver..].
Qed.

Lemma c43_unknown s svc c : is_ok (get_service s svc) = false -> get_active_workers s svc c = Err ServiceNotFound.
Proof. unfold get_service, get_active_workers. by destruct (sr_services s !! svc). Qed.

(** C44. *)
Lemma srrun_governance g ops : sr_governance (srrun g ops) = g.
Proof.
  apply (run_inv registry_step (fun s => sr_governance s = g)); [done|].
  intros s op s' out Hg [H _]%step_services. congruence.
Qed.
Lemma c44_governance g ops op :
  match op with RegisterService _ _ | AuthorizeWorkers _ _ _ | UnauthorizeWorkers _ _ _ => True | _ => False end ->
  is_ok (registry_step (srrun g ops) op) = true <->
  sender_of op = g /\
  match op with
  | RegisterService _ sv => is_ok (get_service (srrun g ops) (sv_name sv)) = false
  | AuthorizeWorkers _ _ svc | UnauthorizeWorkers _ _ svc => is_ok (get_service (srrun g ops) svc) = true
  | _ => False
  end.
Proof.
  pose proof (srrun_governance g ops) as Hg. revert Hg. generalize (srrun g ops) as s. intros s <-.
  destruct op as [a sv|a ws svc|a ws svc| | | |]; try done; intros _; cbn [registry_step sender_of];
    unfold register_service, update_authorization, get_service.
  - case_bool_decide as Ha; cbn [ensure rbind]; [subst a|naive_solver].
    destruct (sr_services s !! sv_name sv); cbn; naive_solver.
  - case_bool_decide as Ha; cbn [ensure rbind]; [subst a|naive_solver].
    destruct (sr_services s !! svc); cbn; naive_solver.
  - case_bool_decide as Ha; cbn [ensure rbind]; [subst a|naive_solver].
    destruct (sr_services s !! svc); cbn; naive_solver.
Qed.
Lemma c44_authorization s op s' out svc a :
  registry_step s op = Ok (s', out) -> auth_of s' svc a <> auth_of s svc a ->
  sender_of op = sr_governance s /\
  exists ws, a ∈ ws /\ (op = AuthorizeWorkers (sender_of op) ws svc \/ op = UnauthorizeWorkers (sender_of op) ws svc).
Proof.
  intros H Hne. pose proof (step_record s op s' out svc a H) as Hr. pose proof (step_service_of _ _ _ _ H) as Hso.
  assert (Hsame : forall w', record s' svc a = Some w' -> w_auth w' = auth_of s svc a -> False).
  { intros w' Hw Ha. apply Hne. unfold auth_of at 1. by rewrite Hw. }
  destruct op as [a0 sv0|a0 ws svc0|a0 ws svc0|a0 svc0 cs|a0 funds svc0|t a0 svc0|t a0 svc0];
    cbn [bcall acall sender_of] in *.
  - exfalso. apply Hne. unfold auth_of. by rewrite Hr.
  - case_bool_decide as Hc; [|exfalso; apply Hne; unfold auth_of; by rewrite Hr].
    destruct Hc as [Hin ->]. naive_solver.
  - case_bool_decide as Hc; [|exfalso; apply Hne; unfold auth_of; by rewrite Hr].
    destruct Hc as [Hin ->]. naive_solver.
  - exfalso. apply Hne. unfold auth_of. by rewrite Hr.
  - exfalso. case_bool_decide as Hc; [|apply Hne; unfold auth_of; by rewrite Hr].
    destruct Hr as (sv & w' & funds' & _ & _ & Hw & _ & Ha & _). by eapply Hsame.
  - exfalso. case_bool_decide as Hc; [|apply Hne; unfold auth_of; by rewrite Hr].
    destruct Hr as (w & n & Hw & _ & Hw'). eapply Hsame; [done|]. cbn. unfold auth_of. by rewrite Hw.
  - exfalso. case_bool_decide as Hc; [|apply Hne; unfold auth_of; by rewrite Hr].
    destruct Hr as (sv & w & n & t0 & Hw & _ & _ & _ & Hw'). eapply Hsame; [done|]. cbn. unfold auth_of. by rewrite Hw.
Qed.
Lemma c44_own_calls s op s' out svc a :
  registry_step s op = Ok (s', out) -> sender_of op <> a ->
  bond_of s' svc a = bond_of s svc a /\ forall c, declares s' svc c a <-> declares s svc c a.
Proof.
  intros H Hne. pose proof (step_record s op s' out svc a H) as Hr. split.
  - destruct op as [a0 sv0|a0 ws svc0|a0 ws svc0|a0 svc0 cs|a0 funds svc0|t a0 svc0|t a0 svc0];
      cbn [bcall acall sender_of] in *; unfold bond_of at 1.
    + by rewrite Hr.
    + case_bool_decide; [|by rewrite Hr]. destruct Hr as (w' & -> & -> & _). done.
    + case_bool_decide; [|by rewrite Hr]. destruct Hr as (w' & -> & -> & _). done.
    + by rewrite Hr.
    + rewrite bool_decide_false in Hr by naive_solver. by rewrite Hr.
    + rewrite bool_decide_false in Hr by naive_solver. by rewrite Hr.
    + rewrite bool_decide_false in Hr by naive_solver. by rewrite Hr.
  - intros c. rewrite (step_declares _ _ _ _ _ _ _ H). split; [|by left].
    intros [?|(cs & -> & _)]; [done|]. by cbn in Hne.
Qed.
Lemma c44_immutable g ops1 ops2 svc sv :
  get_service (srrun g ops1) svc = Ok sv -> get_service (srrun g (ops1 ++ ops2)) svc = Ok sv.
Proof.
  unfold srrun. rewrite run_app. unfold get_service. rewrite !of_option_ok.
  apply (run_rel registry_step (fun s1 s2 => sr_services s1 !! svc = Some sv -> sr_services s2 !! svc = Some sv)).
  - done.
  - auto.
  - intros s op s' out H. by eapply step_services_mono.
Qed.
Lemma c44_declared_forever g ops1 ops2 svc c a :
  declares (srrun g ops1) svc c a -> declares (srrun g (ops1 ++ ops2)) svc c a.
Proof.
  unfold srrun. rewrite run_app.
  apply (run_rel registry_step (fun s1 s2 => declares s1 svc c a -> declares s2 svc c a)).
  - done.
  - auto.
  - intros s op s' out H. rewrite (step_declares _ _ _ _ _ _ _ H). by left.
Qed.

(** C45. *)
Lemma c45_swapped s svc a : get_worker s svc a = of_option WorkerNotFound (record s a svc).
Proof. done. Qed.
