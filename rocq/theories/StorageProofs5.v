(** The service registry over bytes. *)
From Verif Require Import Base BaseLemmas Text TextLemmas StdModel StdProofs MapLemmas EncodingModel EncodingProofs.
From Verif Require Import RegistryTypes RegistryModel RegistryProofs.
From Verif Require Import StorageModel StorageSpec StorageProofs StorageProofs2 StorageProofs3 StorageProofs4.

Ltac in_layout := simpl; repeat (apply elem_of_cons; first [left; reflexivity | right]).

Record registry_holds (t : gmap skey srval) (s : srstate) : Prop := {
  sh_config : t !! SR_CONFIG = Some (SvConfig (sr_governance s));
  sh_service : forall n, t !! sr_service_key n = SvService <$> sr_services s !! n;
  sh_worker : forall svc a, t !! sr_worker_key svc a = SvWorker <$> sr_workers s !! (svc, a);
  sh_chain : forall svc c a, t !! sr_chain_key svc c a =
    (fun _ => SvDeclared) <$> (default ∅ (sr_chains s !! (svc, c)) !! a);
}.
Definition declared_known (s : srstate) : Prop :=
  forall svc c a, is_Some (default ∅ (sr_chains s !! (svc, c)) !! a) -> is_Some (sr_workers s !! (svc, a)).

Lemma fits_worker svc a : slen svc < 65535 -> fits (sr_worker_key svc a).
Proof. intros H. repeat constructor. lia. Qed.
Lemma fits_declared svc c a : slen svc < 65535 -> slen c < 65535 -> fits (sr_chain_key svc c a).
Proof. intros H1 H2. repeat constructor; lia. Qed.
Lemma fits_service n : fits (sr_service_key n).
Proof. constructor. Qed.

(** ** Reading *)
Section Read.
  Context (t : gmap skey srval) (s : srstate) (Hh : registry_holds t s).
  Lemma ideal_governance a :
    ideal (q_governance a) t =
    let? _ := map_err SOwn (ensure (bool_decide (sr_governance s = a)) SrUnauthorized) in Ok (t, tt).
  Proof using Hh.
    unfold q_governance. rewrite ideal_get by done. rewrite (sh_config _ _ Hh), ideal_own.
    by destruct (bool_decide _).
  Qed.
  Lemma ideal_service n : ideal (q_service n) t = Ok (t, sr_services s !! n).
  Proof using Hh.
    unfold q_service. rewrite ideal_get by apply fits_service. rewrite (sh_service _ _ Hh).
    by destruct (sr_services s !! n).
  Qed.
  Lemma ideal_worker svc a : slen svc < 65535 -> ideal (q_worker svc a) t = Ok (t, sr_workers s !! (svc, a)).
  Proof using Hh.
    intros H. unfold q_worker. rewrite ideal_get by (by apply fits_worker). rewrite (sh_worker _ _ Hh).
    by destruct (sr_workers s !! (svc, a)).
  Qed.
End Read.

(** ** Writing *)
Lemma holds_worker t s svc a w :
  registry_holds t s ->
  registry_holds (<[sr_worker_key svc a := SvWorker w]> t) (set_workers s (<[(svc, a) := w]> (sr_workers s))).
Proof.
  intros [H1 H2 H3 H4]. constructor; simpl.
  - by rewrite lookup_insert_ne.
  - intros n. by rewrite lookup_insert_ne.
  - intros svc' a'. destruct (decide ((svc', a') = (svc, a))) as [[= -> ->]|Hne].
    + by rewrite !lookup_insert.
    + rewrite lookup_insert_ne; [|intros [= -> ->]; done]. by rewrite lookup_insert_ne by congruence.
  - intros svc' c a'. by rewrite lookup_insert_ne.
Qed.
Lemma holds_service t s sv :
  registry_holds t s ->
  registry_holds (<[sr_service_key (sv_name sv) := SvService sv]> t)
    {| sr_governance := sr_governance s; sr_services := <[sv_name sv := sv]> (sr_services s);
       sr_chains := sr_chains s; sr_workers := sr_workers s |}.
Proof.
  intros [H1 H2 H3 H4]. constructor; simpl.
  - by rewrite lookup_insert_ne.
  - intros n. destruct (decide (n = sv_name sv)) as [->|Hne].
    + by rewrite !lookup_insert.
    + rewrite lookup_insert_ne by (by intros [= ?]). by rewrite lookup_insert_ne by congruence.
  - intros svc' a'. by rewrite lookup_insert_ne.
  - intros svc' c a'. by rewrite lookup_insert_ne.
Qed.
Lemma holds_declared t s svc c a :
  registry_holds t s ->
  registry_holds (<[sr_chain_key svc c a := SvDeclared]> t)
    {| sr_governance := sr_governance s; sr_services := sr_services s;
       sr_chains := <[(svc, c) := <[a := tt]> (default ∅ (sr_chains s !! (svc, c)))]> (sr_chains s);
       sr_workers := sr_workers s |}.
Proof.
  intros [H1 H2 H3 H4]. constructor; simpl.
  - by rewrite lookup_insert_ne.
  - intros n. by rewrite lookup_insert_ne.
  - intros svc' a'. by rewrite lookup_insert_ne.
  - intros svc' c' a'. destruct (decide ((svc', c') = (svc, c))) as [[= -> ->]|Hne].
    + rewrite lookup_insert. simpl. destruct (decide (a' = a)) as [->|Ha].
      * by rewrite !lookup_insert.
      * rewrite lookup_insert_ne; [|intros [= ->]; done]. by rewrite lookup_insert_ne by congruence.
    + rewrite lookup_insert_ne; [|intros [= -> -> ->]; done]. by rewrite lookup_insert_ne by congruence.
Qed.
Lemma ideal_authorize_all t s svc st ws :
  registry_holds t s -> slen svc < 65535 ->
  exists t', ideal (for_each (fun a =>
    let! w := q_worker svc a in
    q_save_worker svc a
      (match w with
       | Some w => {| w_addr := w_addr w; w_bond := w_bond w; w_auth := st; w_service := w_service w |}
       | None => {| w_addr := a; w_bond := Unbonded; w_auth := st; w_service := svc |}
       end)) ws) t = Ok (t', tt) /\
    registry_holds t' (set_workers s (foldl (authorize_one svc st) (sr_workers s) ws)).
Proof.
  intros Hh Hs. revert t s Hh. induction ws as [|a ws IH]; intros t s Hh.
  - exists t. split; [done|]. by destruct s.
  - cbn [for_each foldl]. rewrite ideal_bind, ideal_bind, (ideal_worker t s Hh) by done. cbn [rbind fst snd].
    unfold q_save_worker at 1. rewrite ideal_put by (by apply fits_worker). cbn [ideal rbind fst snd].
    destruct (IH _ _ (holds_worker t s svc a
      (match sr_workers s !! (svc, a) with
       | Some w => {| w_addr := w_addr w; w_bond := w_bond w; w_auth := st; w_service := w_service w |}
       | None => {| w_addr := a; w_bond := Unbonded; w_auth := st; w_service := svc |}
       end) Hh)) as (t' & E & H'). exists t'. split; [exact E|]. exact H'.
Qed.
Lemma ideal_declare_all t s svc a cs :
  registry_holds t s -> slen svc < 65535 -> Forall (fun c => slen c < 65535) cs ->
  exists t', ideal (for_each (fun c => Put (sr_chain_key svc c a) SvDeclared (Ret (V:=srval) (E:=serr srerror) tt)) cs) t = Ok (t', tt) /\
    registry_holds t' {| sr_governance := sr_governance s; sr_services := sr_services s;
         sr_chains := foldl (fun m c => <[(svc, c) := <[a := tt]> (default ∅ (m !! (svc, c)))]> m)
                        (sr_chains s) cs;
         sr_workers := sr_workers s |}.
Proof.
  intros Hh Hs Hcs. revert t s Hh. induction Hcs as [|c cs Hc Hcs IH]; intros t s Hh.
  - exists t. split; [done|]. by destruct s.
  - cbn [for_each foldl]. rewrite ideal_bind. rewrite ideal_put by (by apply fits_declared). cbn [ideal rbind fst snd].
    destruct (IH _ _ (holds_declared t s svc c a Hh)) as (t' & E & H'). exists t'. split; [exact E|]. exact H'.
Qed.

(** ** A call *)
Lemma registry_like t s op :
  registry_holds t s -> registry_call_ok op ->
  agree registry_holds (ideal (registry_prog op) t) (map_err SOwn (registry_step s op)).
Proof.
  intros Hh Hop.
  destruct op as [a sv|a ws svc|a ws svc|a svc cs|a funds svc|tm a svc|tm a svc];
    cbn [registry_prog registry_step registry_call_ok] in *.
  - rewrite ideal_bind, (ideal_governance t s Hh). destruct (bool_decide _); cbn [ensure map_err rbind fst snd]; [|done].
    unfold q_register_service, register_service. rewrite ideal_bind, (ideal_service t s Hh). cbn [rbind fst snd].
    rewrite ideal_bind, ideal_own. destruct (bool_decide _); cbn [ensure map_err rbind fst snd]; [|done].
    rewrite ideal_put by apply fits_service. cbn. split; [done|]. by apply holds_service.
  - rewrite ideal_bind, (ideal_governance t s Hh). destruct (bool_decide _); cbn [ensure map_err rbind fst snd]; [|done].
    unfold q_authorize, update_authorization. rewrite ideal_bind, (ideal_service t s Hh). cbn [rbind fst snd].
    rewrite ideal_bind, ideal_own. destruct (sr_services s !! svc); cbn [of_option map_err rbind fst snd]; [|done].
    rewrite ideal_bind. destruct (ideal_authorize_all t s svc Authorized ws Hh Hop) as (t' & -> & H').
    cbn. done.
  - rewrite ideal_bind, (ideal_governance t s Hh). destruct (bool_decide _); cbn [ensure map_err rbind fst snd]; [|done].
    unfold q_authorize, update_authorization. rewrite ideal_bind, (ideal_service t s Hh). cbn [rbind fst snd].
    rewrite ideal_bind, ideal_own. destruct (sr_services s !! svc); cbn [of_option map_err rbind fst snd]; [|done].
    rewrite ideal_bind. destruct (ideal_authorize_all t s svc NotAuthorized ws Hh Hop) as (t' & -> & H').
    cbn. done.
  - destruct Hop as [Hs Hcs].
    unfold q_declare, declare_chains. rewrite ideal_bind, (ideal_service t s Hh). cbn [rbind fst snd].
    rewrite ideal_bind, ideal_own. destruct (sr_services s !! svc); cbn [of_option map_err rbind fst snd]; [|done].
    rewrite ideal_bind, (ideal_worker t s Hh) by done. cbn [rbind fst snd].
    rewrite ideal_bind, ideal_own. destruct (sr_workers s !! (svc, a)); cbn [of_option map_err rbind fst snd]; [|done].
    rewrite ideal_bind. destruct (ideal_declare_all t s svc a cs Hh Hs Hcs) as (t' & -> & H').
    cbn. done.
  - unfold q_bond, bond_worker. rewrite ideal_bind, (ideal_service t s Hh). cbn [rbind fst snd].
    rewrite ideal_bind, ideal_own. destruct (sr_services s !! svc) as [sv|]; cbn [of_option map_err rbind fst snd]; [|done].
    rewrite ideal_bind, ideal_own.
    set (bond := match funds with [] => _ | _ => _ end).
    destruct bond as [b|e|]; cbn [map_err rbind fst snd]; [|done|done].
    rewrite ideal_bind, (ideal_worker t s Hh) by done. cbn [rbind fst snd].
    rewrite ideal_bind, ideal_own.
    set (w := match sr_workers s !! (svc, a) with Some _ => _ | None => _ end).
    destruct w as [w|e|]; cbn [map_err rbind fst snd]; [|done|done].
    rewrite ideal_bind. unfold q_save_worker. rewrite ideal_put by (by apply fits_worker).
    cbn. split; [done|]. by apply holds_worker.
  - unfold q_unbond, unbond_worker. rewrite ideal_bind, (ideal_service t s Hh). cbn [rbind fst snd].
    rewrite ideal_bind, ideal_own. destruct (sr_services s !! svc) as [sv|]; cbn [of_option map_err rbind fst snd]; [|done].
    rewrite ideal_bind, (ideal_worker t s Hh) by done. cbn [rbind fst snd].
    rewrite ideal_bind, ideal_own. destruct (sr_workers s !! (svc, a)) as [w|]; cbn [of_option map_err rbind fst snd]; [|done].
    rewrite ideal_bind, ideal_own. destruct (unbond _ _ _) as [b|e|]; cbn [map_err rbind fst snd]; [|done|done].
    rewrite ideal_bind. unfold q_save_worker. rewrite ideal_put by (by apply fits_worker).
    cbn. split; [done|]. by apply holds_worker.
  - unfold q_claim, claim_stake. rewrite ideal_bind, (ideal_service t s Hh). cbn [rbind fst snd].
    rewrite ideal_bind, ideal_own. destruct (sr_services s !! svc) as [sv|]; cbn [of_option map_err rbind fst snd]; [|done].
    rewrite ideal_bind, (ideal_worker t s Hh) by done. cbn [rbind fst snd].
    rewrite ideal_bind, ideal_own. destruct (sr_workers s !! (svc, a)) as [w|]; cbn [of_option map_err rbind fst snd]; [|done].
    rewrite ideal_bind, ideal_own. destruct (claim_bond _ _ _) as [b|e|]; cbn [map_err rbind fst snd]; [|done|done].
    rewrite ideal_bind. unfold q_save_worker. rewrite ideal_put by (by apply fits_worker).
    cbn. split; [done|]. by apply holds_worker.
Qed.

(** ** Declared places only *)
Lemma keeps_q_service n : keeps registry_layout (q_service n).
Proof. split; [in_layout|]. by intros [[]|]. Qed.
Lemma keeps_q_worker svc a : keeps registry_layout (q_worker svc a).
Proof. split; [in_layout|]. by intros [[]|]. Qed.
Lemma keeps_q_save_worker svc a w : keeps registry_layout (q_save_worker svc a w).
Proof. split; [in_layout|done]. Qed.
Lemma keeps_q_governance a : keeps registry_layout (q_governance a).
Proof. split; [in_layout|]. intros [[]|]; try done. apply keeps_own. Qed.
Ltac keeps_tac :=
  repeat match goal with
  | |- keeps _ (pbind _ _) => apply keeps_bind; [|intros ?]
  | |- keeps _ (own _) => apply keeps_own
  | |- keeps _ (q_service _) => apply keeps_q_service
  | |- keeps _ (q_worker _ _) => apply keeps_q_worker
  | |- keeps _ (q_save_worker _ _ _) => apply keeps_q_save_worker
  | |- keeps _ (q_governance _) => apply keeps_q_governance
  | |- keeps _ (for_each _ _) => apply keeps_for_each; intros ? _
  | |- keeps _ (Ret _) => exact I
  | |- keeps _ (Put _ _ _) => split; [in_layout|]
  | |- keeps _ (Scan _ _ _) => split; [in_layout|]
  end.
Lemma keeps_registry_prog op : keeps registry_layout (registry_prog op).
Proof.
  destruct op; cbn [registry_prog]; unfold q_register_service, q_authorize, q_declare, q_bond, q_unbond, q_claim; keeps_tac.
Qed.
Lemma keeps_q_active svc chain : slen svc < 65535 -> slen chain < 65535 -> keeps registry_layout (q_active svc chain).
Proof.
  intros H1 H2. unfold q_active. keeps_tac. split; [by repeat constructor|]. intros l.
  apply keeps_bind; [|done]. apply keeps_collect. intros x. keeps_tac.
  by match goal with |- keeps _ (match ?o with _ => _ end) => destruct o end.
Qed.

(** ** Declared workers are known *)
Lemma declared_known_step s op s' out :
  declared_known s -> registry_step s op = Ok (s', out) -> declared_known s'.
Proof.
  intros Hd Hr.
  assert (Hw : forall svc a w, declared_known (set_workers s (<[(svc, a) := w]> (sr_workers s)))).
  { intros svc a w svc' c a' Hs. simpl in *. destruct (decide ((svc', a') = (svc, a))) as [[= -> ->]|Hne].
    - rewrite lookup_insert. by eexists.
    - rewrite lookup_insert_ne by congruence. by apply (Hd svc' c). }
  destruct op as [a sv|a ws svc|a ws svc|a svc cs|a funds svc|tm a svc|tm a svc]; simpl in Hr.
  - apply rbind_ok in Hr as (_ & _ & Hr). unfold register_service in Hr. apply rbind_ok in Hr as (_ & _ & Hr).
    by injection Hr as <- _.
  - apply rbind_ok in Hr as (_ & _ & Hr). unfold update_authorization in Hr. apply rbind_ok in Hr as (_ & _ & Hr).
    injection Hr as <- _. intros svc' c a' Hs. simpl in *. apply (Hd svc' c) in Hs.
    clear -Hs. revert Hs. generalize (sr_workers s) as m. induction ws as [|b ws IH]; intros m Hm; [done|].
    simpl. apply IH. unfold authorize_one. destruct (decide ((svc', a') = (svc, b))) as [[= -> ->]|Hne].
    + rewrite lookup_insert. by eexists.
    + by rewrite lookup_insert_ne by congruence.
  - apply rbind_ok in Hr as (_ & _ & Hr). unfold update_authorization in Hr. apply rbind_ok in Hr as (_ & _ & Hr).
    injection Hr as <- _. intros svc' c a' Hs. simpl in *. apply (Hd svc' c) in Hs.
    clear -Hs. revert Hs. generalize (sr_workers s) as m. induction ws as [|b ws IH]; intros m Hm; [done|].
    simpl. apply IH. unfold authorize_one. destruct (decide ((svc', a') = (svc, b))) as [[= -> ->]|Hne].
    + rewrite lookup_insert. by eexists.
    + by rewrite lookup_insert_ne by congruence.
  - unfold declare_chains in Hr. apply rbind_ok in Hr as (_ & _ & Hr). apply rbind_ok in Hr as (w & Hwk & Hr).
    apply of_option_ok in Hwk. injection Hr as <- _. intros svc' c a' Hs. simpl in *.
    assert (Hk : is_Some (default ∅ (sr_chains s !! (svc', c)) !! a') \/ (svc', a') = (svc, a)).
    { clear -Hs. revert Hs. generalize (sr_chains s) as m. induction cs as [|b cs IH]; intros m Hs; [by left|].
      simpl in Hs. apply IH in Hs as [Hs|Hs]; [|by right].
      destruct (decide ((svc', c) = (svc, b))) as [[= -> ->]|Hne].
      - rewrite lookup_insert in Hs. simpl in Hs. destruct (decide (a' = a)) as [->|Ha]; [by right|].
        rewrite lookup_insert_ne in Hs by congruence. by left.
      - rewrite lookup_insert_ne in Hs by congruence. by left. }
    destruct Hk as [Hk|[= -> ->]]; [by apply (Hd svc' c)|]. by eexists.
  - unfold bond_worker in Hr. apply rbind_ok in Hr as (? & _ & Hr). apply rbind_ok in Hr as (? & _ & Hr).
    apply rbind_ok in Hr as (? & _ & Hr). injection Hr as <- _. apply Hw.
  - unfold unbond_worker in Hr. apply rbind_ok in Hr as (? & _ & Hr). apply rbind_ok in Hr as (? & _ & Hr).
    apply rbind_ok in Hr as (? & _ & Hr). injection Hr as <- _. apply Hw.
  - unfold claim_stake in Hr. apply rbind_ok in Hr as (? & _ & Hr). apply rbind_ok in Hr as (? & _ & Hr).
    apply rbind_ok in Hr as (? & _ & Hr). injection Hr as <- _. apply Hw.
Qed.

(** ** The query *)
Lemma declared_entries t s svc chain :
  registry_holds t s ->
  btree_iter (entries t "workers_per_chain" [svc; chain]) =
  (fun x => (x.1, SvDeclared)) <$> btree_iter (default ∅ (sr_chains s !! (svc, chain))).
Proof.
  intros Hh. symmetry. apply btree_of_list.
  - apply Sorted_fmap. apply btree_sorted.
  - rewrite <- list_fmap_compose. apply btree_keys_NoDup.
  - intros k v. rewrite lookup_entries. change (SEntry "workers_per_chain" [svc; chain] k) with (sr_chain_key svc chain k).
    rewrite (sh_chain _ _ Hh), elem_of_list_fmap. split.
    + intros ([n []] & [= -> ->] & Hin). apply elem_of_btree in Hin. by rewrite Hin.
    + destruct (default ∅ (sr_chains s !! (svc, chain)) !! k) as [[]|] eqn:E; [|done]. intros [= <-].
      exists (k, tt). split; [done|]. by apply elem_of_btree.
Qed.
Lemma ideal_active t s svc chain :
  registry_holds t s -> declared_known s -> slen svc < 65535 -> slen chain < 65535 ->
  ideal (q_active svc chain) t = let? ws := map_err SOwn (get_active_workers s svc chain) in Ok (t, ws).
Proof.
  intros Hh Hd Hs Hc. unfold q_active, get_active_workers. rewrite ideal_bind, (ideal_service t s Hh). cbn [rbind fst snd].
  rewrite ideal_bind, ideal_own. destruct (sr_services s !! svc) as [sv|]; cbn [of_option map_err rbind fst snd]; [|done].
  rewrite ideal_scan by (repeat constructor; lia). rewrite (declared_entries t s svc chain Hh).
  rewrite ideal_bind.
  assert (Hl : forall l : list (string * unit),
    Forall (fun x => is_Some (sr_workers s !! (svc, x.1))) l ->
    ideal (collect (fun kv => let! o := q_worker svc kv.1 in
                              match o with Some w => Ret w | None => Fail (SStd (E:=srerror)) end)
             ((fun x => (x.1, SvDeclared)) <$> l)) t =
    let? ws := map_err SOwn (try_map (fun x => of_option SrStdError (sr_workers s !! (svc, x.1))) l) in Ok (t, ws)).
  { induction 1 as [|x l [w Hw] Hl IH]; [done|]. rewrite fmap_cons. cbn [collect try_map fst].
    rewrite ideal_bind, ideal_bind, (ideal_worker t s Hh) by done. rewrite Hw. cbn [rbind ideal fst snd of_option].
    rewrite ideal_bind, IH. by destruct (try_map _ l). }
  rewrite Hl.
  - by destruct (try_map _ _).
  - apply Forall_forall. intros [a []] Ha. apply elem_of_btree in Ha. apply (Hd svc chain). simpl. by eexists.
Qed.

(** ** Programs that only read *)
Fixpoint reads {V E A} (p : prog V E A) : Prop :=
  match p with
  | Ret _ | Fail _ | Crash => True
  | Get _ f => forall o, reads (f o)
  | Put _ _ _ | Del _ _ => False
  | Scan _ _ f => forall l, reads (f l)
  end.
Lemma reads_bind {V E A B} (p : prog V E A) (g : A -> prog V E B) :
  reads p -> (forall a, reads (g a)) -> reads (pbind p g).
Proof. intros Hp Hg. induction p; simpl in *; naive_solver. Qed.
Lemma reads_own {V E A} (r : res E A) : reads (V:=V) (own r).
Proof. by destruct r. Qed.
Lemma reads_collect {V E A B} (f : A -> prog V E B) l : (forall a, reads (f a)) -> reads (collect f l).
Proof.
  intros Hf. induction l as [|a l IH]; simpl; [done|]. apply reads_bind; [done|]. intros b. by apply reads_bind.
Qed.
Lemma raw_reads {V E A} (p : prog V E A) m m' a : reads p -> raw p m = Ok (m', a) -> m' = m.
Proof.
  revert m m'. induction p as [b|e| |k f IH|k v p IH|k p IH|ns ps f IH]; intros m m' Hr Hp; simpl in *; try done.
  - by injection Hp as -> _.
  - destruct (path k); [|done]. by eapply IH.
  - destruct (match with_length ns with Some _ => _ | None => _ end) as [q|]; [|done].
    apply rbind_ok in Hp as (l & _ & Hp). by eapply IH.
Qed.
Lemma raw_query {V E F A} L (p : prog V F A) (m : gmap string V) t (r : res E A) (f : E -> F) :
  proper L = true -> keeps L p -> reads p -> stored L m t ->
  ideal p t = (let? a := map_err f r in Ok (t, a)) ->
  raw p m = let? a := map_err f r in Ok (m, a).
Proof.
  intros HL Hk Hr Hst Hi. pose proof (c97_faithful L p m t HL Hk Hst) as H. rewrite Hi in H.
  destruct (raw p m) as [[m' a]|e|] eqn:Er, r as [b|e'|]; simpl in H |- *; try done.
  - destruct H as [-> _]. by rewrite (raw_reads p m m' b Hr Er).
  - by subst.
Qed.
Lemma reads_q_active svc chain : reads (q_active svc chain).
Proof.
  unfold q_active. apply reads_bind; [intros [[]|]; done|]. intros o. apply reads_bind; [apply reads_own|].
  intros sv l. apply reads_bind; [|done]. apply reads_collect. intros x. apply reads_bind; [intros [[]|]; done|].
  by intros [|].
Qed.

(** ** The simulation *)
Definition registry_sim (m : gmap string srval) (s : srstate) : Prop :=
  declared_known s /\ exists t, stored registry_layout m t /\ registry_holds t s.
Lemma registry_sim_step m s op :
  registry_sim m s -> registry_call_ok op ->
  agree registry_sim (registry_bytes_step m op) (map_err SOwn (registry_step s op)).
Proof.
  intros (Hn & t & Hst & Hh) Hop.
  pose proof (c97_faithful registry_layout (registry_prog op) m t ltac:(by vm_compute) (keeps_registry_prog op) Hst) as H1.
  pose proof (registry_like t s op Hh Hop) as H2. unfold registry_bytes_step.
  pose proof (agree_trans _ _ _ _ _ H1 H2) as H3.
  destruct (raw (registry_prog op) m) as [[m' a]|e|], (registry_step s op) as [[s' b]|f|] eqn:Es; simpl in H3 |- *; try done.
  destruct H3 as [-> H3]. split; [done|]. split; [by apply (declared_known_step s op s' b)|done].
Qed.
Lemma registry_sim_init g : registry_sim (registry_bytes_init g) (registry_init g).
Proof.
  split; [intros svc c a; simpl; rewrite lookup_empty; simpl; rewrite lookup_empty; by intros [? ?]|].
  exists {[SR_CONFIG := SvConfig g]}. split.
  - split.
    + intros k [v Hv]. apply lookup_singleton_Some in Hv as [<- _]. split; [in_layout|done].
    + intros x v. unfold registry_bytes_init. rewrite lookup_singleton_Some. split.
      * intros [<- <-]. exists SR_CONFIG. split; [done|]. apply lookup_singleton.
      * intros (k & Hp & Hk). apply lookup_singleton_Some in Hk as [<- <-]. simpl in Hp. by injection Hp as <-.
  - constructor; simpl.
    + apply lookup_singleton.
    + intros n. by rewrite lookup_empty, lookup_singleton_ne.
    + intros svc a. by rewrite lookup_empty, lookup_singleton_ne.
    + intros svc c a. rewrite lookup_empty. simpl. by rewrite lookup_empty, lookup_singleton_ne.
Qed.
Lemma registry_sim_stored m s : registry_sim m s -> registry_stored m s.
Proof.
  intros (Hn & t & [Hp Hm] & Hh) x v. rewrite Hm. split.
  - intros (k & Hk & Hv). destruct (Hp k ltac:(by eexists)) as [Hpl _].
    destruct k as [i|ns ps l]; simpl in Hpl.
    + apply elem_of_list_singleton in Hpl as ->. left.
      pose proof (sh_config _ _ Hh) as Hc. unfold SR_CONFIG in Hc. rewrite Hc in Hv.
      injection Hv as <-. simpl in Hk. by injection Hk as <-.
    + right. apply elem_of_cons in Hpl as [[= -> Hl]|Hpl];
        [|apply elem_of_cons in Hpl as [[= -> Hl]|Hpl]; [|apply elem_of_list_singleton in Hpl as [= -> Hl]]].
      * left. destruct ps; [|done]. change (SEntry "services" [] l) with (sr_service_key l) in *.
        rewrite (sh_service _ _ Hh) in Hv. destruct (sr_services s !! l) as [e|] eqn:E; [|done]. injection Hv as <-.
        by exists l, e.
      * right. left. destruct ps as [|svc [|c [|]]]; try done.
        change (SEntry "workers_per_chain" [svc; c] l) with (sr_chain_key svc c l) in *.
        rewrite (sh_chain _ _ Hh) in Hv. destruct (sr_chains s !! (svc, c)) as [ws|] eqn:E; simpl in Hv.
        -- destruct (ws !! l) as [[]|] eqn:El; [|done]. injection Hv as <-. by exists svc, c, ws, l.
        -- by rewrite lookup_empty in Hv.
      * right. right. destruct ps as [|svc [|]]; try done.
        change (SEntry "workers" [svc] l) with (sr_worker_key svc l) in *.
        rewrite (sh_worker _ _ Hh) in Hv. destruct (sr_workers s !! (svc, l)) as [w|] eqn:E; [|done].
        injection Hv as <-. by exists svc, l, w.
  - intros [[-> ->]|[(n & e & He & Hk & ->)|[(svc & c & ws & a & Hw & Ha & Hk & ->)|(svc & a & w & Hw & Hk & ->)]]].
    + exists SR_CONFIG. split; [done|]. apply (sh_config _ _ Hh).
    + exists (sr_service_key n). split; [done|]. by rewrite (sh_service _ _ Hh), He.
    + exists (sr_chain_key svc c a). split; [done|]. rewrite (sh_chain _ _ Hh), Hw. simpl. by rewrite Ha.
    + exists (sr_worker_key svc a). split; [done|]. by rewrite (sh_worker _ _ Hh), Hw.
Qed.

Lemma c98_registry g ops :
  Forall registry_call_ok ops ->
  let m := run registry_bytes_step (registry_bytes_init g) ops in
  let s := run registry_step (registry_init g) ops in
  log registry_bytes_step (registry_bytes_init g) ops = log registry_step (registry_init g) ops /\
  registry_stored m s /\
  (forall op, registry_call_ok op ->
     agree registry_stored (registry_bytes_step m op) (map_err SOwn (registry_step s op))) /\
  (forall svc chain, slen svc < 65535 -> slen chain < 65535 ->
     raw (q_active svc chain) m = let? ws := map_err SOwn (get_active_workers s svc chain) in Ok (m, ws)).
Proof.
  intros Hops m s.
  destruct (sim_run registry_bytes_step registry_step registry_sim registry_call_ok registry_sim_step
              (registry_bytes_init g) (registry_init g) ops (registry_sim_init g) Hops) as [H1 H2].
  split; [done|]. split; [by apply registry_sim_stored|]. split.
  - intros op Hop. eapply agree_impl; [exact registry_sim_stored|]. by apply registry_sim_step.
  - intros svc chain Hs Hc. destruct H1 as (Hd & t & Hst & Hh).
    apply (raw_query registry_layout (q_active svc chain) m t _ SOwn);
      [by vm_compute|by apply keeps_q_active|apply reads_q_active|done|by apply ideal_active].
Qed.
