(** Router and gateway: what their events say. *)
From Verif Require Import Base BaseLemmas Text TextLemmas StdModel RouterTypes RouterModel RouterSpec RouterProofs
  GatewayModel GatewaySpec EventsModel JsonModel EventLogModel EventLogSpec.

(** ** The record *)
Lemma foldl_told {A} (read : emitted -> option A) l o :
  foldl (fun o e => match read e with Some a => Some a | None => o end) o l =
  match told read l with Some a => Some a | None => o end.
Proof.
  revert o. induction l as [|e l IH] using rev_ind; intros o; [done|]. unfold told in *.
  rewrite !foldl_app. cbn [foldl]. destruct (read e); [done|]. apply IH.
Qed.
Lemma told_app {A} (read : emitted -> option A) l1 l2 :
  told read (l1 ++ l2) = match told read l2 with Some a => Some a | None => told read l1 end.
Proof. unfold told at 1. rewrite foldl_app. apply foldl_told. Qed.
Lemma told_one {A} (read : emitted -> option A) e : told read [e] = read e.
Proof. unfold told. cbn. by destruct (read e). Qed.
Lemma told_none {A} (read : emitted -> option A) l : (forall e, e ∈ l -> read e = None) -> told read l = None.
Proof.
  induction l as [|e l IH] using rev_ind; [done|]. intros H. rewrite told_app, told_one, H.
  - apply IH. intros x Hx. apply H, elem_of_app. by left.
  - apply elem_of_app. right. by left.
Qed.
Lemma all_events_app {Op Out} (f : Out -> list emitted) (l1 l2 : list (Op * Out)) :
  all_events f (l1 ++ l2) = all_events f l1 ++ all_events f l2.
Proof. unfold all_events. induction l1 as [|x l1 IH]; [done|]. cbn. rewrite <- app_assoc. f_equal. exact IH. Qed.
Lemma all_events_snoc {Op Out} (f : Out -> list emitted) (l : list (Op * Out)) op out :
  all_events f (l ++ [(op, out)]) = all_events f l ++ f out.
Proof. rewrite all_events_app. unfold all_events at 2. cbn. by rewrite app_nil_r. Qed.
Lemma happened_app p l1 l2 : happened p (l1 ++ l2) <-> happened p l1 \/ happened p l2.
Proof. unfold happened. setoid_rewrite elem_of_app. naive_solver. Qed.
Lemma happened_one p e : happened p [e] <-> p e = true.
Proof. unfold happened. setoid_rewrite elem_of_list_singleton. naive_solver. Qed.

(** ** Messages *)
Lemma says_message_attrs m : says_message (message_attrs m) = Some m.
Proof. unfold says_message, message_attrs. cbn. rewrite of_to_hex. cbn. by destruct m as [[] ? ? ? ?]. Qed.

Lemma has_eq k v e : has k v e = bool_decide (attr k e.2 = Some v).
Proof. done. Qed.

(** ** Router *)
Lemma says_gateway_message chain m : says_gateway chain (message_event "message_routed" m) = None.
Proof. done. Qed.
Lemma routed_no_gateway chain ms : told (says_gateway chain) (message_event "message_routed" <$> ms) = None.
Proof. apply told_none. intros e (m & -> & _)%elem_of_list_fmap. done. Qed.
Lemma registered_says chain c g :
  says_gateway chain ("chain_registered", [("name", c); ("gateway", g)]) = if bool_decide (c = chain) then Some g else None.
Proof. unfold says_gateway, ty, has. cbn. case_bool_decide as H1; case_bool_decide as H2; naive_solver. Qed.
Lemma upgraded_says chain c g :
  says_gateway chain ("gateway_upgraded", [("chain", c); ("gateway_address", g)]) = if bool_decide (c = chain) then Some g else None.
Proof. unfold says_gateway, ty, has. cbn. case_bool_decide as H1; case_bool_decide as H2; naive_solver. Qed.

Definition router_said (s : rtstate) (l : list (rtop * rtout)) : Prop :=
  rtinv s /\ (forall chain, told (says_gateway chain) (all_events router_events l) = ce_gateway <$> rt_chains s !! chain) /\
  (forall chain e, rt_chains s !! chain = Some e ->
     happened (fun x => ty "chain_frozen" x && has "name" chain x) (all_events router_events l) \/ ce_frozen e = 0).

Lemma router_said_step s l op s' out :
  router_said s l -> router_step s op = Ok (s', out) -> router_said s' (l ++ [(op, out)]).
Proof.
  intros (Hi & Hg & Hf) Hs. pose proof (rtinv_step _ _ _ _ Hi Hs) as Hi'. split; [done|].
  setoid_rewrite all_events_snoc. setoid_rewrite happened_app. setoid_rewrite told_app.
  destruct op as [a c g|a c g|a c d|a c d|a ms]; cbn [router_step] in Hs.
  - apply rbind_ok in Hs as (? & _ & Hs). apply register_ok in Hs as (_ & Hn & -> & ->); [|done].
    cbn [set_chains rt_chains router_events]. setoid_rewrite told_one. setoid_rewrite registered_says. split.
    + intros chain. case_bool_decide as Hc; [subst; by rewrite lookup_insert|]. rewrite lookup_insert_ne by done. apply Hg.
    + intros chain e. rewrite lookup_insert_Some. intros [[<- <-]|[Hne He]]; [by right|].
      destruct (Hf _ _ He); [left; by left|by right].
  - apply rbind_ok in Hs as (? & _ & Hs). apply upgrade_ok in Hs as (e0 & _ & Hn & -> & ->); [|done].
    cbn [set_chains rt_chains router_events]. setoid_rewrite told_one. setoid_rewrite upgraded_says. split.
    + intros chain. case_bool_decide as Hc; [subst; by rewrite lookup_insert|]. rewrite lookup_insert_ne by done. apply Hg.
    + intros chain e. rewrite lookup_insert_Some. intros [[<- <-]|[Hne He]]; [cbn [ce_frozen]|];
        (destruct (Hf _ _ ltac:(eassumption)); [left; by left|by right]).
  - apply rbind_ok in Hs as (? & _ & Hs). apply freeze_ok in Hs as (e0 & Hn & -> & ->).
    cbn [set_chains rt_chains router_events]. setoid_rewrite told_one. split.
    + intros chain. cbn [says_gateway]. change (says_gateway chain ("chain_frozen", [("name", c)])) with (@None string).
      cbn beta iota. rewrite Hg. destruct (decide (c = chain)) as [->|Hne]; [by rewrite lookup_insert, Hn|by rewrite lookup_insert_ne].
    + intros chain e. rewrite lookup_insert_Some. intros [[<- <-]|[Hne He]].
      * left. right. apply happened_one. unfold ty, has. cbn. by rewrite !bool_decide_true.
      * destruct (Hf _ _ He); [left; by left|by right].
  - apply rbind_ok in Hs as (? & _ & Hs). apply unfreeze_ok in Hs as (e0 & Hn & -> & ->).
    cbn [set_chains rt_chains router_events]. setoid_rewrite told_one. split.
    + intros chain. change (says_gateway chain ("chain_frozen", [("name", c)])) with (@None string).
      cbn beta iota. rewrite Hg. destruct (decide (c = chain)) as [->|Hne]; [by rewrite lookup_insert, Hn|by rewrite lookup_insert_ne].
    + intros chain e. rewrite lookup_insert_Some. intros [[<- <-]|[Hne He]].
      * left. right. apply happened_one. unfold ty, has. cbn. by rewrite !bool_decide_true.
      * destruct (Hf _ _ He); [left; by left|by right].
  - pose proof (route_state _ _ _ _ _ Hs) as ->. unfold route_messages in Hs.
    apply rbind_ok in Hs as (ms' & _ & Hs). apply rbind_ok in Hs as (sent & _ & Hs). injection Hs as <-.
    cbn [router_events]. setoid_rewrite routed_no_gateway. split; [done|].
    intros chain e He. destruct (Hf _ _ He); [left; by left|by right].
Qed.

Lemma router_said_run c ops : router_said (rtrun c ops) (rtlog c ops).
Proof.
  unfold rtrun, rtlog. apply (run_log_inv router_step router_said).
  - split; [apply rtinv_init|]. cbn. split; [intros chain; by rewrite lookup_empty|]. intros chain e. by rewrite lookup_empty.
  - intros. by eapply router_said_step.
Qed.

Lemma router_gateways c ops chain :
  told (says_gateway chain) (router_instantiated c :: all_events router_events (rtlog c ops)) =
  ce_gateway <$> rt_chains (rtrun c ops) !! chain.
Proof.
  change (router_instantiated c :: ?l) with ([router_instantiated c] ++ l). rewrite told_app.
  destruct (router_said_run c ops) as (_ & H & _). rewrite H. destruct (_ <$> _); [done|]. done.
Qed.
Lemma router_unfrozen c ops chain e :
  rt_chains (rtrun c ops) !! chain = Some e ->
  ~ happened (fun x => ty "chain_frozen" x && has "name" chain x) (all_events router_events (rtlog c ops)) ->
  incoming_frozen e = false /\ outgoing_frozen e = false.
Proof.
  destruct (router_said_run c ops) as (_ & _ & H). intros He Hn. destruct (H _ _ He) as [|H0]; [done|].
  unfold incoming_frozen, outgoing_frozen. by rewrite H0.
Qed.

(** Where a message went. *)
Lemma router_handed c ops l1 op out l2 to m :
  rtlog c ops = l1 ++ (op, out) :: l2 ->
  handed out to m <->
  message_event "message_routed" m ∈ router_events out /\
  to = default (rc_nexus c) (told (says_gateway (m_dchain m)) (all_events router_events l1)).
Proof.
  intros Hl. unfold rtlog in Hl. apply log_split in Hl as (ops1 & ops2 & s' & -> & <- & Hs & _).
  change (run router_step (router_init c) ops1) with (rtrun c ops1) in Hs.
  change (log router_step (router_init c) ops1) with (rtlog c ops1).
  destruct (router_said_run c ops1) as (_ & Hg & _). rewrite Hg.
  destruct op as [a c' g|a c' g|a c' d|a c' d|a ms].
  1-4: cbn [router_step] in Hs; unfold register_chain, upgrade_gateway, freeze_chain, unfreeze_chain in Hs;
    repeat (apply rbind_ok in Hs as (? & _ & Hs)); injection Hs as <- <-; cbn [handed router_events];
    split; [done|]; intros [Hx%elem_of_list_singleton _]; discriminate Hx.
  destruct (c30_sent c ops1 a ms s' out Hs) as (sent & -> & -> & Hc & Hall). cbn [handed router_events].
  assert (Hev : message_event "message_routed" m ∈ (message_event "message_routed" <$> ms) <-> m ∈ ms).
  { rewrite elem_of_list_fmap. split; [|by eauto]. intros (m' & Hm & Hin). replace m with m'; [done|].
    apply (f_equal snd) in Hm. cbn [snd message_event] in Hm. pose proof (says_message_attrs m) as H1.
    rewrite Hm, says_message_attrs in H1. by injection H1. }
  rewrite Hev. rewrite <- Hc, Forall_forall in *.
  assert (Hto : forall x m, x ∈ sent -> m ∈ x.2 -> x.1 = default (rc_nexus c) (ce_gateway <$> rt_chains (rtrun c ops1) !! m_dchain m)).
  { intros x m' Hx Hm. destruct (Hall x Hx) as [_ Hgo]. rewrite Forall_forall in Hgo. specialize (Hgo _ Hm). cbn beta in Hgo.
    unfold goes_to, get_chain_info in Hgo. destruct (rt_chains (rtrun c ops1) !! m_dchain m') as [e|]; cbn [of_option] in Hgo.
    - destruct (outgoing_frozen e); [done|]. by injection Hgo.
    - rewrite config_run in Hgo. case_bool_decide; [done|]. by injection Hgo. }
  split.
  - intros (ms' & Hin & Hm). split; [|exact (Hto _ _ Hin Hm)].
    apply elem_of_list_In, in_concat. exists ms'. split; apply elem_of_list_In; [|done].
    apply elem_of_list_fmap. by exists (to, ms').
  - intros [Hm ->]. apply elem_of_list_In, in_concat in Hm as (ms' & Hin & Hm). apply elem_of_list_In in Hin, Hm.
    apply elem_of_list_fmap in Hin as (x & -> & Hx). exists x.2. rewrite <- (Hto _ _ Hx Hm). destruct x. done.
Qed.

(** ** Gateway *)
Lemma says_routed_event id m :
  says_routed id (message_event "message_routed" m) = if bool_decide (m_cc m = id) then Some m else None.
Proof.
  unfold says_routed, ty, has, message_event. cbn [fst snd]. rewrite says_message_attrs. cbn.
  destruct m as [[c i] s d a h], id as [c' i']; cbn.
  repeat case_bool_decide; cbn; naive_solver.
Qed.
Lemma says_routed_failed id m : says_routed id (message_event "message_routing_failed" m) = None.
Proof. done. Qed.
Lemma told_routed id ms (st : gmap ccid message) :
  match told (says_routed id) (message_event "message_routed" <$> ms) with Some m => Some m | None => st !! id end =
  foldl (fun st m => <[m_cc m := m]> st) st ms !! id.
Proof.
  induction ms as [|m ms IH] using rev_ind; [done|].
  rewrite fmap_app, told_app, foldl_app. cbn [fmap list_fmap foldl]. rewrite told_one, says_routed_event.
  case_bool_decide as H; [subst; by rewrite lookup_insert|]. by rewrite lookup_insert_ne.
Qed.
Lemma told_failed id ms : told (says_routed id) (message_event "message_routing_failed" <$> ms) = None.
Proof. apply told_none. intros e (m & -> & _)%elem_of_list_fmap. done. Qed.
Lemma told_events id o :
  told (says_routed id) (gateway_events o) = told (says_routed id) (message_event "message_routed" <$> go_routed o).
Proof. unfold gateway_events. by rewrite told_app, told_failed. Qed.

Lemma last_entry (r : list (ccid * bool)) id (m0 : gmap ccid bool) :
  foldl (fun m x => <[x.1 := x.2]> m) m0 r !! id = Some true -> (id, true) ∈ r \/ m0 !! id = Some true.
Proof.
  revert m0. induction r as [|[i b] r IH]; intros m0; [by right|]. cbn [foldl]. intros [H|H]%IH.
  - left. by right.
  - cbn [fst snd] in H. rewrite lookup_insert_Some in H. destruct H as [[-> ->]|[_ H]]; [left; by left|by right].
Qed.

Lemma gateway_said_step own id s l op s' out :
  cc_chain id <> own -> vouches_for own op ->
  told (says_routed id) (all_events gateway_events l) = gw_outgoing s !! id ->
  gateway_step s op = Ok (s', out) ->
  told (says_routed id) (all_events gateway_events (l ++ [(op, out)])) = gw_outgoing s' !! id.
Proof.
  intros Hid Hop Hl Hs. rewrite all_events_snoc, told_app, told_events, Hl.
  destruct op as [ms answer|a ms answer]; cbn [gateway_step] in Hs.
  - apply rbind_ok in Hs as (o & Ho & Hs). injection Hs as <- <-.
    replace (go_routed o) with (@nil message); [done|]. symmetry. unfold gw_verify_messages in Ho.
    destruct ms; [by injection Ho as <-|]. apply rbind_ok in Ho as (? & _ & Ho). apply rbind_ok in Ho as ([? un] & _ & Ho).
    destruct un; by injection Ho as <-.
  - case_bool_decide as Ha.
    + unfold route_outgoing_messages in Hs. apply rbind_ok in Hs as (? & _ & Hs). injection Hs as <- <-.
      cbn [go_routed gw_outgoing]. apply told_routed.
    + apply rbind_ok in Hs as (o & Ho & Hs). injection Hs as <- <-. unfold route_incoming_messages in Ho.
      apply rbind_ok in Ho as (? & _ & Ho). apply rbind_ok in Ho as ([ver un] & Hp & Ho). injection Ho as <-.
      cbn [go_routed]. unfold partition_by_verified in Hp. apply rbind_ok in Hp as (r & Hr & Hp).
      apply of_option_ok in Hr. injection Hp as <- _.
      rewrite told_none; [done|]. intros e (m & -> & Hm)%elem_of_list_fmap. rewrite says_routed_event.
      apply elem_of_list_filter in Hm as [Hv Hm]. rewrite bool_decide_false; [done|]. intros <-.
      destruct (_ !! m_cc m) as [b|] eqn:Hb in Hv; [|done]. cbn in Hv. subst b. apply last_entry in Hb as [Hb|Hb].
      * by apply Hid, (Hop r).
      * by rewrite lookup_empty in Hb.
Qed.

Lemma gateway_outgoing own c ops id :
  Forall (vouches_for own) ops -> cc_chain id <> own ->
  told (says_routed id) (all_events gateway_events (gwlog c ops)) = gw_outgoing (gwrun c ops) !! id.
Proof.
  intros Hops Hid. unfold gwlog, gwrun.
  apply (run_log_inv_ops gateway_step (vouches_for own)
           (fun s l => told (says_routed id) (all_events gateway_events l) = gw_outgoing s !! id)); [done| |].
  - cbn. by rewrite lookup_empty.
  - intros s l op s' out Hop Hl Hs. by eapply gateway_said_step.
Qed.
