(** The router, the service registry, the gateway and the nexus gateway over
    texts. *)
From Verif Require Import Base BaseLemmas MapLemmas StdProofs Text TextLemmas StdModel RouterTypes RegistryTypes OperatorsModel MultisigTypes.
From Verif Require Import EncodingModel VerifierModel RewardsModel RegistryModel RouterModel GatewayModel NexusModel MultisigModel ProverModel.
From Verif Require Import StorageModel StorageSpec StorageProofs2 StorageProofs3 StorageProofs4 StorageProofs5 Storage2Model Storage2Spec Storage2Proofs Storage2Proofs2.
From Verif Require Import EventsModel JsonModel JsonSpec WireModel WireSpec WireProofs WireProofs2 WireProofs3.
From Verif Require Import Storage3Model Storage3Spec Storage3Proofs Storage3Proofs2.

Lemma text_map {A B} (e : A -> jval) (d : jval -> option A) (f : A -> B) a :
  (j ← of_wire (to_json (e a)); d j) = Some a -> (j ← of_wire (to_json (e a)); f <$> d j) = Some (f a).
Proof. destruct (of_wire (to_json (e a))) as [j|]; [|done]. cbn [mbind option_bind]. by intros ->. Qed.
Lemma text_null {B} (b : B) : (j ← of_wire (to_json JNull); (fun _ => b) <$> d_unit j) = Some b.
Proof. rewrite of_wire_to_json by constructor. done. Qed.
(** A configuration alone. *)
Lemma tsim_single {V} (P : string -> V -> Prop) (L : layout) enc n v :
  place L (SItem n) -> P n v -> tsim P L enc (to_text enc <$> {[n := v]}) {[n := v]}.
Proof.
  intros Hp Hv. split; [done|]. exists {[SItem n := v]}. split; [by apply stored_single|].
  intros k w Hk. apply lookup_singleton_Some in Hk as [<- <-]. done.
Qed.

(** ** The router *)
Definition rt_good (ns : string) (v : rtval) : Prop :=
  match v with
  | RvConfig _ => ns = "config"
  | RvChain e => ns = "chains" /\ proper_chain (ce_name e) /\ ce_frozen e < 4
  | RvLen n => ns = "gateways" /\ n < 2 ^ 32
  end.
Lemma rt_codec ns v : rt_good ns v -> (j ← of_wire (to_json (e_rtval v)); d_rtval ns j) = Some v.
Proof.
  destruct v as [c|e|n]; cbn [rt_good e_rtval].
  - intros ->. apply (text_map e_rt_config d_rt_config RvConfig). by apply (fwd_text _ _ _ 1 c fwd_rt_config); [lia|].
  - intros (-> & H). apply (text_map e_endpoint d_endpoint RvChain). apply (fwd_text _ _ _ 2 e fwd_endpoint); [lia|done].
  - intros (-> & H). apply (text_map JNum (d_num (2 ^ 32)) RvLen).
    apply (fwd_text JNum (d_num (2 ^ 32)) (fun n => n < 2 ^ 32) 0 n); [|lia|done]. intros m Hm. by apply num_ok.
Qed.
Lemma wp_p_chain n : wp rt_good (p_chain n) (fun o => forall e, o = Some e -> proper_chain (ce_name e) /\ ce_frozen e < 4).
Proof.
  intros [v|] Ho; cbn [wp]; [|done]. specialize (Ho v eq_refl). destruct v; cbn [wp]; try done.
  destruct Ho as [_ Ho]. by intros e' [= <-].
Qed.
Lemma wp_p_config : wp rt_good p_config (fun _ => True).
Proof. intros [[]|] Ho; done. Qed.
Lemma wp_p_contract : wp rt_good p_contract (fun _ => True).
Proof. intros [[]|] Ho; done. Qed.
Lemma wp_p_by_gateway g : wp rt_good (p_by_gateway g) (fun _ => True).
Proof.
  intros l Hl. eapply wp_bind; [apply (wp_collect _ _ _ (fun _ => True))|].
  - intros [x v] _. unfold p_indexed. cbn [fst snd]. destruct v; try done. destruct (_ <? _); [done|].
    eapply wp_bind; [apply wp_p_chain|]. intros [e|] _; [|done]. by destruct (chain_name_of _).
  - intros [|? [|? ?]] _; done.
Qed.
Lemma wp_p_update n f :
  slen n < 2 ^ 32 ->
  (forall o e, (forall e, o = Some e -> proper_chain (ce_name e) /\ ce_frozen e < 4) -> f o = Ok e ->
     proper_chain (ce_name e) /\ ce_frozen e < 4) ->
  wp rt_good (p_update n f) (fun _ => True).
Proof.
  intros Hn Hf. eapply wp_bind; [apply wp_p_chain|]. intros o Ho. eapply wp_bind; [apply wp_own; intros e He; exact (Hf o e Ho He)|].
  intros e He. eapply wp_bind; [instantiate (1 := fun _ => True); by destruct o|]. intros _ _. cbn [wp name_of rt_index_key rt_chain_key].
  split; [done|]. split; [by destruct He|done].
Qed.
Lemma lor_small f d : f < 4 -> N.lor f (direction_bits d) < 4.
Proof.
  intros Hf. assert (f = 0 \/ f = 1 \/ f = 2 \/ f = 3) as [ -> | [ -> | [ -> | -> ]]] by lia; destruct d; by vm_compute.
Qed.
Lemma ldiff_small f d : f < 4 -> N.ldiff f (direction_bits d) < 4.
Proof.
  intros Hf. assert (f = 0 \/ f = 1 \/ f = 2 \/ f = 3) as [ -> | [ -> | [ -> | -> ]]] by lia; destruct d; by vm_compute.
Qed.
Lemma wp_router op : router_text_ok op -> wp rt_good (router_prog op) (fun _ => True).
Proof.
  intros [Hc Ht]. eapply wp_bind; [apply wp_p_contract|]. intros config _. destruct op as [a c g|a c g|a c d|a c d|a ms]; cbn in Hc.
  - eapply wp_bind; [apply wp_p_config|]. intros cfg _. eapply wp_bind; [by apply (wp_own _ _ (fun _ => True))|]. intros _ _.
    eapply wp_bind; [apply wp_p_by_gateway|]. intros found _. eapply wp_bind; [by apply (wp_own _ _ (fun _ => True))|]. intros _ _.
    eapply wp_bind; [apply wp_p_update; [done|]|done]. intros [o|] e Ho He; [done|]. injection He as <-. cbn [ce_name ce_frozen direction_bits].
    split; [|lia]. by apply (chain_name_proper c), Hc.
  - eapply wp_bind; [apply wp_p_config|]. intros cfg _. eapply wp_bind; [by apply (wp_own _ _ (fun _ => True))|]. intros _ _.
    eapply wp_bind; [apply wp_p_by_gateway|]. intros found _. eapply wp_bind; [by apply (wp_own _ _ (fun _ => True))|]. intros _ _.
    eapply wp_bind; [apply wp_p_update; [done|]|done]. intros [o|] e Ho He; [|done]. injection He as <-. cbn [ce_name ce_frozen].
    by apply Ho.
  - eapply wp_bind; [apply wp_p_config|]. intros cfg _. eapply wp_bind; [by apply (wp_own _ _ (fun _ => True))|]. intros _ _.
    eapply wp_bind; [apply wp_p_update; [done|]|done]. intros [o|] e Ho He; [|done]. injection He as <-. cbn [ce_name ce_frozen].
    destruct (Ho o eq_refl). split; [done|by apply lor_small].
  - eapply wp_bind; [apply wp_p_config|]. intros cfg _. eapply wp_bind; [by apply (wp_own _ _ (fun _ => True))|]. intros _ _.
    eapply wp_bind; [apply wp_p_update; [done|]|done]. intros [o|] e Ho He; [|done]. injection He as <-. cbn [ce_name ce_frozen].
    destruct (Ho o eq_refl). split; [done|by apply ldiff_small].
  - unfold p_route. eapply wp_bind; [instantiate (1 := fun _ => True)|].
    + unfold p_validate. destruct (bool_decide _); [done|]. eapply wp_bind; [apply wp_p_by_gateway|]. intros found _.
      repeat (eapply wp_bind; [by apply (wp_own _ _ (fun _ => True))|]; intros ? _). done.
    + intros msgs _. eapply wp_bind; [apply (wp_collect _ _ _ (fun _ => True))|done]. intros x _.
      eapply wp_bind; [instantiate (1 := fun _ => True)|done]. unfold p_destination. eapply wp_bind; [apply wp_p_chain|].
      intros [e|] _; [by destruct (outgoing_frozen e)|by destruct (bool_decide _)].
Qed.
Lemma c104_router c ops :
  Forall router_text_ok ops ->
  let mt := run router_text_step (router_text_init c) ops in
  let s := run router_step (router_init c) ops in
  log router_text_step (router_text_init c) ops = log router_step (router_init c) ops /\
  texts_of router_layout e_rtval d_rtval router_stored mt s /\
  (forall op, router_text_ok op ->
     agree (texts_of router_layout e_rtval d_rtval router_stored) (router_text_step mt op)
       (map_err (fun e => TOwn (SOwn e)) (router_step s op))).
Proof.
  intros Hops mt s.
  assert (Hc : Forall router_call_ok ops) by (eapply Forall_impl; [exact Hops|]; by intros op []).
  destruct (c98_router c ops Hc) as (H1 & H2 & H3).
  destruct (texts_history rt_good router_layout e_rtval d_rtval ltac:(by vm_compute) rt_codec router_prog router_step router_text_ok
              router_stored ltac:(intros op [Hop _]; by apply keeps_router_prog) wp_router
              (router_text_init c) (router_bytes_init c) (router_init c) ops) as (G1 & G2 & G3 & _); [|done|done|done| |done].
  - apply tsim_single; [|done]. cbn. set_solver.
  - intros op [Hop _]. by apply H3.
Qed.

(** ** The service registry *)
Definition sr_good (ns : string) (v : srval) : Prop :=
  match v with
  | SvConfig _ => ns = "config"
  | SvService s => ns = "services" /\ proper_service s
  | SvDeclared => ns = "workers_per_chain"
  | SvWorker w => ns = "workers" /\ proper_bond (w_bond w)
  end.
Lemma sr_codec ns v : sr_good ns v -> (j ← of_wire (to_json (e_srval v)); d_srval ns j) = Some v.
Proof.
  destruct v as [g|s| |w]; cbn [sr_good e_srval].
  - intros ->. rewrite of_wire_to_json by (obj; apply readable_str). cbn [mbind option_bind]. reflexivity.
  - intros (-> & H). apply (text_map e_service d_service SvService). apply (fwd_text _ _ _ 1 s fwd_service); [lia|done].
  - intros ->. apply text_null.
  - intros (-> & H). apply (text_map e_worker d_worker SvWorker). apply (fwd_text _ _ _ 3 w fwd_worker); [lia|done].
Qed.
Lemma wp_q_service n : wp sr_good (q_service n) (fun _ => True).
Proof. intros [[]|] Ho; done. Qed.
Lemma wp_q_governance a : wp sr_good (q_governance a) (fun _ => True).
Proof. intros [[]|] Ho; try done. by apply wp_own. Qed.
Lemma wp_q_worker svc a : wp sr_good (q_worker svc a) (fun o => forall w, o = Some w -> proper_bond (w_bond w)).
Proof.
  intros [v|] Ho; cbn [wp]; [|done]. specialize (Ho v eq_refl). destruct v; cbn [wp]; try done.
  destruct Ho as [_ Ho]. by intros e' [= <-].
Qed.
Lemma wp_q_save svc a w : proper_bond (w_bond w) -> wp sr_good (q_save_worker svc a w) (fun _ => True).
Proof. intros H. split; [|done]. by split. Qed.
Ltac any := eapply wp_bind; [by apply (wp_own _ _ (fun _ => True))|].
Lemma wp_authorize ws svc st : wp sr_good (q_authorize ws svc st) (fun _ => True).
Proof.
  eapply wp_bind; [apply wp_q_service|]. intros o _. any. intros _ _. eapply wp_bind; [apply wp_for_each|done].
  intros a _. eapply wp_bind; [apply wp_q_worker|]. intros [w|] Hw; apply wp_q_save; [|done]. exact (Hw w eq_refl).
Qed.
Lemma add_u128_lt {E} a b n : add_u128 (E:=E) a b = Ok n -> n < 2 ^ 128.
Proof. intros H. apply checked_ok in H as [H ->]. exact H. Qed.
Lemma wp_registry op : registry_text_ok op -> wp sr_good (registry_prog op) (fun _ => True).
Proof.
  intros [Hc Ht]. destruct op as [a sv|a ws svc|a ws svc|a svc cs|a funds svc|t a svc|t a svc]; unfold registry_prog.
  - eapply wp_bind; [apply wp_q_governance|]. intros _ _. eapply wp_bind; [apply wp_q_service|]. intros o _. any. intros _ _.
    split; [by split|done].
  - eapply wp_bind; [apply wp_q_governance|]. intros _ _. apply wp_authorize.
  - eapply wp_bind; [apply wp_q_governance|]. intros _ _. apply wp_authorize.
  - eapply wp_bind; [apply wp_q_service|]. intros o _. any. intros _ _. eapply wp_bind; [apply wp_q_worker|]. intros w _. any. intros _ _.
    eapply wp_bind; [apply wp_for_each|done]. intros x _. by split.
  - eapply wp_bind; [apply wp_q_service|]. intros o _. any. intros sv _.
    eapply wp_bind; [apply (wp_own _ _ (fun n => n < 2 ^ 128))|].
    { intros n Hn. destruct funds as [|f funds]; [injection Hn as <-; done|].
      apply rbind_ok in Hn as (x & Hx & Hn). apply of_option_ok in Hx. injection Hn as <-.
      apply find_some in Hx as [Hx _]. rewrite Forall_forall in Ht. apply Ht. by apply elem_of_list_In. }
    intros bond Hb. eapply wp_bind; [apply wp_q_worker|]. intros w Hw.
    eapply wp_bind; [apply (wp_own _ _ (fun w => proper_bond (w_bond w)))|].
    { intros w' Hw'. destruct w as [w|]; [|by injection Hw' as <-].
      apply rbind_ok in Hw' as (b & Hadd & Hw'). injection Hw' as <-. cbn [w_bond].
      unfold add_bond in Hadd. apply rbind_ok in Hadd as (n & Hn & Hadd). destruct (n =? 0); [done|]. injection Hadd as <-.
      cbn [proper_bond]. destruct (w_bond w); [by apply add_u128_lt in Hn..|]. by injection Hn as <-. }
    intros w' Hw'. eapply wp_bind; [by apply wp_q_save|done].
  - eapply wp_bind; [apply wp_q_service|]. intros o _. any. intros sv _. eapply wp_bind; [apply wp_q_worker|]. intros ow Hw.
    eapply wp_bind; [apply (wp_own _ _ (fun w => proper_bond (w_bond w)))|].
    { intros w Ho. apply of_option_ok in Ho. by apply Hw. }
    intros w Hb. eapply wp_bind; [apply (wp_own _ _ proper_bond)|].
    { intros b H. cbv beta in Hb. unfold unbond in H. destruct (w_bond w); try done; (injection H as <-; split; [exact Hb|exact Ht]). }
    intros b Hb'. eapply wp_bind; [by apply wp_q_save|done].
  - eapply wp_bind; [apply wp_q_service|]. intros o _. any. intros sv _. eapply wp_bind; [apply wp_q_worker|]. intros ow Hw.
    any. intros w _. eapply wp_bind; [apply (wp_own _ _ (fun r => proper_bond r.1))|].
    { intros r H. unfold claim_bond in H. destruct (w_bond w); try done. apply rbind_ok in H as (due & _ & H).
      destruct (due <=? t); [|done]. by injection H as <-. }
    intros r Hr. eapply wp_bind; [by apply wp_q_save|done].
Qed.
Lemma wp_active svc chain : wp sr_good (q_active svc chain) (fun _ => True).
Proof.
  eapply wp_bind; [apply wp_q_service|]. intros o _. any. intros sv _ l Hl.
  eapply wp_bind; [apply (wp_collect _ _ _ (fun _ => True))|done]. intros x _. eapply wp_bind; [apply wp_q_worker|].
  by intros [w|] _.
Qed.
Lemma c104_registry g ops :
  Forall registry_text_ok ops ->
  let mt := run registry_text_step (registry_text_init g) ops in
  let s := run registry_step (registry_init g) ops in
  log registry_text_step (registry_text_init g) ops = log registry_step (registry_init g) ops /\
  texts_of registry_layout e_srval d_srval registry_stored mt s /\
  (forall op, registry_text_ok op ->
     agree (texts_of registry_layout e_srval d_srval registry_stored) (registry_text_step mt op)
       (map_err (fun e => TOwn (SOwn e)) (registry_step s op))) /\
  (forall svc chain, slen svc < 65535 -> slen chain < 65535 ->
     raw (in_texts e_srval d_srval (q_active svc chain)) mt =
       let? ws := map_err (fun e => TOwn (SOwn e)) (get_active_workers s svc chain) in Ok (mt, ws)).
Proof.
  intros Hops mt s.
  assert (Hc : Forall registry_call_ok ops) by (eapply Forall_impl; [exact Hops|]; by intros op []).
  destruct (c98_registry g ops Hc) as (H1 & H2 & H3 & H4).
  destruct (texts_history sr_good registry_layout e_srval d_srval ltac:(by vm_compute) sr_codec registry_prog registry_step registry_text_ok
              registry_stored ltac:(intros op [Hop _]; by apply keeps_registry_prog) wp_registry
              (registry_text_init g) (registry_bytes_init g) (registry_init g) ops) as (G1 & G2 & G3 & G4); [|done|done|done| |].
  - apply tsim_single; [|done]. cbn. set_solver.
  - intros op [Hop _]. by apply H3.
  - split; [done|]. split; [done|]. split; [done|]. intros svc chain Hsvc Hchain.
    apply (texts_query sr_good registry_layout e_srval d_srval ltac:(by vm_compute) sr_codec (q_active svc chain) (fun _ => True) mt _ _
             (keeps_q_active svc chain Hsvc Hchain) (wp_active svc chain) G4).
    by apply H4.
Qed.

(** ** The gateway *)
Definition gw_good (ns : string) (v : gwval) : Prop :=
  match v with GvConfig _ => ns = "config" | GvMessage m => ns = "outgoing_messages" /\ proper_message m end.
Lemma gw_codec ns v : gw_good ns v -> (j ← of_wire (to_json (e_gwval v)); d_gwval ns j) = Some v.
Proof.
  destruct v as [[a r]|m]; cbn [gw_good e_gwval gc_verifier gc_router].
  - intros ->. rewrite of_wire_to_json by (obj; apply readable_str). cbn [mbind option_bind]. reflexivity.
  - intros (-> & H). apply (text_map e_message d_message GvMessage).
    exact (fwd_text _ _ _ 2 m (proj1 codec_message) ltac:(lia) H).
Qed.
Lemma wp_gateway op : gateway_text_ok op -> wp gw_good (gateway_prog op) (fun _ => True).
Proof.
  intros [Hc Ht]. eapply wp_bind; [instantiate (1 := fun _ => True); by intros [[]|] Ho|]. intros c _.
  destruct op as [msgs answer|sender msgs answer].
  - destruct msgs as [|m ms]; [done|]. any. intros _ _. any. intros [p1 p2] _. cbn [snd]. by destruct p2.
  - destruct (bool_decide _).
    + any. intros _ _. eapply wp_bind; [apply wp_for_each|done]. intros m Hm. split; [|done]. split; [done|].
      rewrite Forall_forall in Ht. by apply Ht.
    + any. intros _ _. any. by intros p _.
Qed.
Lemma wp_g_messages ids : wp gw_good (g_messages ids) (fun _ => True).
Proof.
  eapply wp_any; [|done]. eapply wp_mono; [|apply (wp_collect _ _ _ (fun _ => True))]; [done|]. by intros id _ [[]|] Ho.
Qed.
Lemma c104_gateway c ops :
  Forall gateway_text_ok ops ->
  let mt := run gateway_text_step (gateway_text_init c) ops in
  let s := run gateway_step (gateway_init c) ops in
  log gateway_text_step (gateway_text_init c) ops = log gateway_step (gateway_init c) ops /\
  texts_of gateway_layout e_gwval d_gwval gateway_stored mt s /\
  (forall op, gateway_text_ok op ->
     agree (texts_of gateway_layout e_gwval d_gwval gateway_stored) (gateway_text_step mt op)
       (map_err (fun e => TOwn (SOwn e)) (gateway_step s op))) /\
  (forall ids, Forall (fun c => slen (cc_chain c) <= 65535) ids ->
     raw (in_texts e_gwval d_gwval (g_messages ids)) mt =
       let? a := map_err (fun e => TOwn (SOwn e)) (GatewayModel.get_messages s ids) in Ok (mt, a)).
Proof.
  intros Hops mt s.
  assert (Hc : Forall gateway_call_ok ops) by (eapply Forall_impl; [exact Hops|]; by intros op []).
  destruct (c98_gateway c ops Hc) as (H1 & H2 & H3 & H4).
  destruct (texts_history gw_good gateway_layout e_gwval d_gwval ltac:(by vm_compute) gw_codec gateway_prog gateway_step gateway_text_ok
              gateway_stored (fun op _ => gateway_keeps op) wp_gateway
              (gateway_text_init c) (gateway_bytes_init c) (gateway_init c) ops) as (G1 & G2 & G3 & G4); [|done|done|done| |].
  - apply tsim_single; [|done]. cbn. set_solver.
  - intros op [Hop _]. by apply H3.
  - split; [done|]. split; [done|]. split; [done|]. intros ids Hids.
    refine (texts_query gw_good gateway_layout e_gwval d_gwval ltac:(by vm_compute) gw_codec (g_messages ids) (fun _ => True) mt _ _
             _ (wp_g_messages ids) G4 (H4 ids Hids)).
    unfold g_messages. keep.
Qed.

(** ** The nexus gateway *)
Definition nx_good (ns : string) (v : nxval) : Prop :=
  match v with NvConfig _ => ns = "config" | NvRouted => ns = "routed_message_ids" end.
Lemma nx_codec ns v : nx_good ns v -> (j ← of_wire (to_json (e_nxval v)); d_nxval ns j) = Some v.
Proof.
  destruct v as [[a r]|]; cbn [nx_good e_nxval nc_nexus nc_router].
  - intros ->. rewrite of_wire_to_json by (obj; apply readable_str). cbn [mbind option_bind]. reflexivity.
  - intros ->. apply text_null.
Qed.
Lemma wp_n_fresh msgs : wp nx_good (n_fresh msgs) (fun _ => True).
Proof.
  induction msgs as [|m ms IH]; [done|]. eapply wp_bind; [instantiate (1 := fun _ => True); by intros [[]|] Ho|].
  intros b _. eapply wp_bind; [exact IH|]. done.
Qed.
Lemma wp_nexus op : wp nx_good (nexus_prog op) (fun _ => True).
Proof.
  eapply wp_bind; [instantiate (1 := fun _ => True); by intros [[]|] Ho|]. intros c _.
  destruct op as [sender msgs|sender msgs].
  - any. intros _ _. eapply wp_bind; [apply wp_n_fresh|]. intros fresh _. eapply wp_bind; [apply wp_for_each|done].
    intros m _. by split.
  - any. intros _ _. by destruct (from_nexus <$> msgs).
Qed.
Lemma c104_nexus c ops :
  Forall nexus_call_ok ops ->
  let mt := run nexus_text_step (nexus_text_init c) ops in
  let s := run nexus_step (nexus_init c) ops in
  log nexus_text_step (nexus_text_init c) ops = log nexus_step (nexus_init c) ops /\
  texts_of nexus_layout e_nxval d_nxval nexus_stored mt s /\
  (forall op, nexus_call_ok op ->
     agree (texts_of nexus_layout e_nxval d_nxval nexus_stored) (nexus_text_step mt op)
       (map_err (fun e => TOwn (SOwn e)) (nexus_step s op))).
Proof.
  intros Hops mt s.
  destruct (c98_nexus c ops Hops) as (H1 & H2 & H3).
  destruct (texts_history nx_good nexus_layout e_nxval d_nxval ltac:(by vm_compute) nx_codec nexus_prog nexus_step nexus_call_ok
              nexus_stored (fun op _ => nexus_keeps op) (fun op _ => wp_nexus op)
              (nexus_text_init c) (nexus_bytes_init c) (nexus_init c) ops) as (G1 & G2 & G3 & _); [|done|done|done|done|done].
  apply tsim_single; [|done]. cbn. set_solver.
Qed.
