(** The gateway and the nexus gateway over bytes. *)
From Verif Require Import Base BaseLemmas Text TextLemmas StdModel StdProofs.
From Verif Require Import EncodingModel EncodingProofs RouterTypes GatewayModel NexusModel.
From Verif Require Import StorageModel StorageSpec StorageProofs StorageProofs2 StorageProofs3 StorageProofs4 StorageProofs5.
From Verif Require Import Storage2Model Storage2Spec Storage2Proofs.

Ltac keep :=
  repeat match goal with
  | |- keeps _ (pbind _ _) => apply keeps_bind
  | |- keeps _ (own _) => apply keeps_own
  | |- keeps _ (Ret _) => exact I
  | |- keeps _ (Fail _) => exact I
  | |- keeps _ Crash => exact I
  | |- keeps _ (Get _ _) => split; [in_layout|]
  | |- keeps _ (Put _ _ _) => split; [in_layout|]
  | |- keeps _ (Del _ _) => split; [in_layout|]
  | |- keeps _ (for_each _ _) => apply keeps_for_each; intros ? _
  | |- keeps _ (collect _ _) => apply keeps_collect
  | |- keeps _ (match ?x with _ => _ end) => destruct x
  | |- forall _, _ => intro
  end.
Ltac just_reads :=
  repeat match goal with
  | |- reads (pbind _ _) => apply reads_bind
  | |- reads (own _) => apply reads_own
  | |- reads (Ret _) => exact I
  | |- reads (Fail _) => exact I
  | |- reads Crash => exact I
  | |- reads (collect _ _) => apply reads_collect
  | |- reads (match ?x with _ => _ end) => destruct x
  | |- forall _, _ => intro
  | |- reads (Get _ _) => intro
  end.

(** ** The gateway *)
Notation gw_holds := (holds all_ok gw_place gw_cell).
Lemma gateway_keeps op : keeps gateway_layout (gateway_prog op).
Proof. unfold gateway_prog, g_config, g_save. keep. Qed.
Lemma fits_gw c : slen (cc_chain c) <= 65535 -> fits (gw_message_key c).
Proof. intros H. by repeat constructor. Qed.
Lemma gw_get_config t s : gw_holds t s -> ideal g_config t = Ok (t, gw_config s).
Proof.
  intros Hh. unfold g_config. rewrite ideal_get by done.
  by rewrite (h_at _ _ _ _ _ Hh GwConfig I : t !! GW_CONFIG = Some (GvConfig (gw_config s))).
Qed.
Lemma gw_put t s m :
  gw_holds t s ->
  gw_holds (<[gw_message_key (m_cc m) := GvMessage m]> t)
    {| gw_config := gw_config s; gw_outgoing := <[m_cc m := m]> (gw_outgoing s) |}.
Proof.
  intros Hh. apply (holds_put _ _ _ gw_inj t s _ (GwMessage (m_cc m))); [done|done| |].
  - simpl. by rewrite lookup_insert.
  - intros [|c] Hne; simpl; [done|]. rewrite lookup_insert_ne; [done|congruence].
Qed.
Lemma gw_puts t s msgs :
  gw_holds t s -> Forall (fun m => slen (cc_chain (m_cc m)) <= 65535) msgs ->
  exists t', ideal (for_each g_save msgs) t = Ok (t', tt) /\
    gw_holds t' {| gw_config := gw_config s; gw_outgoing := foldl (fun st m => <[m_cc m := m]> st) (gw_outgoing s) msgs |}.
Proof.
  intros Hh Hm. revert t s Hh. induction Hm as [|m msgs Hm Hms IH]; intros t s Hh.
  - exists t. split; [done|]. by destruct s.
  - cbn [for_each foldl]. rewrite ideal_bind. unfold g_save at 1. rewrite ideal_put by (by apply fits_gw).
    cbn [ideal rbind fst snd]. apply (IH _ _ (gw_put t s m Hh)).
Qed.
Lemma gateway_like t s op :
  gw_holds t s -> True -> gateway_call_ok op -> agree gw_holds (ideal (gateway_prog op) t) (map_err SOwn (gateway_step s op)).
Proof.
  intros Hh _ Hop. unfold gateway_prog. rewrite ideal_bind, (gw_get_config t s Hh). cbn [rbind fst snd].
  destruct op as [msgs answer|a msgs answer]; cbn [gateway_step].
  - unfold gw_verify_messages. destruct msgs as [|m msgs]; [by simpl|].
    rewrite ideal_bind, ideal_own. destruct (ensure_unique_ids _) as [[]|e|]; cbn [map_err rbind]; [|done..].
    rewrite ideal_bind, ideal_own. destruct (partition_by_verified _ _) as [[v u]|e|]; cbn [map_err rbind fst snd]; [|done..].
    by destruct u.
  - case_bool_decide.
    + unfold route_outgoing_messages. rewrite ideal_bind, ideal_own.
      destruct (ensure_unique_ids _) as [[]|e|]; cbn [map_err rbind fst snd]; [|done..].
      rewrite ideal_bind. destruct (gw_puts t s msgs Hh Hop) as (t' & -> & H'). by simpl.
    + unfold route_incoming_messages. rewrite ideal_bind, ideal_own.
      destruct (ensure_unique_ids _) as [[]|e|]; cbn [map_err rbind fst snd]; [|done..].
      rewrite ideal_bind, ideal_own. destruct (partition_by_verified _ _) as [[v u]|e|]; cbn [map_err rbind fst snd]; [|done..].
      by destruct v.
Qed.
Lemma gateway_sim_init c : cells_sim gateway_layout all_ok gw_place gw_cell (fun _ => True) (gateway_bytes_init c) (gateway_init c).
Proof.
  split; [done|]. exists {[GW_CONFIG := GvConfig c]}. split; [apply stored_single; in_layout|].
  apply (holds_single _ _ _ gw_inj _ GwConfig); [done|done|].
  intros [|e] Hne; [done|]. simpl. by rewrite lookup_empty.
Qed.
Lemma gateway_query t s ids :
  gw_holds t s -> Forall (fun c => slen (cc_chain c) <= 65535) ids ->
  ideal (g_messages ids) t = let? a := map_err SOwn (GatewayModel.get_messages s ids) in Ok (t, a).
Proof.
  intros Hh Hi. unfold g_messages, GatewayModel.get_messages.
  induction Hi as [|c ids Hc Hi IH]; [done|]. cbn [collect try_map].
  rewrite ideal_bind, ideal_get by (by apply fits_gw).
  rewrite (h_at _ _ _ _ _ Hh (GwMessage c) I : t !! gw_message_key c = GvMessage <$> gw_outgoing s !! c).
  destruct (gw_outgoing s !! c) as [m|]; cbn; [|done]. fold (ideal (V:=gwval) (E:=serr gwerror) (A:=list message)).
  rewrite ideal_bind, IH. by destruct (try_map _ ids).
Qed.
Lemma c98_gateway c ops :
  Forall gateway_call_ok ops ->
  let m := run gateway_bytes_step (gateway_bytes_init c) ops in
  let s := run gateway_step (gateway_init c) ops in
  log gateway_bytes_step (gateway_bytes_init c) ops = log gateway_step (gateway_init c) ops /\
  gateway_stored m s /\
  (forall op, gateway_call_ok op -> agree gateway_stored (gateway_bytes_step m op) (map_err SOwn (gateway_step s op))) /\
  (forall ids, Forall (fun c => slen (cc_chain c) <= 65535) ids ->
     raw (g_messages ids) m = let? a := map_err SOwn (GatewayModel.get_messages s ids) in Ok (m, a)).
Proof.
  intros Hops m s.
  destruct (cells_history gateway_layout all_ok gw_place gw_cell ltac:(by vm_compute) gateway_prog gateway_step
              (fun _ => True) gateway_call_ok (fun op _ => gateway_keeps op) gateway_like (fun _ _ _ _ _ _ _ => I)
              (gateway_bytes_init c) (gateway_init c) ops (gateway_sim_init c) Hops) as (H1 & H2 & H3 & H4).
  split; [exact H1|]. split; [exact H2|]. split; [exact H3|]. intros ids Hids.
  apply (cells_query gateway_layout all_ok gw_place gw_cell ltac:(by vm_compute) (fun _ => True) _ m s _ H4).
  - unfold g_messages. keep.
  - unfold g_messages. just_reads.
  - intros t Hh _. by apply gateway_query.
Qed.

(** ** The nexus gateway *)
Notation nx_holds := (holds all_ok nx_place nx_cell).
Lemma keeps_n_fresh msgs : keeps nexus_layout (n_fresh msgs).
Proof. induction msgs as [|m ms IH]; simpl n_fresh; unfold n_is_routed; [exact I|]. keep; done. Qed.
Lemma nexus_keeps op : keeps nexus_layout (nexus_prog op).
Proof. unfold nexus_prog, n_config, n_set_routed. keep; apply keeps_n_fresh. Qed.
Lemma fits_nx c : slen (cc_chain c) <= 65535 -> fits (nx_routed_key c).
Proof. intros H. by repeat constructor. Qed.
Lemma nx_get t s msgs :
  nx_holds t s -> Forall (fun m => slen (cc_chain (m_cc m)) <= 65535) msgs ->
  ideal (n_fresh msgs) t = Ok (t, filter (fun m => m_cc m ∉ nx_routed s) msgs).
Proof.
  intros Hh Hm. induction Hm as [|m msgs Hm Hms IH]; [done|]. cbn [n_fresh].
  rewrite ideal_bind. unfold n_is_routed. rewrite ideal_get by (by apply fits_nx).
  rewrite (h_at _ _ _ _ _ Hh (NxRouted (m_cc m)) I : t !! nx_routed_key (m_cc m) = _). cbn [nx_cell].
  rewrite filter_cons. case_bool_decide as Hr.
  - rewrite decide_False by tauto. cbn [ideal rbind fst snd]. rewrite ideal_bind, IH. by simpl.
  - rewrite decide_True by done. cbn [ideal rbind fst snd]. rewrite ideal_bind, IH. by simpl.
Qed.
Lemma nx_put t s c :
  nx_holds t s ->
  nx_holds (<[nx_routed_key c := NvRouted]> t) {| nx_config := nx_config s; nx_routed := {[c]} ∪ nx_routed s |}.
Proof.
  intros Hh. apply (holds_put _ _ _ nx_inj t s _ (NxRouted c)); [done|done| |].
  - simpl. rewrite bool_decide_eq_true_2; [done|set_solver].
  - intros [|c'] Hne; simpl; [done|]. assert (c' <> c) by congruence.
    destruct (decide (c' ∈ nx_routed s)).
    + rewrite !bool_decide_eq_true_2; [done|done|set_solver].
    + rewrite !bool_decide_eq_false_2; [done|done|set_solver].
Qed.
Lemma nx_puts t s msgs :
  nx_holds t s -> Forall (fun m => slen (cc_chain (m_cc m)) <= 65535) msgs ->
  exists t', ideal (for_each (fun m => n_set_routed (m_cc m)) msgs) t = Ok (t', tt) /\
    nx_holds t' {| nx_config := nx_config s; nx_routed := foldl (fun st m => {[ m_cc m ]} ∪ st) (nx_routed s) msgs |}.
Proof.
  intros Hh Hm. revert t s Hh. induction Hm as [|m msgs Hm Hms IH]; intros t s Hh.
  - exists t. split; [done|]. by destruct s.
  - cbn [for_each foldl]. rewrite ideal_bind. unfold n_set_routed at 1. rewrite ideal_put by (by apply fits_nx).
    cbn [ideal rbind fst snd]. apply (IH _ _ (nx_put t s (m_cc m) Hh)).
Qed.
Lemma nexus_like t s op :
  nx_holds t s -> True -> nexus_call_ok op -> agree nx_holds (ideal (nexus_prog op) t) (map_err SOwn (nexus_step s op)).
Proof.
  intros Hh _ Hop. unfold nexus_prog. rewrite ideal_bind. unfold n_config. rewrite ideal_get by done.
  rewrite (h_at _ _ _ _ _ Hh NxConfig I : t !! NX_CONFIG = Some (NvConfig (nx_config s))). cbn [ideal rbind fst snd].
  destruct op as [a msgs|a msgs]; cbn [nexus_step].
  - unfold route_to_nexus. rewrite ideal_bind, ideal_own. destruct (ensure _ _) as [[]|e|]; cbn [map_err rbind fst snd]; [|done..].
    rewrite ideal_bind, (nx_get t s msgs Hh Hop). cbn [rbind fst snd]. rewrite ideal_bind.
    destruct (nx_puts t s (filter (fun m => m_cc m ∉ nx_routed s) msgs) Hh) as (t' & -> & H').
    { apply Forall_forall. intros m [_ Hin]%elem_of_list_filter. by eapply Forall_forall in Hop. }
    by simpl.
  - unfold route_to_router. rewrite ideal_bind, ideal_own. destruct (ensure _ _) as [[]|e|]; cbn [map_err rbind fst snd]; [|done..].
    by destruct (from_nexus <$> msgs).
Qed.
Lemma nexus_sim_init c : cells_sim nexus_layout all_ok nx_place nx_cell (fun _ => True) (nexus_bytes_init c) (nexus_init c).
Proof.
  split; [done|]. exists {[NX_CONFIG := NvConfig c]}. split; [apply stored_single; in_layout|].
  apply (holds_single _ _ _ nx_inj _ NxConfig); [done|done|].
  intros [|e] Hne; [done|]. simpl. rewrite bool_decide_eq_false_2; [done|set_solver].
Qed.
Lemma c98_nexus c ops :
  Forall nexus_call_ok ops ->
  let m := run nexus_bytes_step (nexus_bytes_init c) ops in
  let s := run nexus_step (nexus_init c) ops in
  log nexus_bytes_step (nexus_bytes_init c) ops = log nexus_step (nexus_init c) ops /\
  nexus_stored m s /\
  (forall op, nexus_call_ok op -> agree nexus_stored (nexus_bytes_step m op) (map_err SOwn (nexus_step s op))).
Proof.
  intros Hops m s.
  destruct (cells_history nexus_layout all_ok nx_place nx_cell ltac:(by vm_compute) nexus_prog nexus_step
              (fun _ => True) nexus_call_ok (fun op _ => nexus_keeps op) nexus_like (fun _ _ _ _ _ _ _ => I)
              (nexus_bytes_init c) (nexus_init c) ops (nexus_sim_init c) Hops) as (H1 & H2 & H3 & _).
  split; [exact H1|]. split; [exact H2|exact H3].
Qed.
