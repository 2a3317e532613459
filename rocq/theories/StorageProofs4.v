(** The router over bytes. *)
From Verif Require Import Base BaseLemmas Text TextLemmas StdModel StdProofs MapLemmas EncodingModel EncodingProofs.
From Verif Require Import RouterTypes RouterModel RouterSpec RouterProofs.
From Verif Require Import StorageModel StorageSpec StorageProofs StorageProofs2 StorageProofs3.

(** ** Histories of a program over bytes against the model *)
Section Sim.
  Context {M S E O R : Type} (stepb : M -> O -> res (serr E) (M * R)) (step : S -> O -> res E (S * R)).
  Context (sim : M -> S -> Prop) (ok : O -> Prop).
  Context (Hstep : forall m s op, sim m s -> ok op -> agree sim (stepb m op) (map_err SOwn (step s op))).
  Lemma sim_run m s ops :
    sim m s -> Forall ok ops ->
    sim (run stepb m ops) (run step s ops) /\ log stepb m ops = log step s ops.
  Proof using Hstep.
    intros Hs Hops. revert m s Hs. induction Hops as [|op ops Hop Hops IH]; intros m s Hs; simpl; [done|].
    pose proof (Hstep m s op Hs Hop) as H. unfold exec, log1.
    destruct (stepb m op) as [[m' a]|e|], (step s op) as [[s' b]|f|]; simpl in H; try done.
    - destruct H as [-> H]. destruct (IH m' s' H) as [H1 H2]. by rewrite H2.
    - by apply IH.
    - by apply IH.
  Qed.
End Sim.
Lemma agree_trans {E A M T S} (R1 : M -> T -> Prop) (R2 : T -> S -> Prop) (r1 : res E (M * A)) r2 r3 :
  agree R1 r1 r2 -> agree R2 r2 r3 -> agree (fun m s => exists t, R1 m t /\ R2 t s) r1 r3.
Proof.
  destruct r1 as [[? ?]|?|], r2 as [[? ?]|?|], r3 as [[? ?]|?|]; simpl; try done; try congruence.
  intros [-> ?] [-> ?]. eauto.
Qed.
Lemma agree_impl {E A M S} (R1 R2 : M -> S -> Prop) (r1 : res E (M * A)) r2 :
  (forall m s, R1 m s -> R2 m s) -> agree R1 r1 r2 -> agree R2 r1 r2.
Proof. intros H. destruct r1 as [[? ?]|?|], r2 as [[? ?]|?|]; simpl; try done. intros [-> ?]. auto. Qed.

(** ** The router's programs use only what is declared *)
Lemma keeps_p_chain n : keeps router_layout (p_chain n).
Proof. split; [apply chain_place|]. by intros [[]|]. Qed.
Lemma keeps_p_config : keeps router_layout p_config.
Proof. split; [apply config_place|]. by intros [[]|]. Qed.
Lemma keeps_p_contract : keeps router_layout p_contract.
Proof. split; [apply config_place|]. by intros [[]|]. Qed.
Lemma keeps_p_indexed x : keeps router_layout (p_indexed x).
Proof.
  unfold p_indexed. destruct (x.2); try done. destruct (_ <? _); [done|]. apply keeps_bind; [apply keeps_p_chain|].
  intros [e|]; [|done]. by destruct (chain_name_of _).
Qed.
Lemma keeps_p_by_gateway g : slen g < 65535 -> keeps router_layout (p_by_gateway g).
Proof.
  intros Hg. simpl. split.
  - repeat (apply elem_of_cons; first [left; reflexivity | right]).
  - split; [by repeat constructor|]. intros l. apply keeps_bind; [apply keeps_collect, keeps_p_indexed|].
    by intros [|? [|? ?]].
Qed.
Lemma keeps_p_update n f : keeps router_layout (p_update n f).
Proof.
  apply keeps_bind; [apply keeps_p_chain|]. intros o. apply keeps_bind; [apply keeps_own|]. intros e.
  apply keeps_bind.
  - destruct o; [|done]. split; [apply index_place|done].
  - intros _. split; [apply index_place|]. split; [apply chain_place|done].
Qed.
Lemma keeps_p_validate c a ms : slen a < 65535 -> keeps router_layout (p_validate c a ms).
Proof.
  intros Ha. unfold p_validate. destruct (bool_decide _); [done|].
  apply keeps_bind; [by apply keeps_p_by_gateway|]. intros o. apply keeps_bind; [apply keeps_own|]. intros e.
  apply keeps_bind; [apply keeps_own|]. intros _. apply keeps_bind; [apply keeps_own|]. done.
Qed.
Lemma keeps_router_prog op : router_call_ok op -> keeps router_layout (router_prog op).
Proof.
  intros Hop. unfold router_prog. apply keeps_bind; [apply keeps_p_contract|]. intros c.
  destruct op as [a n g|a n g|a n d|a n d|a ms]; simpl in Hop.
  - apply keeps_bind; [apply keeps_p_config|]. intros ?. apply keeps_bind; [apply keeps_own|]. intros _.
    apply keeps_bind; [apply keeps_p_by_gateway; tauto|]. intros o. apply keeps_bind; [apply keeps_own|]. intros _.
    apply keeps_bind; [apply keeps_p_update|]. done.
  - apply keeps_bind; [apply keeps_p_config|]. intros ?. apply keeps_bind; [apply keeps_own|]. intros _.
    apply keeps_bind; [apply keeps_p_by_gateway; tauto|]. intros o. apply keeps_bind; [apply keeps_own|]. intros _.
    apply keeps_bind; [apply keeps_p_update|]. done.
  - apply keeps_bind; [apply keeps_p_config|]. intros ?. apply keeps_bind; [apply keeps_own|]. intros _.
    apply keeps_bind; [apply keeps_p_update|]. done.
  - apply keeps_bind; [apply keeps_p_config|]. intros ?. apply keeps_bind; [apply keeps_own|]. intros _.
    apply keeps_bind; [apply keeps_p_update|]. done.
  - apply keeps_bind; [by apply keeps_p_validate|]. intros l. apply keeps_bind; [|done].
    apply keeps_collect. intros [ch y]. apply keeps_bind; [|done].
    apply keeps_bind; [apply keeps_p_chain|]. intros [e|]; simpl.
    + by destruct (outgoing_frozen e).
    + by destruct (bool_decide _).
Qed.

(** ** Names stay chain names *)
Lemma names_insert s n e :
  router_names s -> chain_name_of n = Some n -> slen (ce_gateway e) <= 65535 ->
  router_names (set_chains s (<[n := e]> (rt_chains s))).
Proof.
  intros Hs Hn He k e'. simpl. destruct (decide (k = n)) as [->|Hk].
  - rewrite lookup_insert. intros [= <-]. done.
  - rewrite lookup_insert_ne by done. apply Hs.
Qed.
Lemma names_step s op s' out :
  router_names s -> router_call_ok op -> router_step s op = Ok (s', out) -> router_names s'.
Proof.
  intros Hs Hop Hr. destruct op as [a n g|a n g|a n d|a n d|a ms]; simpl in Hop, Hr.
  - destruct Hop as [Hn Hg]. apply rbind_ok in Hr as (_ & _ & Hr). unfold register_chain in Hr.
    apply rbind_ok in Hr as (o & _ & Hr). apply rbind_ok in Hr as (_ & _ & Hr).
    destruct (rt_chains s !! n); [done|]. simpl in Hr. injection Hr as <- _. apply names_insert; simpl; [done..|lia].
  - destruct Hop as [Hn Hg]. apply rbind_ok in Hr as (_ & _ & Hr). unfold upgrade_gateway in Hr.
    apply rbind_ok in Hr as (o & _ & Hr). apply rbind_ok in Hr as (_ & _ & Hr).
    destruct (rt_chains s !! n); [|done]. simpl in Hr. injection Hr as <- _. apply names_insert; simpl; [done..|lia].
  - apply rbind_ok in Hr as (_ & _ & Hr). unfold freeze_chain in Hr.
    destruct (rt_chains s !! n) as [e|] eqn:E; [|done]. simpl in Hr. injection Hr as <- _.
    apply names_insert; simpl; [done..|]. by destruct (Hs n e E).
  - apply rbind_ok in Hr as (_ & _ & Hr). unfold unfreeze_chain in Hr.
    destruct (rt_chains s !! n) as [e|] eqn:E; [|done]. simpl in Hr. injection Hr as <- _.
    apply names_insert; simpl; [done..|]. by destruct (Hs n e E).
  - unfold route_messages in Hr. apply rbind_ok in Hr as (? & _ & Hr). apply rbind_ok in Hr as (? & _ & Hr).
    by injection Hr as <- _.
Qed.

(** ** The simulation *)
Definition router_sim (m : gmap string rtval) (s : rtstate) : Prop :=
  router_names s /\ exists t, stored router_layout m t /\ router_holds t s.
Lemma router_sim_step m s op :
  router_sim m s -> router_call_ok op ->
  agree router_sim (router_bytes_step m op) (map_err SOwn (router_step s op)).
Proof.
  intros (Hn & t & Hst & Hh) Hop.
  pose proof (c97_faithful router_layout (router_prog op) m t ltac:(by vm_compute) (keeps_router_prog op Hop) Hst) as H1.
  pose proof (router_like t s op Hh Hn Hop) as H2. unfold router_bytes_step.
  destruct (raw (router_prog op) m) as [[m' a]|e|], (ideal (router_prog op) t) as [[t' b]|e'|]; simpl in H1; try done.
  - destruct H1 as [-> H1]. destruct (router_step s op) as [[s' o]|f|] eqn:Es; simpl in H2 |- *; try done.
    destruct H2 as [-> H2]. split; [done|]. split; [by apply (names_step s op s' o)|]. eauto.
  - subst e'. destruct (router_step s op) as [[s' o]|f|] eqn:Es; simpl in H2 |- *; destruct e; try done. by subst.
  - destruct (router_step s op) as [[s' o]|f|] eqn:Es; simpl in H2 |- *; done.
Qed.
Lemma router_sim_init c : router_sim (router_bytes_init c) (router_init c).
Proof.
  split; [intros n e; simpl; by rewrite lookup_empty|].
  exists {[RT_CONFIG := RvConfig c]}. split.
  - split.
    + intros k [v Hv]. apply lookup_singleton_Some in Hv as [<- _]. split; [apply config_place|done].
    + intros x v. unfold router_bytes_init. rewrite lookup_singleton_Some. split.
      * intros [<- <-]. exists RT_CONFIG. split; [done|]. apply lookup_singleton.
      * intros (k & Hp & Hk). apply lookup_singleton_Some in Hk as [<- <-]. simpl in Hp. by injection Hp as <-.
  - constructor; simpl.
    + apply lookup_singleton.
    + intros n. by rewrite lookup_empty, lookup_singleton_ne.
    + intros g n. by rewrite lookup_empty, lookup_singleton_ne.
Qed.
Lemma router_sim_stored m s : router_sim m s -> router_stored m s.
Proof.
  intros (Hn & t & [Hp Hm] & Hh) x v. rewrite Hm. split.
  - intros (k & Hk & Hv). destruct (Hp k ltac:(by eexists)) as [Hpl _].
    destruct k as [i|ns ps l]; simpl in Hpl.
    + apply elem_of_list_singleton in Hpl as ->. left.
      pose proof (rh_config _ _ Hh) as Hc. unfold RT_CONFIG in Hc. rewrite Hc in Hv.
      injection Hv as <-. simpl in Hk. by injection Hk as <-.
    + right. apply elem_of_cons in Hpl as [[= -> Hl]|Hpl]; [|apply elem_of_list_singleton in Hpl as [= -> Hl]].
      * destruct ps; [|done]. change (SEntry "chains" [] l) with (rt_chain_key l) in *.
        rewrite (rh_chain _ _ Hh) in Hv. destruct (rt_chains s !! l) as [e|] eqn:E; [|done]. injection Hv as <-.
        exists l, e. split; [done|]. by left.
      * destruct ps as [|g [|]]; try done. change (SEntry "gateways" [g] l) with (rt_index_key g l) in *.
        rewrite (rh_index _ _ Hh) in Hv. destruct (rt_chains s !! l) as [e|] eqn:E; [|done].
        case_decide as Hg; [|done]. injection Hv as <-. exists l, e. split; [done|]. right. by subst g.
  - intros [[-> ->]|(n & e & He & [[Hk ->]|[Hk ->]])].
    + exists RT_CONFIG. split; [done|]. apply (rh_config _ _ Hh).
    + exists (rt_chain_key n). split; [done|]. by rewrite (rh_chain _ _ Hh), He.
    + exists (rt_index_key (ce_gateway e) n). split; [done|]. rewrite (rh_index _ _ Hh), He. by rewrite decide_True.
Qed.

Lemma c98_router c ops :
  Forall router_call_ok ops ->
  let m := run router_bytes_step (router_bytes_init c) ops in
  let s := run router_step (router_init c) ops in
  log router_bytes_step (router_bytes_init c) ops = log router_step (router_init c) ops /\
  router_stored m s /\
  (forall op, router_call_ok op -> agree router_stored (router_bytes_step m op) (map_err SOwn (router_step s op))).
Proof.
  intros Hops m s.
  destruct (sim_run router_bytes_step router_step router_sim router_call_ok router_sim_step
              (router_bytes_init c) (router_init c) ops (router_sim_init c) Hops) as [H1 H2].
  split; [done|]. split; [by apply router_sim_stored|]. intros op Hop.
  eapply agree_impl; [exact router_sim_stored|]. by apply router_sim_step.
Qed.
