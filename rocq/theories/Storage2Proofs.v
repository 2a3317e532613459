(** Programs over bytes against models, entry by entry. *)
From Verif Require Import Base BaseLemmas Text TextLemmas StdModel StdProofs.
From Verif Require Import RouterTypes MultisigTypes MultisigModel EncodingModel GatewayModel NexusModel RewardsModel VerifierModel ProverModel.
From Verif Require Import StorageModel StorageSpec StorageProofs StorageProofs2 StorageProofs3 StorageProofs4 StorageProofs5.
From Verif Require Import Storage2Model Storage2Spec.

Section Cells.
  Context {X V S : Type} (L : layout) (ok : X -> Prop) (at_ : X -> skey) (cell : S -> X -> option V).
  Context (HL : proper L = true) (Hplace : forall e, place L (at_ e)).
  Context (Hinj : forall e1 e2, ok e1 -> ok e2 -> at_ e1 = at_ e2 -> e1 = e2).
  Record holds (t : gmap skey V) (s : S) : Prop := {
    h_at : forall e, ok e -> t !! at_ e = cell s e;
    h_only : forall k, is_Some (t !! k) -> exists e, ok e /\ k = at_ e;
  }.
  Lemma holds_put t s s' e v :
    holds t s -> ok e -> cell s' e = Some v -> (forall e', e' <> e -> cell s' e' = cell s e') ->
    holds (<[at_ e := v]> t) s'.
  Proof using Hinj.
    intros [H1 H2] He Hv Ho. constructor.
    - intros e' He'. destruct (decide (at_ e' = at_ e)) as [Hk|Hk].
      + apply Hinj in Hk as ->; [|done..]. by rewrite lookup_insert.
      + rewrite lookup_insert_ne by done. rewrite Ho by congruence. by apply H1.
    - intros k Hk. destruct (decide (k = at_ e)) as [->|Hne]; [by exists e|].
      rewrite lookup_insert_ne in Hk by done. by apply H2.
  Qed.
  Lemma holds_del t s s' e :
    holds t s -> ok e -> cell s' e = None -> (forall e', e' <> e -> cell s' e' = cell s e') ->
    holds (delete (at_ e) t) s'.
  Proof using Hinj.
    intros [H1 H2] He Hv Ho. constructor.
    - intros e' He'. destruct (decide (at_ e' = at_ e)) as [Hk|Hk].
      + apply Hinj in Hk as ->; [|done..]. by rewrite lookup_delete.
      + rewrite lookup_delete_ne by done. rewrite Ho by congruence. by apply H1.
    - intros k Hk. destruct (decide (k = at_ e)) as [->|Hne]; [by rewrite lookup_delete in Hk; destruct Hk|].
      rewrite lookup_delete_ne in Hk by done. by apply H2.
  Qed.
  Lemma holds_same t s s' : (forall e, cell s' e = cell s e) -> holds t s -> holds t s'.
  Proof. intros Hc [H1 H2]. constructor; [|done]. intros e He. by rewrite Hc, H1. Qed.
  Lemma holds_bytes m t s : stored L m t -> holds t s -> holds_exactly ok at_ (cell s) m.
  Proof.
    intros [_ Hm] [H1 H2] x v. rewrite Hm. split.
    - intros (k & Hk & Hv). destruct (H2 k ltac:(by eexists)) as (e & He & ->). exists e. by rewrite <- H1.
    - intros (e & He & Hp & Hv). exists (at_ e). by rewrite H1.
  Qed.

  Section Run.
    Context {E O R : Type} (prg : O -> prog V (serr E) R) (step : S -> O -> res E (S * R)).
    Context (inv : S -> Prop) (okop : O -> Prop).
    Context (Hkeeps : forall op, okop op -> keeps L (prg op)).
    Context (Hlike : forall t s op, holds t s -> inv s -> okop op ->
      agree holds (ideal (prg op) t) (map_err SOwn (step s op))).
    Context (Hinv : forall s op s' r, inv s -> okop op -> step s op = Ok (s', r) -> inv s').
    Definition cells_sim (m : gmap string V) (s : S) : Prop := inv s /\ exists t, stored L m t /\ holds t s.
    Lemma cells_step m s op :
      cells_sim m s -> okop op -> agree cells_sim (raw (prg op) m) (map_err SOwn (step s op)).
    Proof using HL Hkeeps Hlike Hinv.
      intros (Hi & t & Hst & Hh) Hop.
      pose proof (c97_faithful L (prg op) m t HL (Hkeeps op Hop) Hst) as H1.
      pose proof (Hlike t s op Hh Hi Hop) as H2.
      destruct (raw (prg op) m) as [[m' a]|e|], (ideal (prg op) t) as [[t' b]|e'|]; simpl in H1; try done;
        destruct (step s op) as [[s' o]|f|] eqn:Es; simpl in H2 |- *; try done.
      - destruct H1 as [-> H1], H2 as [-> H2]. split; [done|]. split; [by apply (Hinv s op s' o)|]. eauto.
      - by subst.
    Qed.
    Lemma cells_history m0 s0 ops :
      cells_sim m0 s0 -> Forall okop ops ->
      let m := run (fun m op => raw (prg op) m) m0 ops in
      let s := run step s0 ops in
      log (fun m op => raw (prg op) m) m0 ops = log step s0 ops /\
      holds_exactly ok at_ (cell s) m /\
      (forall op, okop op ->
         agree (fun m s => holds_exactly ok at_ (cell s) m) (raw (prg op) m) (map_err SOwn (step s op))) /\
      cells_sim m s.
    Proof using HL Hkeeps Hlike Hinv.
      intros H0 Hops m s.
      destruct (sim_run (fun m op => raw (prg op) m) step cells_sim okop cells_step m0 s0 ops H0 Hops) as [H1 H2].
      assert (Himp : forall m s, cells_sim m s -> holds_exactly ok at_ (cell s) m).
      { intros m' s' (_ & t & Hst & Hh). by eapply holds_bytes. }
      split; [done|]. split; [by apply Himp|]. split; [|done].
      intros op Hop. eapply agree_impl; [exact Himp|]. by apply cells_step.
    Qed.
    Lemma cells_query {A} (p : prog V (serr E) A) m s (r : res E A) :
      cells_sim m s -> keeps L p -> reads p ->
      (forall t, holds t s -> inv s -> ideal p t = let? a := map_err SOwn r in Ok (t, a)) ->
      raw p m = let? a := map_err SOwn r in Ok (m, a).
    Proof using HL.
      intros (Hi & t & Hst & Hh) Hk Hr Hp. apply (raw_query L p m t r SOwn); auto.
    Qed.
  End Run.

  (** A store with one item. *)
  Lemma stored_single n v :
    place L (SItem n) -> stored L {[n := v]} ({[SItem n := v]} : gmap skey V).
  Proof.
    intros Hp. split.
    - intros k [w Hw]. apply lookup_singleton_Some in Hw as [<- _]. done.
    - intros x w. rewrite lookup_singleton_Some. split.
      + intros [<- <-]. exists (SItem n). split; [done|]. apply lookup_singleton.
      + intros (k & Hk & Hw). apply lookup_singleton_Some in Hw as [<- <-]. simpl in Hk. by injection Hk as <-.
  Qed.
  Lemma holds_empty s : (forall e, cell s e = None) -> holds ∅ s.
  Proof.
    intros H. constructor; [intros e _; by rewrite H, lookup_empty|].
    intros k [v Hv]. by rewrite lookup_empty in Hv.
  Qed.
  Lemma holds_single s e v :
    ok e -> cell s e = Some v -> (forall e', e' <> e -> cell s e' = None) -> holds {[at_ e := v]} s.
  Proof using Hinj.
    intros He Hv Ho. constructor.
    - intros e' He'. destruct (decide (at_ e' = at_ e)) as [Hk|Hk].
      + apply Hinj in Hk as ->; [|done..]. by rewrite lookup_singleton.
      + rewrite lookup_singleton_ne by done. symmetry. apply Ho. congruence.
    - intros k [w Hw]. apply lookup_singleton_Some in Hw as [<- _]. by exists e.
  Qed.
End Cells.

(** ** The places of the entries *)
Lemma gw_places e : place gateway_layout (gw_place e).
Proof. revert e. places. Qed.
Lemma nx_places e : place nexus_layout (nx_place e).
Proof. revert e. places. Qed.
Lemma rw_places e : place rewards_layout (rw_place e).
Proof. revert e. places. Qed.
Lemma vv_places e : place verifier_layout (vv_place e).
Proof. revert e. places. Qed.
Lemma pr_places e : place prover_layout (pr_place e).
Proof. revert e. places. Qed.
Lemma gw_inj e1 e2 : all_ok e1 -> all_ok e2 -> gw_place e1 = gw_place e2 -> e1 = e2.
Proof.
  revert e1 e2. intros [|[]] [|[]] O1 O2 He; cbn [gw_place] in He; try discriminate He; try reflexivity;
    unfold gw_message_key, ccid_parts in He; simpl in He; entry_inj; by subst.
Qed.
Lemma nx_inj e1 e2 : all_ok e1 -> all_ok e2 -> nx_place e1 = nx_place e2 -> e1 = e2.
Proof.
  revert e1 e2. intros [|[]] [|[]] O1 O2 He; cbn [nx_place] in He; try discriminate He; try reflexivity;
    unfold nx_routed_key, ccid_parts in He; simpl in He; entry_inj; by subst.
Qed.
Lemma rw_inj e1 e2 : rw_ok e1 -> rw_ok e2 -> rw_place e1 = rw_place e2 -> e1 = e2.
Proof.
  revert e1 e2. intros [] [] O1 O2 He; cbn [rw_place rw_ok] in *; try discriminate He; try reflexivity;
    unfold rw_tally_key, rw_event_key, rw_pool_key, rw_watermark_key in He; entry_inj; by subst.
Qed.
Lemma vv_inj e1 e2 : vv_ok e1 -> vv_ok e2 -> vv_place e1 = vv_place e2 -> e1 = e2.
Proof.
  revert e1 e2. intros [] [] O1 O2 He; cbn [vv_place vv_ok] in *; try discriminate He; try reflexivity;
    unfold vv_poll_key, vv_message_key, vv_set_key in He; entry_inj; by subst.
Qed.
Lemma pr_inj e1 e2 : pr_ok e1 -> pr_ok e2 -> pr_place e1 = pr_place e2 -> e1 = e2.
Proof.
  revert e1 e2. intros [] [] O1 O2 He; cbn [pr_place pr_ok] in *; try discriminate He; try reflexivity;
    unfold pr_batch_key, pr_session_key in He; entry_inj; by subst.
Qed.
