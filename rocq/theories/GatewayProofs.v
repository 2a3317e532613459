(** Proofs about the gateway. *)
From Verif Require Import Base BaseLemmas Text RouterTypes GatewayModel GatewaySpec MapLemmas.

Lemma foldl_lookup {B} (key : B -> ccid) {A} (val : B -> A) (l : list B) (m : gmap ccid A) k :
  foldl (fun m x => <[key x := val x]> m) m l !! k =
  match last (omap (fun x => if bool_decide (key x = k) then Some (val x) else None) l) with
  | Some v => Some v
  | None => m !! k
  end.
Proof.
  induction l as [|x l IH] using rev_ind; [done|].
  rewrite foldl_app, last_snoc_omap. cbn [foldl]. case_bool_decide as Hk.
  - subst k. by rewrite lookup_insert.
  - rewrite lookup_insert_ne by done. apply IH.
Qed.

Lemma partition_ok answer msgs v u :
  partition_by_verified answer msgs = Ok (v, u) <->
  exists r, answer msgs = Some r /\
    v = filter (fun m => reported r m = true) msgs /\ u = filter (fun m => reported r m = false) msgs.
Proof.
  unfold partition_by_verified.
  destruct (answer msgs) as [r|]; cbn [of_option rbind]; [|naive_solver].
  assert (Heq : forall m : message, default false (foldl (fun m x => <[x.1 := x.2]> m) (∅ : gmap ccid bool) r !! m_cc m)
                 = reported r m).
  { intros m. rewrite (foldl_lookup fst snd). unfold reported. rewrite lookup_empty.
    by destruct (last _). }
  assert (H1 : filter (fun m => default false (foldl (fun m x => <[x.1 := x.2]> m) (∅ : gmap ccid bool) r !! m_cc m) = true) msgs
               = filter (fun m => reported r m = true) msgs).
  { apply list_filter_iff. intros m. by rewrite Heq. }
  assert (H2 : filter (fun m => default false (foldl (fun m x => <[x.1 := x.2]> m) (∅ : gmap ccid bool) r !! m_cc m) = false) msgs
               = filter (fun m => reported r m = false) msgs).
  { apply list_filter_iff. intros m. by rewrite Heq. }
  rewrite H1, H2. split.
  - intros H. injection H as <- <-. eauto.
  - intros (r' & [= <-] & -> & ->). done.
Qed.

Lemma unique_ok msgs u : ensure_unique_ids msgs = Ok u <-> distinct_ids msgs.
Proof. unfold ensure_unique_ids. rewrite ensure_ok. apply bool_decide_eq_true. Qed.

Lemma gw_config_run c ops : gw_config (gwrun c ops) = c.
Proof.
  unfold gwrun. apply (run_inv gateway_step (fun s => gw_config s = c)); [done|].
  intros s op s' out Hc Hs. destruct op as [ms an|a ms an]; cbn [gateway_step] in Hs.
  - apply rbind_ok in Hs as (o & _ & [= <- _]). done.
  - case_bool_decide.
    + unfold route_outgoing_messages in Hs. apply rbind_ok in Hs as (o & _ & [= <- _]). done.
    + apply rbind_ok in Hs as (o & _ & [= <- _]). done.
Qed.

(** C35 *)
Lemma c35 c ops sender msgs answer s' out :
  sender <> gc_router c ->
  gateway_step (gwrun c ops) (GwRouteMessages sender msgs answer) = Ok (s', out) <->
  exists r, distinct_ids msgs /\ answer msgs = Some r /\ s' = gwrun c ops /\
    let verified := filter (fun m => reported r m = true) msgs in
    out = {| go_verify := [];
             go_route := if bool_decide (verified = []) then [] else [(gc_router c, verified)];
             go_routed := verified;
             go_failed := filter (fun m => reported r m = false) msgs |}.
Proof.
  intros Hs. cbn [gateway_step]. rewrite gw_config_run, bool_decide_false by done.
  unfold route_incoming_messages. rewrite gw_config_run. split.
  - intros H. apply rbind_ok in H as (o & H & [= <- <-]). apply rbind_ok in H as (u & Hu & H).
    apply unique_ok in Hu. apply rbind_ok in H as ([v w] & Hp & H).
    apply partition_ok in Hp as (r & Hr & -> & ->). exists r. split; [done|]. split; [done|]. split; [done|].
    cbv zeta. injection H as <-. f_equal. by destruct (filter _ msgs).
  - intros (r & Hu & Hr & -> & ->). rewrite (proj2 (unique_ok msgs tt)) by done. cbn [rbind].
    rewrite (proj2 (partition_ok answer msgs _ _)) by eauto. cbn [rbind].
    do 3 f_equal. by destruct (filter _ msgs).
Qed.

(** C36 *)
Lemma c36 c ops msgs answer s' out :
  gateway_step (gwrun c ops) (GwVerifyMessages msgs answer) = Ok (s', out) <->
  s' = gwrun c ops /\
  ((msgs = [] /\ out = gwout_empty) \/
   exists r, msgs <> [] /\ distinct_ids msgs /\ answer msgs = Some r /\
     let unverified := filter (fun m => reported r m = false) msgs in
     out = {| go_verify := if bool_decide (unverified = []) then [] else [(gc_verifier c, unverified)];
              go_route := []; go_routed := []; go_failed := [] |}).
Proof.
  cbn [gateway_step]. unfold gw_verify_messages. rewrite gw_config_run.
  destruct msgs as [|m0 ms0].
  - cbn. split; [intros [= <- <-]; auto|]. intros [-> [[_ ->]|(r & ? & _)]]; done.
  - set (msgs := m0 :: ms0) in *. assert (Hne : msgs <> []) by done. clearbody msgs. clear m0 ms0. split.
    + intros H. apply rbind_ok in H as (o & H & [= <- <-]). apply rbind_ok in H as (u & Hu & H).
      apply unique_ok in Hu. apply rbind_ok in H as ([v w] & Hp & H).
      apply partition_ok in Hp as (r & Hr & -> & ->). split; [done|]. right. exists r.
      split; [done|]. split; [done|]. split; [done|]. cbv zeta.
      destruct (filter (fun m => reported r m = false) msgs) as [|x xs].
      * injection H as <-. done.
      * injection H as <-. done.
    + intros [-> [[? _]|(r & _ & Hu & Hr & ->)]]; [done|]. rewrite (proj2 (unique_ok msgs tt)) by done. cbn [rbind].
      rewrite (proj2 (partition_ok answer msgs _ _)) by eauto. cbn [rbind].
      by destruct (filter (fun m => reported r m = false) msgs).
Qed.

(** C37 *)
Lemma omap_filter_last (ms : list message) k :
  omap (fun x => if bool_decide (m_cc x = k) then Some x else None) ms = filter (fun m => m_cc m = k) ms.
Proof.
  induction ms as [|m ms IH]; [done|]. rewrite filter_cons. cbn [omap list_omap].
  change (list_omap message message (fun x => if bool_decide (m_cc x = k) then Some x else None) ms)
    with (omap (fun x => if bool_decide (m_cc x = k) then Some x else None) ms).
  destruct (decide (m_cc m = k)) as [He|He].
  - rewrite bool_decide_true by done. by rewrite IH.
  - rewrite bool_decide_false by done. done.
Qed.

Lemma last_app_none {A} (l1 l2 : list A) :
  last (l1 ++ l2) = match last l2 with Some x => Some x | None => last l1 end.
Proof. rewrite last_app. done. Qed.

Lemma stored_run c ops id :
  gw_outgoing (gwrun c ops) !! id = last_stored (gc_router c) (gwlog c ops) id.
Proof.
  revert id. unfold gwrun, gwlog.
  refine (proj2 (run_log_inv gateway_step
    (fun s l => gw_config s = c /\ forall id, gw_outgoing s !! id = last_stored (gc_router c) l id) _ _ _ _)).
  - split; [done|]. intros id. cbn. by rewrite lookup_empty.
  - intros s l op s' out [Hc Hi] Hs.
    assert (Hsame : forall ms an, op = GwVerifyMessages ms an \/ (exists a, op = GwRouteMessages a ms an /\ a <> gc_router c) ->
              forall id, last_stored (gc_router c) (l ++ [(op, out)]) id = last_stored (gc_router c) l id).
    { intros ms an Hop id. unfold last_stored. rewrite bind_app. cbn [mbind list_bind fst].
      destruct Hop as [->|(a & -> & Ha)]; [|rewrite bool_decide_false by done]; by rewrite !app_nil_r. }
    destruct op as [ms an|a ms an]; cbn [gateway_step] in Hs.
    + apply rbind_ok in Hs as (o & _ & [= <- _]). split; [done|]. intros id. rewrite (Hsame ms an) by auto. apply Hi.
    + rewrite Hc in Hs. case_bool_decide as Ha.
      * unfold route_outgoing_messages in Hs. apply rbind_ok in Hs as (o & _ & [= <- _]). cbn [gw_config gw_outgoing].
        split; [done|]. intros id. rewrite (foldl_lookup m_cc (fun m => m)), omap_filter_last, Hi.
        unfold last_stored. rewrite bind_app. cbn [mbind list_bind fst]. rewrite bool_decide_true by done.
        rewrite app_nil_r, filter_app, last_app_none. done.
      * apply rbind_ok in Hs as (o & _ & [= <- _]). split; [done|]. intros id. rewrite (Hsame ms an) by eauto. apply Hi.
Qed.

Lemma c37_read c ops ids :
  (forall ms, get_messages (gwrun c ops) ids = Ok ms <->
     Forall2 (fun id m => last_stored (gc_router c) (gwlog c ops) id = Some m) ids ms) /\
  (is_ok (get_messages (gwrun c ops) ids) = true <->
     Forall (fun id => is_Some (last_stored (gc_router c) (gwlog c ops) id)) ids).
Proof.
  assert (H : forall ms, get_messages (gwrun c ops) ids = Ok ms <->
     Forall2 (fun id m => last_stored (gc_router c) (gwlog c ops) id = Some m) ids ms).
  { intros ms. unfold get_messages. rewrite try_map_ok.
    split; intros H; (eapply Forall2_impl; [exact H|]); intros id m; cbn; by rewrite of_option_ok, stored_run. }
  split; [done|]. split.
  - destruct (get_messages (gwrun c ops) ids) as [ms| |] eqn:Hg; [|done|done]. intros _.
    specialize (H ms). apply proj1 in H. specialize (H eq_refl).
    clear Hg. induction H; constructor; eauto.
  - intros Hall. assert (exists ms, get_messages (gwrun c ops) ids = Ok ms) as [ms ->]; [|done].
    assert (exists ms, Forall2 (fun id m => last_stored (gc_router c) (gwlog c ops) id = Some m) ids ms) as [ms Hms].
    { clear H. induction Hall as [|id ids [m Hm] _ [ms IH]]; [by exists []|]. exists (m :: ms). by constructor. }
    exists ms. by apply H.
Qed.

Lemma c37_id c ops id m : last_stored (gc_router c) (gwlog c ops) id = Some m -> m_cc m = id.
Proof.
  unfold last_stored. intros H. apply last_Some in H as [l' H].
  assert (Hin : m ∈ filter (fun m => m_cc m = id) (gwlog c ops ≫= fun e => match e.1 with
                        | GwRouteMessages a ms _ => if bool_decide (a = gc_router c) then ms else []
                        | _ => []
                        end)) by (rewrite H; apply elem_of_app; right; by left).
  by apply elem_of_list_filter in Hin as [? _].
Qed.

Lemma c37_only_router c ops op s' out id :
  gateway_step (gwrun c ops) op = Ok (s', out) ->
  get_messages s' [id] <> get_messages (gwrun c ops) [id] ->
  exists ms an m, op = GwRouteMessages (gc_router c) ms an /\ m ∈ ms /\ m_cc m = id /\ get_messages s' [id] = Ok [m].
Proof.
  intros Hs Hne. destruct op as [ms an|a ms an]; cbn [gateway_step] in Hs.
  - apply rbind_ok in Hs as (o & _ & [= <- _]). done.
  - rewrite gw_config_run in Hs. case_bool_decide as Ha.
    + subst a. unfold route_outgoing_messages in Hs. apply rbind_ok in Hs as (o & _ & [= <- _]).
      exists ms, an. unfold get_messages in *. cbn [try_map gw_outgoing] in *.
      rewrite (foldl_lookup m_cc (fun m => m)), omap_filter_last in *.
      destruct (last (filter (fun m => m_cc m = id) ms)) as [m|] eqn:Hl; [|done].
      exists m. split; [done|]. apply last_Some in Hl as [l' Hl].
      assert (Hin : m ∈ filter (fun m => m_cc m = id) ms) by (rewrite Hl; apply elem_of_app; right; by left).
      apply elem_of_list_filter in Hin as [? ?]. done.
    + apply rbind_ok in Hs as (o & _ & [= <- _]). done.
Qed.

Lemma c37_accepted c ops msgs answer :
  (is_ok (gateway_step (gwrun c ops) (GwRouteMessages (gc_router c) msgs answer)) = true <-> distinct_ids msgs) /\
  (forall s' out, gateway_step (gwrun c ops) (GwRouteMessages (gc_router c) msgs answer) = Ok (s', out) ->
     out = {| go_verify := []; go_route := []; go_routed := msgs; go_failed := [] |} /\
     get_messages s' (m_cc <$> msgs) = Ok msgs).
Proof.
  cbn [gateway_step]. rewrite gw_config_run, bool_decide_true by done. unfold route_outgoing_messages. split.
  - split.
    + destruct (ensure_unique_ids msgs) eqn:Hu; cbn [rbind]; [|done|done]. intros _. by eapply unique_ok.
    + intros H. by rewrite (proj2 (unique_ok msgs tt) H).
  - intros s' out H. apply rbind_ok in H as (u & Hu & H). injection H as <- <-. split; [done|].
    apply unique_ok in Hu. unfold get_messages. apply try_map_ok. cbn [gw_outgoing].
    apply Forall2_fmap_l. apply Forall2_same_length_lookup_2; [done|].
    intros i m m' Hm Hm'. cbn. assert (m' = m) as -> by congruence. apply of_option_ok.
    rewrite (foldl_lookup m_cc (fun m => m)), omap_filter_last.
    assert (Hf : filter (fun x => m_cc x = m_cc m) msgs = [m]); [|by rewrite Hf].
    clear -Hu Hm. apply elem_of_list_lookup_2 in Hm. unfold distinct_ids in Hu.
    induction msgs as [|x msgs IH]; [by apply elem_of_nil in Hm|]. rewrite filter_cons.
    cbn in Hu. apply NoDup_cons in Hu as [Hx Hu]. apply elem_of_cons in Hm as [<-|Hm].
    + rewrite decide_True by done. f_equal.
      clear -Hx. induction msgs as [|y msgs IH]; [done|]. cbn in Hx. apply not_elem_of_cons in Hx as [Hx1 Hx2].
      rewrite filter_cons_False by congruence. auto.
    + rewrite decide_False; [auto|]. intros Heq. apply Hx. rewrite Heq. by apply elem_of_list_fmap_1.
Qed.
