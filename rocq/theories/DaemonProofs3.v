From Verif Require Import Base BaseLemmas Text TextLemmas StdModel StdSpec StdProofs RouterTypes RegistryTypes OperatorsModel EncodingModel MultisigTypes
  VerifierModel VerifierSpec EventsModel HandlersModel HandlersSpec HandlersProofs HandlersProofs2 HandlersProofs3 WorkersSpec
  SubscriptionModel SubscriptionSpec SubscriptionProofs2 SubscriptionProofs3 SubscriptionProofs4 QueueModel QueueSpec
  RegistryModel MultisigModel SystemModel DaemonModel DaemonSpec DaemonProofs DaemonProofs2.

(** ** Signing *)
Section Keys.
  Context (acc : string -> bool) (b58 : string -> option string) (de_key : jval -> option string).

  Lemma de_keys_lookup l ks a v key :
    de_keys acc de_key (JObj l) = Some ks -> NoDup l.*1 -> (a, v) ∈ l -> de_key v = Some key -> key_of ks a = Some key.
  Proof.
    intros H Hnd Hin Hk. cbn in H.
    assert (ks.*1 = l.*1 /\ (a, key) ∈ ks) as [Hf Hks].
    { clear Hnd. revert ks H Hin. induction l as [|[a' v'] l IH]; intros ks H Hin; [inversion Hin|].
      cbn in H. destruct (acc a') eqn:Ea; [|done]. destruct (de_key v') as [k'|] eqn:Ek; [|done].
      destruct (opt_map _ l) as [ks'|] eqn:Eo; [|done]. cbn in H. injection H as <-.
      assert (ks'.*1 = l.*1) as Ef.
      { clear -Eo. revert ks' Eo. induction l as [|[a' v'] l IH]; intros ks H; cbn in H; [by injection H as <-|].
        destruct (acc a'); [|done]. destruct (de_key v'); [|done].
        destruct (opt_map _ l) as [ks'|]; [|done]. injection H as <-. cbn. f_equal. by apply IH. }
      split; [cbn; by rewrite Ef|]. apply elem_of_cons in Hin as [[= <- <-]|Hin].
      - rewrite Hk in Ek. injection Ek as ->. left.
      - right. by apply (IH ks' eq_refl). }
    unfold key_of. apply elem_of_list_to_map_1; [|by apply elem_of_reverse].
    rewrite fmap_reverse. rewrite reverse_Permutation, Hf. done.
  Qed.

  (** Nothing is signed for a key of another id. *)
  Lemma wrong_id_errs pub sig ms t contract a v ev key m uid :
    derived_keys pub sig ms t -> ids_apart pub -> key = pub m uid -> uid <> contract ->
    ce_sign v = tf_sign t -> asks_to_sign de_key ev contract a key ->
    handle acc b58 de_key a (MultisigSigner contract) v ev = Err SignError \/
    handle acc b58 de_key a (MultisigSigner contract) v ev = Err DeserializeEvent.
  Proof.
    intros [_ Hsign] Hap -> Hne Hv ((at' & -> & Hc) & l & w & (at'' & E & Hp) & Hnd & Hin & Hk).
    injection E as <-. cbn [handle hconfig_of]. unfold multisig_handler, typed. rewrite String.eqb_refl.
    destruct (de_signing acc de_key at') as [sg|] eqn:Ed; [left|by right].
    unfold de_signing, de_attr in Ed. rewrite Hc, Hp in Ed. cbn [mbind option_bind] in Ed.
    destruct (de_account acc (JStr contract)) as [ca|] eqn:Eca; [|done].
    assert (ca = contract) as ->.
    { cbn in Eca. destruct (acc contract); congruence. }
    destruct (at' !! "session_id") as [js|]; [|done].
    destruct (de_u64 js) as [sid|]; [|done].
    destruct (de_keys acc de_key (JObj l)) as [ks|] eqn:Eks; [|done].
    destruct (at' !! "msg") as [jm|]; [|done]. destruct (de_digest32 jm) as [d|]; [|done].
    injection Ed as <-. cbn [sg_contract sg_keys sg_msg sg_session hc_contract hc_worker].
    rewrite String.eqb_refl, (de_keys_lookup _ _ _ _ _ Eks Hnd Hin Hk), Hv.
    specialize (Hsign contract d (pub m uid)).
    destruct (tf_sign t contract d (pub m uid)) as [sg|]; [|done].
    destruct Hsign as (m' & _ & Hpub & _). apply Hap in Hpub. by destruct Hne.
  Qed.

  (** With the contract's address as key id it signs. *)
  Lemma same_id_signs pub sig ms t contract a v json session keys digest w key m :
    derived_keys pub sig ms t -> m ∈ ms -> key = pub m contract -> ce_sign v = tf_sign t -> ce_open v = true ->
    acc contract = true -> json contract = None -> json (to_hex digest) = None ->
    Forall (fun x => acc x.1 = true /\ is_Some (de_key x.2)) keys -> NoDup keys.*1 -> (a, w) ∈ keys -> de_key w = Some key ->
    session < 2 ^ 64 -> String.length digest = 32%nat ->
    exists m', m' ∈ ms /\ pub m' contract = key /\
    handle acc b58 de_key a (MultisigSigner contract) v (signing_event json contract session keys digest) =
      Ok (Some {| wt_sender := a; wt_contract := contract; wt_body := BodySignature session (sig m' contract digest) |}).
  Proof.
    intros [_ Hsign] Hm -> Hv Ho Ha Hj1 Hj2 Hks Hnd Hin Hk Hs Hd.
    assert (exists ks, de_keys acc de_key (JObj keys) = Some ks) as [ks Eks].
    { cbn. clear -Hks. induction Hks as [|[x v] l [Hx [k Hk]] _ [ks IH]]; [by exists []|]. cbn in *.
      rewrite Hx, Hk, IH. eauto. }
    pose proof (de_keys_lookup _ _ _ _ _ Eks Hnd Hin Hk) as Hkey.
    cbn [handle hconfig_of]. unfold multisig_handler, signing_event, typed. rewrite String.eqb_refl.
    assert (de_signing acc de_key (list_to_map
      [("_contract_address", attr_value json contract); ("session_id", JNum session); ("pub_keys", JObj keys);
       ("msg", attr_value json (to_hex digest))]) =
      Some {| sg_contract := contract; sg_session := session; sg_keys := ks; sg_msg := digest |}) as ->.
    { unfold de_signing, de_attr.
      unfold attr_value. rewrite Hj1, Hj2. change (default (JStr contract) None) with (JStr contract). change (default (JStr (to_hex digest)) None) with (JStr (to_hex digest)).
      assert (forall (x : jval) y z u, (list_to_map [("_contract_address", x); ("session_id", y); ("pub_keys", z); ("msg", u)] : gmap string jval) !! "_contract_address" = Some x) as -> by done.
      assert (forall (x : jval) y z u, (list_to_map [("_contract_address", x); ("session_id", y); ("pub_keys", z); ("msg", u)] : gmap string jval) !! "session_id" = Some y) as -> by done.
      assert (forall (x : jval) y z u, (list_to_map [("_contract_address", x); ("session_id", y); ("pub_keys", z); ("msg", u)] : gmap string jval) !! "pub_keys" = Some z) as -> by done.
      assert (forall (x : jval) y z u, (list_to_map [("_contract_address", x); ("session_id", y); ("pub_keys", z); ("msg", u)] : gmap string jval) !! "msg" = Some u) as -> by done.
      cbn [from_option default id]; unfold de_account; cbn beta iota; rewrite Ha; cbn beta iota. unfold de_u64; cbn beta iota. apply N.ltb_lt in Hs. change (2 ^ 64) with U64 in Hs. rewrite Hs.
      cbn [de_keys] in Eks |- *. rewrite Eks. unfold de_digest32. rewrite of_to_hex. unfold bytes32. rewrite Hd. done. }
    cbn [sg_contract sg_keys sg_msg sg_session hc_contract hc_worker]. rewrite String.eqb_refl, Hkey, Hv.
    specialize (Hsign contract digest (pub m contract)).
    destruct (tf_sign t contract digest (pub m contract)) as [sg|]; [|by destruct (Hsign m Hm)].
    destruct Hsign as (m' & Hm' & Hp & ->). exists m'. split; [done|]. split; [done|]. cbn [of_option rbind submit].
    rewrite Ho. done.
  Qed.
End Keys.

Section Stuck.
  Context (acc : string -> bool) (b58 : string -> option string) (de_key : jval -> option string) (worker : addr).
  Context (decode : string -> option string) (json : string -> option jval).
  Context {B : Type} (estimate : B -> list wasm_tx -> B * option N) (broadcast : B -> list wasm_tx -> B * bool).
  Context (limit : N).
  Notation druns := (run_daemons acc b58 de_key worker decode json estimate broadcast limit).
  Notation fair_daemon := (fair_daemon (B:=B) decode json acc b58 de_key worker).

  Lemma runs_poisoned s xs s' log l r k :
    druns s xs = (s', log) -> s !! l = Some r -> r < k ->
    (forall s0 x y, (s0, x, y) ∈ log -> l ∉ label <$> (rn_handlers x).*1 \/
       exists c t, label c = l /\ fair_daemon s0 x c t) ->
    (forall s0 x y evs c t, (s0, x, y) ∈ log -> (c, t) ∈ rn_handlers x -> label c = l ->
       answered decode json (rn_inputs x) k evs ->
       exists ev, ev ∈ evs /\ forall given, is_ok (handle acc b58 de_key worker c (te_calls t given) ev) = false) ->
    exists r', s' !! l = Some r' /\ r' < k.
  Proof.
    intros H Hr Hk Hfair Hbad. apply runs_sessions in H.
    eapply (poisoned_block decode json); [exact H|exact Hr| |exact Hk|].
    - rewrite Forall_fmap, Forall_forall. intros [[s0 x] y] Hin.
      change (fair_run decode json l (s0, session_of acc b58 de_key worker x, lb_outcomes y)).
      destruct (Hfair _ _ _ Hin) as [Hn|(c & t & <- & Ha & Hn & Hct & pub & Hp & Hd & Hl)].
      + left. by rewrite labels_of.
      + right. exists (task_of acc b58 de_key worker c t), pub. split; [by apply configured_of|]. done.
    - intros s0 sx os e evs Hin Hc Ha.
      apply elem_of_list_fmap in Hin as ([[s1 x] y] & E & Hin). injection E as -> -> ->.
      destruct Hc as (l1 & l2 & E & Hn1 & Hn2).
      assert ((l, e) ∈ se_handlers (session_of acc b58 de_key worker x)) as Hle.
      { rewrite E. apply elem_of_app. right. left. }
      cbn in Hle. apply elem_of_list_fmap in Hle as ([c t] & Ele & Hct). injection Ele as -> ->.
      destruct (Hbad _ _ _ _ _ _ Hin Hct eq_refl Ha) as (ev & Hev & Hno). exists ev. split; [done|].
      intros given. cbn. apply Hno.
  Qed.

  Lemma signer_stuck pub sig ms tf m uid contract s xs s' log r k :
    let key := pub m uid in
    derived_keys pub sig ms tf -> ids_apart pub -> uid <> contract ->
    druns s xs = (s', log) -> s !! "multisig-signer" = Some r -> r < k ->
    (forall s0 x y, (s0, x, y) ∈ log -> "multisig-signer" ∉ label <$> (rn_handlers x).*1 \/
       exists t, fair_daemon s0 x (MultisigSigner contract) t /\ forall given, ce_sign (te_calls t given) = tf_sign tf) ->
    (forall s0 x y evs, (s0, x, y) ∈ log -> answered decode json (rn_inputs x) k evs ->
       exists ev, ev ∈ evs /\ asks_to_sign de_key ev contract worker key) ->
    exists r', s' !! "multisig-signer" = Some r' /\ r' < k.
  Proof.
    intros key Hd Hap Hne H Hr Hk Hfair Hask. eapply runs_poisoned; [exact H|exact Hr|exact Hk| |].
    - intros s0 x y Hin. destruct (Hfair _ _ _ Hin) as [?|(t & Hf & _)]; [by left|right].
      exists (MultisigSigner contract), t. done.
    - intros s0 x y evs c t Hin Hct Hl Ha. destruct (Hask _ _ _ _ Hin Ha) as (ev & Hev & Hsig). exists ev. split; [done|].
      destruct (Hfair _ _ _ Hin) as [Hn|(t' & (Hacc & Hns & Hct' & _) & Hs)].
      { destruct Hn. rewrite <- Hl. apply elem_of_list_fmap. exists c. split; [done|]. apply elem_of_list_fmap. by exists (c, t). }
      assert ((c, t) = (MultisigSigner contract, t')) as E.
      { apply (labels_distinct _ Hacc) in Hns. apply elem_of_list_lookup in Hct as [i Hi], Hct' as [j Hj].
        assert (i = j) as <-.
        { eapply (NoDup_lookup _ i j "multisig-signer" Hns); rewrite !list_lookup_fmap; [rewrite Hi|rewrite Hj; done].
          cbn. by rewrite Hl. }
        congruence. }
      injection E as -> ->. intros given.
      destruct (wrong_id_errs acc b58 de_key pub sig ms tf contract worker (te_calls t' given) ev key m uid) as [->| ->]; done.
  Qed.
End Stuck.
