From Verif Require Import Base BaseLemmas Text StdModel RouterTypes MultisigTypes EventsModel HandlersModel HandlersSpec
  SubscriptionModel SubscriptionSpec QueueModel SystemModel DaemonModel DaemonSpec DaemonProofs DaemonProofs2 DaemonProofs3.

Section Configured.
  Context (acc : string -> bool) (b58 : string -> option string) (de_key : jval -> option string).
  Context (pub : string -> string -> string) (sig : string -> string -> string -> string) (ms : list string) (tf : tofnd).

  Lemma generated cf key : derived_keys pub sig ms tf -> worker_key None tf cf = Ok key ->
    exists m, m ∈ ms /\ key = pub m (cf_key_uid cf).
  Proof.
    intros [Hk _] H. unfold worker_key in H. rewrite Hk in H. destruct ms as [|m l]; [done|]. cbn in H. injection H as <-.
    exists m. split; [left|done].
  Qed.

  Lemma cf_errs cf key contract a v ev :
    derived_keys pub sig ms tf -> ids_apart pub -> worker_key None tf cf = Ok key -> cf_key_uid cf <> contract ->
    ce_sign v = tf_sign tf -> asks_to_sign de_key ev contract a key ->
    handle acc b58 de_key a (MultisigSigner contract) v ev = Err SignError \/
    handle acc b58 de_key a (MultisigSigner contract) v ev = Err DeserializeEvent.
  Proof.
    intros Hd Ha Hk Hne Hs He. destruct (generated cf key Hd Hk) as (m & _ & ->). eapply wrong_id_errs; eauto.
  Qed.

  Lemma cf_signs cf key contract a v json session keys digest w :
    derived_keys pub sig ms tf -> worker_key None tf cf = Ok key -> cf_key_uid cf = contract ->
    ce_sign v = tf_sign tf -> ce_open v = true ->
    acc contract = true -> json contract = None -> json (to_hex digest) = None ->
    Forall (fun x => acc x.1 = true /\ is_Some (de_key x.2)) keys -> NoDup keys.*1 -> (a, w) ∈ keys -> de_key w = Some key ->
    session < 2 ^ 64 -> String.length digest = 32%nat ->
    exists m', m' ∈ ms /\ pub m' contract = key /\
    handle acc b58 de_key a (MultisigSigner contract) v (signing_event json contract session keys digest) =
      Ok (Some {| wt_sender := a; wt_contract := contract; wt_body := BodySignature session (sig m' contract digest) |}).
  Proof.
    intros Hd Hk He. destruct (generated cf key Hd Hk) as (m & Hm & Ek). rewrite He in Ek. intros. eapply same_id_signs; eauto.
  Qed.

  Context (worker : addr) (decode : string -> option string) (json : string -> option jval).
  Context {B : Type} (estimate : B -> list wasm_tx -> B * option N) (broadcast : B -> list wasm_tx -> B * bool).
  Context (limit : N).
  Notation druns := (run_daemons acc b58 de_key worker decode json estimate broadcast limit).
  Lemma cf_stuck cf key contract s xs s' log r k :
    derived_keys pub sig ms tf -> ids_apart pub -> worker_key None tf cf = Ok key -> cf_key_uid cf <> contract ->
    druns s xs = (s', log) -> s !! "multisig-signer" = Some r -> r < k ->
    (forall s0 x y, (s0, x, y) ∈ log -> "multisig-signer" ∉ label <$> (rn_handlers x).*1 \/
       exists t, fair_daemon decode json acc b58 de_key worker s0 x (MultisigSigner contract) t /\ forall given, ce_sign (te_calls t given) = tf_sign tf) ->
    (forall s0 x y evs, (s0, x, y) ∈ log -> answered decode json (rn_inputs x) k evs ->
       exists ev, ev ∈ evs /\ asks_to_sign de_key ev contract worker key) ->
    exists r', s' !! "multisig-signer" = Some r' /\ r' < k.
  Proof.
    intros Hd Ha Hk Hne Hr Hs Hlt Hf He. destruct (generated cf key Hd Hk) as (m & _ & ->). eapply signer_stuck; eauto.
  Qed.
End Configured.
