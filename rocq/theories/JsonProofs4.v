(** The events of the contracts, from their texts to the handlers. *)
From Verif Require Import Base BaseLemmas Text TextLemmas StdModel RouterTypes OperatorsModel VerifierModel EncodingModel
  EventsModel HandlersModel HandlersSpec HandlersProofs3 DaemonModel DaemonSpec DaemonProofs3 DaemonProofs5
  JsonModel JsonSpec JsonProofs JsonProofs2 JsonProofs3.

Lemma fields_apart (l : list string) : bool_decide (NoDup l) = true -> NoDup l.
Proof. apply bool_decide_eq_true_1. Qed.

Section Fix.
  Context (finite : string -> bool).
  Notation read := (of_json finite).

  Lemma utf8_messages es : Forall utf8_message es -> utf8_value (JArr (message_json <$> es)).
  Proof.
    intros H. constructor. rewrite Forall_fmap. eapply Forall_impl; [exact H|]. intros e (H1 & H2 & H3 & H4).
    constructor. repeat (apply Forall_cons; split; [split; [done|by constructor]|]).
    apply Forall_cons; split; [split; [done|constructor; apply utf8_hex]|by apply Forall_nil].
  Qed.
  Lemma utf8_worker_set tx idx o : utf8 tx = true -> utf8_value (worker_set_json tx idx o).
  Proof.
    intros H. constructor. do 2 (apply Forall_cons; split; [split; [done|by constructor]|]).
    apply Forall_cons; split; [|by apply Forall_nil]. split; [done|]. constructor.
    apply Forall_cons; split.
    - split; [done|]. constructor. rewrite Forall_fmap. apply Forall_true. intros p. cbn. constructor.
      apply Forall_cons; split; [constructor; apply utf8_hex|]. apply Forall_cons; split; [constructor; apply utf8_dec|by apply Forall_nil].
    - apply Forall_cons; split; [|by apply Forall_nil]. split; [done|]. constructor. apply utf8_dec.
  Qed.
  Lemma utf8_metadata contract m : utf8_poll contract m ->
    Forall (fun p : string * string => utf8 p.1 = true /\ utf8 p.2 = true) (metadata_text m).
  Proof.
    intros (H1 & H2 & H3 & H4). unfold metadata_text.
    apply Forall_cons; split; [split; [done|]|].
    { apply utf8_to_json. constructor. apply utf8_dec. }
    apply Forall_cons; split; [done|]. apply Forall_cons; split; [done|].
    apply Forall_cons; split; [split; [done|apply utf8_dec]|].
    apply Forall_cons; split; [split; [done|apply utf8_dec]|].
    apply Forall_cons; split; [|by apply Forall_nil]. split; [done|]. apply utf8_to_json. constructor.
    rewrite Forall_fmap. eapply Forall_impl; [exact H4|]. intros a Ha. by constructor.
  Qed.

  Definition read_pair (p : string * string) : string * jval := (p.1, attr_value read p.2).
  Lemma metadata_read m : pm_confirmations m < 2 ^ 64 -> pm_expires_at m < 2 ^ 64 ->
    read_pair <$> metadata_text m =
    [("poll_id", JStr (dec (pm_poll_id m)));
     ("source_chain", attr_value read (pm_chain m));
     ("source_gateway_address", attr_value read (pm_gateway m));
     ("confirmation_height", JNum (pm_confirmations m));
     ("expires_at", JNum (pm_expires_at m));
     ("participants", JArr (JStr <$> pm_participants m))].
  Proof.
    intros Hc He. unfold metadata_text, read_pair. rewrite !fmap_cons, fmap_nil. cbn [fst snd].
    rewrite !(attr_dec finite) by done. rewrite !(attr_readable finite); [done| |constructor].
    apply (readable_arr 126). rewrite Forall_fmap. apply Forall_true. intros a. constructor.
  Qed.

  Lemma messages_read contract es m :
    Forall (fun e => utf8_message e /\ te_index e < 2 ^ 64) es -> utf8_poll contract m ->
    pm_confirmations m < 2 ^ 64 -> pm_expires_at m < 2 ^ 64 ->
    read_event finite "wasm-messages_poll_started" (served (messages_text contract es m)) =
    Some (messages_poll_event read contract es m).
  Proof.
    intros Hes Hm Hc He. unfold read_event. rewrite (event_served finite).
    - do 2 f_equal. unfold messages_text.
      change ((fun p : string * string => (p.1, attr_value read p.2)) <$> ?l) with (read_pair <$> l).
      rewrite !fmap_cons, metadata_read by done.
      unfold read_pair at 1 2. cbn [fst snd]. rewrite (attr_readable finite (JArr _)).
      + rewrite 2!list_to_map_cons. rewrite (insert_commute _ "_contract_address" "messages") by discriminate.
        unfold messages_poll_event, metadata_attrs. rewrite (list_to_map_cons _ "_contract_address"). reflexivity.
      + apply (readable_arr 126). rewrite Forall_fmap. eapply Forall_impl; [exact Hes|]. intros e [_ H]. by apply message_readable.
    - by apply fields_apart.
    - apply Forall_cons; split; [split; [done|apply Hm]|]. apply Forall_cons; split; [split; [done|]|by eapply utf8_metadata].
      apply utf8_to_json, utf8_messages. eapply Forall_impl; [exact Hes|]. by intros e [? _].
  Qed.

  Lemma worker_set_read contract tx idx o m :
    utf8 tx = true -> idx < 2 ^ 64 -> utf8_poll contract m ->
    pm_confirmations m < 2 ^ 64 -> pm_expires_at m < 2 ^ 64 ->
    read_event finite "wasm-worker_set_poll_started" (served (worker_set_text contract tx idx o m)) =
    Some (worker_set_poll_event read contract tx idx o m).
  Proof.
    intros Htx Hi Hm Hc He. unfold read_event. rewrite (event_served finite).
    - do 2 f_equal. unfold worker_set_text.
      change ((fun p : string * string => (p.1, attr_value read p.2)) <$> ?l) with (read_pair <$> l).
      rewrite !fmap_cons, metadata_read by done.
      unfold read_pair at 1 2. cbn [fst snd]. rewrite (attr_readable finite (worker_set_json _ _ _)).
      + rewrite 2!list_to_map_cons. rewrite (insert_commute _ "_contract_address" "worker_set") by discriminate.
        unfold worker_set_poll_event, metadata_attrs. rewrite (list_to_map_cons _ "_contract_address"). reflexivity.
      + by apply worker_set_readable.
    - by apply fields_apart.
    - apply Forall_cons; split; [split; [done|apply Hm]|]. apply Forall_cons; split; [split; [done|]|by eapply utf8_metadata].
      by apply utf8_to_json, utf8_worker_set.
  Qed.

  (** A request to sign carries two attributes more than the signer reads. *)
  Lemma signing_read contract session wsid keys digest chain :
    utf8 contract = true -> utf8 wsid = true -> utf8 chain = true -> session < 2 ^ 64 ->
    readable 127 (JObj keys) -> utf8_value (JObj keys) ->
    exists ev, read_event finite "wasm-signing_started" (served (signing_text contract session wsid keys digest chain)) = Some ev /\
    forall acc de_key cfg open sign,
      multisig_handler acc de_key cfg open sign ev =
      multisig_handler acc de_key cfg open sign (signing_event read contract session keys digest).
  Proof.
    intros Hc Hw Hch Hs Hk Hku. eexists. split.
    - unfold read_event. rewrite (event_served finite); [reflexivity|by apply fields_apart|].
      unfold signing_text.
      apply Forall_cons; split; [done|]. apply Forall_cons; split; [split; [done|apply utf8_dec]|].
      apply Forall_cons; split; [done|]. apply Forall_cons; split; [split; [done|by apply utf8_to_json]|].
      apply Forall_cons; split; [split; [done|apply utf8_hex]|]. by apply Forall_cons; split.
    - intros acc de_key cfg open sign. unfold multisig_handler, typed, signing_event.
      rewrite !String.eqb_refl.
      match goal with |- match de_signing acc de_key ?a with _ => _ end = match de_signing acc de_key ?b with _ => _ end =>
        assert (de_signing acc de_key a = de_signing acc de_key b) as ->; [|done] end.
      unfold signing_text. rewrite !fmap_cons, fmap_nil. cbn [fst snd]. rewrite (attr_dec finite) by done.
      rewrite (attr_readable finite (JObj keys)) by done. unfold de_signing, de_attr.
      cbn [list_to_map foldr uncurry fst snd]. 
      repeat first [rewrite lookup_insert|rewrite lookup_insert_ne by discriminate]. reflexivity.
  Qed.

  (** ** What the handlers do with the texts *)

  Lemma text_messages_voted acc cfg height open rpc es meta gw h :
    acc (hc_contract cfg) = true -> Forall (fun a => acc a = true) (pm_participants meta) ->
    word (hc_contract cfg) -> word (pm_chain meta) -> (exists x, pm_gateway meta = "0x" +:+ x) ->
    wf_chain (pm_chain meta) -> hex_bytes 20 (pm_gateway meta) gw ->
    pm_poll_id meta < 2 ^ 64 -> pm_confirmations meta < 2 ^ 64 -> pm_expires_at meta < 2 ^ 64 ->
    Forall evm_form es -> Forall utf8_message es -> utf8_poll (hc_contract cfg) meta ->
    lower (evm_chain_str (hc_chain cfg)) = pm_chain meta -> hc_worker cfg ∈ pm_participants meta ->
    height < pm_expires_at meta ->
    finalized_height (hc_chain cfg) (pm_confirmations meta) rpc = Ok h -> open = true ->
    exists ev votes,
      read_event finite "wasm-messages_poll_started" (served (messages_text (hc_contract cfg) es meta)) = Some ev /\
      evm_msg_handler acc cfg height open rpc ev =
      Ok (Some {| wt_sender := hc_worker cfg; wt_contract := hc_contract cfg;
                  wt_body := BodyVote (pm_poll_id meta) votes |}) /\ length votes = length es.
  Proof.
    intros Ha Hps Hwc Hwch [x Hx] Hc Hg Hid Hcf Hex Hes Hu Hup Hch Hw Hht Hf Ho.
    destruct (messages_handled acc cfg height open rpc read es meta gw h) as (votes & Hv & Hl); try done.
    - by apply word_not_json.
    - by apply word_not_json.
    - rewrite Hx. apply zero_x_not_json.
    - eexists _, votes. split; [|split; [exact Hv|exact Hl]]. apply messages_read; [|done..].
      apply Forall_forall. intros e He. rewrite Forall_forall in Hes, Hu. split; [by apply Hu|by apply Hes].
  Qed.

  Lemma text_signs acc b58 de_key pub sig ms tf cf key contract a v session wsid keys digest chain w c :
    derived_keys pub sig ms tf -> worker_key None tf cf = Ok key -> cf_key_uid cf = contract ->
    ce_sign v = tf_sign tf -> ce_open v = true ->
    acc contract = true -> word contract ->
    c ∈ ["a"; "b"; "c"; "d"; "f"]%char -> contains c (to_hex digest) = true ->
    Forall (fun x => acc x.1 = true /\ is_Some (de_key x.2)) keys -> NoDup keys.*1 -> (a, w) ∈ keys -> de_key w = Some key ->
    session < 2 ^ 64 -> String.length digest = 32%nat ->
    utf8 contract = true -> utf8 wsid = true -> utf8 chain = true ->
    readable 127 (JObj keys) -> utf8_value (JObj keys) ->
    exists ev m, m ∈ ms /\ pub m contract = key /\
    read_event finite "wasm-signing_started" (served (signing_text contract session wsid keys digest chain)) = Some ev /\
    handle acc b58 de_key a (MultisigSigner contract) v ev =
      Ok (Some {| wt_sender := a; wt_contract := contract; wt_body := BodySignature session (sig m contract digest) |}).
  Proof.
    intros Hd Hk Hid Hv Ho Hacc Hw Hc Hcon Hks Hnd Hin Hdk Hs Hl Hu Huw Huc Hr Huk.
    destruct (signing_read contract session wsid keys digest chain) as (ev & Hev & He); [done..|].
    destruct (cf_signs acc b58 de_key pub sig ms tf cf key contract a v read session keys digest w) as (m & Hm & Hp & Hh); try done.
    - by apply word_not_json.
    - eapply hex_not_json; [apply to_hex_chars|exact Hc|exact Hcon].
    - exists ev, m. split; [done|]. split; [done|]. split; [done|]. rewrite <- Hh. unfold handle. apply He.
  Qed.

  (** A digest all of whose hexadecimal digits are decimal, the first not a
      zero, is taken for a number, and no signer can decode the request. *)
  Lemma decimal_digest_stops acc de_key cfg open sign contract session wsid keys digest chain c r :
    finite_ok finite ->
    utf8 contract = true -> utf8 wsid = true -> utf8 chain = true -> session < 2 ^ 64 ->
    readable 127 (JObj keys) -> utf8_value (JObj keys) ->
    to_hex digest = String c r -> decimal (to_hex digest) -> c <> "0"%char -> String.length digest = 32%nat ->
    exists ev, read_event finite "wasm-signing_started" (served (signing_text contract session wsid keys digest chain)) = Some ev /\
      multisig_handler acc de_key cfg open sign ev = Err DeserializeEvent.
  Proof.
    intros Hf Hu Huw Huc Hs Hr Huk He Hd Hc Hl.
    destruct (signing_read contract session wsid keys digest chain) as (ev & Hev & Hh); [done..|].
    exists ev. split; [done|]. rewrite Hh.
    destruct (decimal_json finite (to_hex digest) c r) as [Hj|[n Hj]]; [done..| | |].
    - rewrite to_hex_length, Hl. lia.
    - unfold multisig_handler, typed, signing_event. rewrite String.eqb_refl. unfold de_signing, de_attr, attr_value. rewrite Hj.
      cbn [list_to_map foldr uncurry fst snd]. repeat first [rewrite lookup_insert|rewrite lookup_insert_ne by discriminate].
      cbn [default from_option de_digest32]. by repeat case_match.
    - unfold multisig_handler, typed, signing_event. rewrite String.eqb_refl. unfold de_signing, de_attr, attr_value. rewrite Hj.
      cbn [list_to_map foldr uncurry fst snd]. repeat first [rewrite lookup_insert|rewrite lookup_insert_ne by discriminate].
      cbn [default from_option de_digest32]. by repeat case_match.
  Qed.
End Fix.

(** What users write into messages comes back as that text: two polls whose
    texts are the same are about the same things. *)
Lemma to_json_inj v w : readable 127 v -> readable 127 w -> to_json v = to_json w -> v = w.
Proof.
  intros Hv Hw E. pose proof (of_json_to_json (fun _ => true) v "" "" Hv I I) as H1.
  pose proof (of_json_to_json (fun _ => true) w "" "" Hw I I) as H2. rewrite E in H1. congruence.
Qed.

Lemma attr_word finite s : word s -> attr_value (of_json finite) s = JStr s.
Proof. intros H. unfold attr_value. by rewrite (word_not_json finite s H). Qed.
Lemma attr_0x finite s : attr_value (of_json finite) ("0x" +:+ s) = JStr ("0x" +:+ s).
Proof. unfold attr_value. by rewrite zero_x_not_json. Qed.
