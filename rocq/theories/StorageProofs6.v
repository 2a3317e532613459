(** The multisig contract over bytes. *)
From Verif Require Import Base BaseLemmas Text TextLemmas StdModel StdProofs MapLemmas EncodingModel EncodingProofs.
From Verif Require Import MultisigTypes MultisigModel RegistryProofs.
From Verif Require Import StorageModel StorageSpec StorageProofs StorageProofs2 StorageProofs3 StorageProofs4 StorageProofs5.

Record multisig_holds (t : gmap skey msval) (s : mstate) : Prop := {
  mh_config : t !! MS_CONFIG = Some (MvConfig (m_governance s) (m_rewards s) (m_grace s));
  mh_counter : t !! MS_COUNTER = Some (MvCounter (m_counter s));
  mh_session : forall id, id < 2 ^ 64 -> t !! ms_session_key id = MvSession <$> m_sessions s !! id;
  mh_session_only : forall l, is_Some (t !! SEntry "signing_sessions" [] l) -> exists id, l = u64_key id /\ id < 2 ^ 64;
  mh_sig : forall id a, id < 2 ^ 64 -> t !! ms_sig_key id a = MvSig <$> session_sigs s id !! a;
  mh_sig_only : forall p a, is_Some (t !! SEntry "signatures" [p] a) -> exists id, p = u64_key id /\ id < 2 ^ 64;
  mh_set : forall id, t !! ms_set_key id = MvSet <$> m_sets s !! id;
  mh_key : forall a k, t !! ms_pub_key a k = MvKey <$> m_keys s !! (a, k);
  mh_key_only : forall a l, is_Some (t !! SEntry "registered_pub_keys" [a] l) -> exists k, l = key_type_key k;
  mh_caller : forall a, t !! ms_caller_key a = if decide (a ∈ m_callers s) then Some MvCaller else None;
}.
Definition multisig_ids (s : mstate) : Prop :=
  (forall id ss, m_sessions s !! id = Some ss -> id < 2 ^ 64 /\ ss_id ss = id) /\
  (forall id sigs, m_sigs s !! id = Some sigs -> id < 2 ^ 64).

Lemma slen_u64 n : slen (u64_key n) = 8.
Proof. unfold slen, u64_key. by rewrite be_bytes_length. Qed.
Lemma fits_session id : fits (ms_session_key id).
Proof. constructor. Qed.
Lemma fits_sig id a : fits (ms_sig_key id a).
Proof. unfold ms_sig_key. constructor; [|constructor]. rewrite slen_u64. lia. Qed.
Lemma fits_set id : fits (ms_set_key id).
Proof. constructor. Qed.
Lemma fits_caller a : fits (ms_caller_key a).
Proof. constructor. Qed.
Lemma fits_pub a k : slen a <= 65535 -> fits (ms_pub_key a k).
Proof. intros H. by repeat constructor. Qed.
Lemma list_to_map_btree {V} (m : gmap string V) : list_to_map (btree_iter m) = m.
Proof.
  rewrite <- (list_to_map_to_list m) at 2. apply list_to_map_proper; [apply btree_keys_NoDup|apply isort_perm].
Qed.
Lemma ms_sig_ne id1 a1 id2 a2 :
  id1 < 2 ^ 64 -> id2 < 2 ^ 64 -> (id1, a1) <> (id2, a2) -> ms_sig_key id1 a1 <> ms_sig_key id2 a2.
Proof. intros H1 H2 Hne He. unfold ms_sig_key in He. entry_inj. by subst. Qed.
Lemma ms_session_ne id1 id2 : id1 < 2 ^ 64 -> id2 < 2 ^ 64 -> id1 <> id2 -> ms_session_key id1 <> ms_session_key id2.
Proof. intros H1 H2 Hne He. unfold ms_session_key in He. entry_inj. by subst. Qed.
Lemma ms_pub_ne a k a' k' : (a, k) <> (a', k') -> ms_pub_key a k <> ms_pub_key a' k'.
Proof. intros Hne He. unfold ms_pub_key in He. entry_inj. by subst. Qed.
Ltac other := try (rewrite lookup_insert_ne by done); try (rewrite lookup_delete_ne by done).

(** ** Writing *)
Definition with_counter (s : mstate) (n : N) : mstate :=
  {| m_governance := m_governance s; m_rewards := m_rewards s; m_grace := m_grace s; m_counter := n;
     m_sessions := m_sessions s; m_sigs := m_sigs s; m_sets := m_sets s; m_keys := m_keys s; m_callers := m_callers s |}.
Definition with_session (s : mstate) (n : N) (ss : session) : mstate :=
  {| m_governance := m_governance s; m_rewards := m_rewards s; m_grace := m_grace s; m_counter := m_counter s;
     m_sessions := <[n := ss]> (m_sessions s); m_sigs := m_sigs s; m_sets := m_sets s; m_keys := m_keys s;
     m_callers := m_callers s |}.
Definition with_sig (s : mstate) (id : N) (a : addr) (sg : signature) : mstate :=
  {| m_governance := m_governance s; m_rewards := m_rewards s; m_grace := m_grace s; m_counter := m_counter s;
     m_sessions := m_sessions s; m_sigs := <[id := <[a := sg]> (session_sigs s id)]> (m_sigs s); m_sets := m_sets s;
     m_keys := m_keys s; m_callers := m_callers s |}.
Lemma holds_counter t s n :
  multisig_holds t s -> multisig_holds (<[MS_COUNTER := MvCounter n]> t) (with_counter s n).
Proof.
  intros [H1 H2 H3 H4 H5 H6 H7 H8 H9 H10]. constructor; simpl; intros; try (rewrite lookup_insert_ne by done); eauto.
  - by rewrite lookup_insert.
  - apply H4. by rewrite lookup_insert_ne in H by done.
  - apply (H6 p a). by rewrite lookup_insert_ne in H by done.
  - apply (H9 a). by rewrite lookup_insert_ne in H by done.
Qed.
Lemma holds_session t s n ss :
  multisig_holds t s -> n < 2 ^ 64 -> multisig_holds (<[ms_session_key n := MvSession ss]> t) (with_session s n ss).
Proof.
  intros [H1 H2 H3 H4 H5 H6 H7 H8 H9 H10] Hn. constructor; simpl; intros; try (rewrite lookup_insert_ne by done); eauto.
  - destruct (decide (id = n)) as [->|Hne]; [by rewrite !lookup_insert|].
    rewrite lookup_insert_ne by (by apply ms_session_ne). rewrite lookup_insert_ne by done. by apply H3.
  - destruct (decide (l = u64_key n)) as [->|Hne]; [by exists n|].
    rewrite lookup_insert_ne in H; [by apply H4|]. intros He. unfold ms_session_key in He. entry_inj. congruence.
  - apply (H6 p a). by rewrite lookup_insert_ne in H by done.
  - apply (H9 a). by rewrite lookup_insert_ne in H by done.
Qed.
Lemma holds_sig t s id a sg :
  multisig_holds t s -> id < 2 ^ 64 -> multisig_holds (<[ms_sig_key id a := MvSig sg]> t) (with_sig s id a sg).
Proof.
  intros [H1 H2 H3 H4 H5 H6 H7 H8 H9 H10] Hn. constructor; simpl; intros; try (rewrite lookup_insert_ne by done); eauto.
  - apply H4. by rewrite lookup_insert_ne in H by done.
  - unfold session_sigs, with_sig. simpl. destruct (decide (id0 = id)) as [->|Hne].
    + rewrite lookup_insert. simpl. destruct (decide (a0 = a)) as [->|Ha]; [by rewrite !lookup_insert|].
      rewrite lookup_insert_ne by (apply ms_sig_ne; [done|done|congruence]). rewrite lookup_insert_ne by done. by apply H5.
    + rewrite lookup_insert_ne by (apply ms_sig_ne; [done|done|congruence]). rewrite lookup_insert_ne by done. by apply H5.
  - destruct (decide (p = u64_key id)) as [->|Hne]; [by exists id|].
    rewrite lookup_insert_ne in H; [by apply (H6 p a0)|]. intros He. unfold ms_sig_key in He. entry_inj. congruence.
  - apply (H9 a0). by rewrite lookup_insert_ne in H by done.
Qed.

(** ** Reading *)
Lemma sig_entries t s id :
  multisig_holds t s -> id < 2 ^ 64 ->
  btree_iter (entries t "signatures" [u64_key id]) = (fun x => (x.1, MvSig x.2)) <$> btree_iter (session_sigs s id).
Proof.
  intros Hh Hid. symmetry. apply btree_of_list.
  - apply Sorted_fmap. apply btree_sorted.
  - rewrite <- list_fmap_compose. apply btree_keys_NoDup.
  - intros k v. rewrite lookup_entries. change (SEntry "signatures" [u64_key id] k) with (ms_sig_key id k).
    rewrite (mh_sig _ _ Hh) by done. rewrite elem_of_list_fmap. split.
    + intros ([n sg] & [= -> ->] & Hin). apply elem_of_btree in Hin. by rewrite Hin.
    + destruct (session_sigs s id !! k) as [sg|] eqn:E; [|done]. intros [= <-].
      exists (k, sg). split; [done|]. by apply elem_of_btree.
Qed.
Section Read.
  Context (t : gmap skey msval) (s : mstate) (Hh : multisig_holds t s).
  Lemma ideal_s_config : ideal s_config t = Ok (t, (m_governance s, m_rewards s, m_grace s)).
  Proof using Hh. unfold s_config. rewrite ideal_get by done. by rewrite (mh_config _ _ Hh). Qed.
  Lemma ideal_s_session id : id < 2 ^ 64 -> ideal (s_session id) t = Ok (t, m_sessions s !! id).
  Proof using Hh.
    intros H. unfold s_session. rewrite ideal_get by apply fits_session. rewrite (mh_session _ _ Hh) by done.
    by destruct (m_sessions s !! id).
  Qed.
  Lemma ideal_s_set id : ideal (s_set id) t = Ok (t, m_sets s !! id).
  Proof using Hh.
    unfold s_set. rewrite ideal_get by apply fits_set. rewrite (mh_set _ _ Hh). by destruct (m_sets s !! id).
  Qed.
  Lemma ideal_s_sig id a : id < 2 ^ 64 -> ideal (s_sig id a) t = Ok (t, session_sigs s id !! a).
  Proof using Hh.
    intros H. unfold s_sig. rewrite ideal_get by apply fits_sig. rewrite (mh_sig _ _ Hh) by done.
    by destruct (session_sigs s id !! a).
  Qed.
  Lemma ideal_s_sigs id : id < 2 ^ 64 -> ideal (s_sigs id) t = Ok (t, session_sigs s id).
  Proof using Hh.
    intros H. unfold s_sigs. rewrite ideal_scan by apply (fits_sig id EmptyString).
    rewrite (sig_entries t s id Hh H), ideal_bind.
    assert (Hl : forall l : list (string * signature),
      ideal (collect (fun kv => match kv.2 with MvSig s => Ret (kv.1, s) | _ => Fail (SStd (E:=merror)) end)
               ((fun x => (x.1, MvSig x.2)) <$> l)) t = Ok (t, l)).
    { induction l as [|[a sg] l IH]; [done|]. rewrite fmap_cons. cbn [collect fst snd]. rewrite ideal_bind.
      cbn [ideal rbind fst snd]. rewrite ideal_bind, IH. done. }
    rewrite Hl. cbn [rbind ideal fst snd]. by rewrite list_to_map_btree.
  Qed.
End Read.

Section Calls.
  Context (wsid : worker_set -> string).
  Context (crypto : key_type -> string -> string -> string -> option bool).
  Notation step := (multisig_step wsid crypto).
  Notation stepb := (multisig_bytes_step wsid crypto).

  Lemma multisig_like t s op :
    multisig_holds t s -> multisig_ids s -> multisig_call_ok op ->
    agree multisig_holds (ideal (multisig_prog wsid crypto op) t) (map_err SOwn (step s op)).
  Proof using.
    intros Hh [Hi1 Hi2] Hop.
    destruct op as [a id msg chain|h a id b|a ws|a k b|a auth c]; cbn [multisig_prog multisig_step multisig_call_ok] in *.
    - unfold s_start, start_session. rewrite ideal_bind, ideal_get by apply fits_caller. rewrite (mh_caller _ _ Hh).
      destruct (decide (a ∈ m_callers s)) as [Ha|Ha].
      2:{ rewrite bool_decide_eq_false_2 by done. done. }
      rewrite bool_decide_eq_true_2 by done. cbn [ideal ensure map_err rbind fst snd].
      rewrite ideal_bind, ideal_own. destruct (msg_to_sign_of msg) as [mg|]; cbn [of_option map_err rbind fst snd]; [|done].
      rewrite ideal_bind, (ideal_s_set t s Hh). cbn [rbind fst snd].
      rewrite ideal_bind, ideal_own. destruct (m_sets s !! id) as [ws|]; cbn [of_option map_err rbind fst snd]; [|done].
      rewrite ideal_bind, ideal_get by done. rewrite (mh_counter _ _ Hh). cbn [ideal rbind fst snd].
      rewrite ideal_bind, ideal_own. destruct (add_u64 (m_counter s) 1) as [n|e|] eqn:En; cbn [map_err rbind fst snd]; [|done|done].
      apply add_u64_ok in En as [Hn ->].
      rewrite ideal_put by done. rewrite ideal_put by apply fits_session. cbn [ideal].
      split; [done|].
      match goal with |- multisig_holds _ ?x => change x with
        (with_session (with_counter s (m_counter s + 1)) (m_counter s + 1)
           {| ss_id := m_counter s + 1; ss_wsid := id; ss_msg := mg; ss_state := MPending |}) end.
      apply holds_session; [|first [exact Hn|unfold U64 in Hn; lia]]. by apply holds_counter.
    - unfold s_submit, submit_signature. rewrite ideal_bind, (ideal_s_config t s Hh). cbn [rbind fst snd].
      rewrite ideal_bind, (ideal_s_session t s Hh) by done. cbn [rbind fst snd].
      rewrite ideal_bind, ideal_own. destruct (m_sessions s !! id) as [ss|] eqn:Ess; cbn [of_option map_err rbind fst snd]; [|done].
      destruct (Hi1 id ss Ess) as [_ Hid].
      rewrite ideal_bind, (ideal_s_set t s Hh). cbn [rbind fst snd].
      rewrite ideal_bind, ideal_own. destruct (m_sets s !! ss_wsid ss) as [ws|]; cbn [of_option map_err rbind fst snd]; [|done].
      rewrite ideal_bind, ideal_own. destruct (ws_signers ws !! a) as [signer|]; cbn [of_option map_err rbind fst snd]; [|done].
      rewrite ideal_bind, ideal_own.
      destruct (signature_try_from (pk_type (sg_key signer)) b) as [sg|]; cbn [of_option map_err rbind fst snd]; [|done].
      rewrite ideal_bind, ideal_own.
      destruct (validate_signature crypto ss sg (sg_key signer) (m_grace s) h) as [[]|e|]; cbn [map_err rbind fst snd]; [|done|done].
      rewrite ideal_bind, (ideal_s_sig t s Hh) by done. cbn [rbind fst snd].
      rewrite ideal_bind, ideal_own. destruct (bool_decide _); cbn [ensure map_err rbind fst snd]; [|done].
      rewrite ideal_bind, ideal_put by apply fits_sig. cbn [ideal rbind fst snd].
      pose proof (holds_sig t s id a sg Hh Hop) as Hh1.
      rewrite ideal_bind, (ideal_s_sigs _ _ Hh1) by done. cbn [rbind fst snd].
      assert (Hsg : session_sigs (with_sig s id a sg) id = <[a := sg]> (session_sigs s id)).
      { unfold session_sigs at 1, with_sig. simpl. by rewrite lookup_insert. }
      rewrite Hsg, ideal_bind, ideal_own.
      destruct (signers_weight (<[a := sg]> (session_sigs s id)) ws) as [w|e|]; cbn [map_err rbind fst snd]; [|done|done].
      cbv zeta. rewrite ideal_put by apply fits_session. cbn [ideal agree]. split; [done|].
      rewrite Hid.
      match goal with |- multisig_holds (<[_ := MvSession ?x]> _) ?y => change y with (with_session (with_sig s id a sg) id x) end.
      by apply holds_session.
    - unfold s_register_set, register_worker_set. rewrite ideal_put by apply fits_set. cbn [ideal map_err agree].
      split; [done|]. destruct Hh as [H1 H2 H3 H4 H5 H6 H7 H8 H9 H10].
      constructor; simpl; intros; try (rewrite lookup_insert_ne by done); eauto.
      + apply H4. by rewrite lookup_insert_ne in H by done.
      + apply (H6 p a0). by rewrite lookup_insert_ne in H by done.
      + destruct (decide (id = wsid ws)) as [->|Hne]; [by rewrite !lookup_insert|].
        rewrite lookup_insert_ne by (intros He; unfold ms_set_key in He; entry_inj; congruence).
        by rewrite lookup_insert_ne by done.
      + apply (H9 a0). by rewrite lookup_insert_ne in H by done.
    - unfold s_register_key, register_pub_key. rewrite ideal_bind, ideal_own.
      destruct (public_key_try_from k b) as [pk|]; cbn [of_option map_err rbind fst snd]; [|done].
      rewrite ideal_put by (by apply fits_pub). cbn [ideal agree].
      split; [done|]. destruct Hh as [H1 H2 H3 H4 H5 H6 H7 H8 H9 H10].
      constructor; simpl; intros; try (rewrite lookup_insert_ne by done); eauto.
      + apply H4. by rewrite lookup_insert_ne in H by done.
      + apply (H6 p a0). by rewrite lookup_insert_ne in H by done.
      + destruct (decide ((a0, k0) = (a, pk_type pk))) as [He|Hne].
        * injection He as -> ->. by rewrite !lookup_insert.
        * rewrite lookup_insert_ne by (by apply ms_pub_ne). by rewrite lookup_insert_ne by done.
      + destruct (decide (SEntry "registered_pub_keys" [a0] l = ms_pub_key a (pk_type pk))) as [He|Hne].
        * unfold ms_pub_key in He. entry_inj. by exists (pk_type pk).
        * apply (H9 a0). by rewrite lookup_insert_ne in H by done.
    - unfold s_caller, set_caller. rewrite ideal_bind, (ideal_s_config t s Hh). cbn [rbind fst snd].
      rewrite ideal_bind, ideal_own. destruct (bool_decide _); cbn [ensure map_err rbind fst snd]; [|done].
      destruct Hh as [H1 H2 H3 H4 H5 H6 H7 H8 H9 H10]. destruct auth.
      + rewrite ideal_put by apply fits_caller. cbn [ideal agree]. split; [done|].
        constructor; simpl; intros; try (rewrite lookup_insert_ne by done); eauto.
        * apply H4. by rewrite lookup_insert_ne in H by done.
        * apply (H6 p a0). by rewrite lookup_insert_ne in H by done.
        * apply (H9 a0). by rewrite lookup_insert_ne in H by done.
        * destruct (decide (a0 = c)) as [->|Hne].
          -- rewrite lookup_insert. rewrite decide_True; [done|set_solver].
          -- rewrite lookup_insert_ne by (intros He; unfold ms_caller_key in He; entry_inj; congruence).
             rewrite H10. by do 2 case_decide; set_solver.
      + rewrite ideal_del by apply fits_caller. cbn [ideal agree]. split; [done|].
        constructor; simpl; intros; try (rewrite lookup_delete_ne by done); eauto.
        * apply H4. by rewrite lookup_delete_ne in H by done.
        * apply (H6 p a0). by rewrite lookup_delete_ne in H by done.
        * apply (H9 a0). by rewrite lookup_delete_ne in H by done.
        * destruct (decide (a0 = c)) as [->|Hne].
          -- rewrite lookup_delete. rewrite decide_False; [done|set_solver].
          -- rewrite lookup_delete_ne by (intros He; unfold ms_caller_key in He; entry_inj; congruence).
             rewrite H10. by do 2 case_decide; set_solver.
  Qed.

  Lemma ids_step s op s' out :
    multisig_ids s -> multisig_call_ok op -> step s op = Ok (s', out) -> multisig_ids s'.
  Proof using.
    intros [H1 H2] Hop Hr. destruct op as [a id msg chain|h a id b|a ws|a k b|a auth c]; simpl in Hr, Hop.
    - unfold start_session in Hr. apply rbind_ok in Hr as (? & _ & Hr). apply rbind_ok in Hr as (? & _ & Hr).
      apply rbind_ok in Hr as (? & _ & Hr). apply rbind_ok in Hr as (n & En & Hr).
      apply add_u64_ok in En as [Hn ->]. injection Hr as <- _. split; simpl; [|done].
      intros i ss. destruct (decide (i = m_counter s + 1)) as [->|Hne].
      + rewrite lookup_insert. intros [= <-]. simpl. split; [|done]. first [exact Hn|unfold U64 in Hn; lia].
      + rewrite lookup_insert_ne by done. apply H1.
    - unfold submit_signature in Hr. apply rbind_ok in Hr as (ss & Ess & Hr). apply of_option_ok in Ess.
      destruct (H1 id ss Ess) as [_ Hid].
      apply rbind_ok in Hr as (ws & _ & Hr). apply rbind_ok in Hr as (sgn & _ & Hr).
      apply rbind_ok in Hr as (sg & _ & Hr). apply rbind_ok in Hr as (? & _ & Hr). apply rbind_ok in Hr as (? & _ & Hr).
      apply rbind_ok in Hr as (w & _ & Hr). injection Hr as <- _. split; simpl.
      + intros i ss'. rewrite Hid. destruct (decide (i = id)) as [->|Hne].
        * rewrite lookup_insert. intros [= <-]. done.
        * rewrite lookup_insert_ne by done. apply H1.
      + intros i sigs. destruct (decide (i = id)) as [->|Hne]; [done|].
        rewrite lookup_insert_ne by done. apply H2.
    - unfold register_worker_set in Hr. by injection Hr as <- _.
    - unfold register_pub_key in Hr. apply rbind_ok in Hr as (? & _ & Hr). by injection Hr as <- _.
    - unfold set_caller in Hr. apply rbind_ok in Hr as (? & _ & Hr). by injection Hr as <- _.
  Qed.

  Lemma keeps_s_set id : keeps multisig_layout (s_set id).
  Proof using. split; [in_layout|]. by intros [[]|]. Qed.
  Lemma keeps_s_session id : keeps multisig_layout (s_session id).
  Proof using. split; [in_layout|]. by intros [[]|]. Qed.
  Lemma keeps_s_config : keeps multisig_layout s_config.
  Proof using. split; [in_layout|]. by intros [[]|]. Qed.
  Lemma keeps_s_sig id a : keeps multisig_layout (s_sig id a).
  Proof using. split; [in_layout|]. by intros [[]|]. Qed.
  Lemma keeps_s_sigs id : keeps multisig_layout (s_sigs id).
  Proof using.
    split; [in_layout|]. split.
    - constructor; [|constructor]. rewrite slen_u64. lia.
    - intros l. apply keeps_bind; [|done]. apply keeps_collect. intros [a []]; done.
  Qed.
  Lemma keeps_multisig_prog op : keeps multisig_layout (multisig_prog wsid crypto op).
  Proof using.
    destruct op as [a id msg chain|h a id b|a ws|a k b|a auth c]; cbn [multisig_prog].
    - unfold s_start. apply keeps_bind; [split; [in_layout|by intros [[]|]]|]. intros _.
      apply keeps_bind; [apply keeps_own|]. intros ?. apply keeps_bind; [apply keeps_s_set|]. intros ?.
      apply keeps_bind; [apply keeps_own|]. intros ?. apply keeps_bind; [split; [in_layout|by intros [[]|]]|]. intros ?.
      apply keeps_bind; [apply keeps_own|]. intros ?. split; [in_layout|]. split; [in_layout|done].
    - unfold s_submit. apply keeps_bind; [apply keeps_s_config|]. intros ?.
      apply keeps_bind; [apply keeps_s_session|]. intros ?. apply keeps_bind; [apply keeps_own|]. intros ?.
      apply keeps_bind; [apply keeps_s_set|]. intros ?. apply keeps_bind; [apply keeps_own|]. intros ?.
      apply keeps_bind; [apply keeps_own|]. intros ?. apply keeps_bind; [apply keeps_own|]. intros ?.
      apply keeps_bind; [apply keeps_own|]. intros ?. apply keeps_bind; [apply keeps_s_sig|]. intros ?.
      apply keeps_bind; [apply keeps_own|]. intros ?. apply keeps_bind; [split; [in_layout|done]|]. intros ?.
      apply keeps_bind; [apply keeps_s_sigs|]. intros ?. apply keeps_bind; [apply keeps_own|]. intros ?.
      split; [in_layout|done].
    - split; [in_layout|done].
    - unfold s_register_key. apply keeps_bind; [apply keeps_own|]. intros ?. split; [in_layout|done].
    - unfold s_caller. apply keeps_bind; [apply keeps_s_config|]. intros ?. apply keeps_bind; [apply keeps_own|]. intros ?.
      destruct auth; (split; [in_layout|done]).
  Qed.
  Lemma keeps_s_multisig id : keeps multisig_layout (s_multisig id).
  Proof using.
    unfold s_multisig. apply keeps_bind; [apply keeps_s_session|]. intros ?. apply keeps_bind; [apply keeps_own|]. intros ?.
    apply keeps_bind; [apply keeps_s_set|]. intros ?. apply keeps_bind; [apply keeps_own|]. intros ?.
    apply keeps_bind; [apply keeps_s_sigs|]. done.
  Qed.
  Lemma reads_s_multisig id : reads (s_multisig id).
  Proof using.
    unfold s_multisig. apply reads_bind; [by intros [[]|]|]. intros ?. apply reads_bind; [apply reads_own|]. intros ?.
    apply reads_bind; [by intros [[]|]|]. intros ?. apply reads_bind; [apply reads_own|]. intros ?.
    apply reads_bind; [|done]. intros l. apply reads_bind; [|done]. apply reads_collect. by intros [? []].
  Qed.
  Lemma ideal_multisig t s id :
    multisig_holds t s -> multisig_ids s -> id < 2 ^ 64 ->
    ideal (s_multisig id) t = let? r := map_err SOwn (get_multisig s id) in Ok (t, r).
  Proof using.
    intros Hh [H1 _] Hid. unfold s_multisig, get_multisig. rewrite ideal_bind, (ideal_s_session t s Hh) by done.
    cbn [rbind fst snd]. rewrite ideal_bind, ideal_own.
    destruct (m_sessions s !! id) as [ss|] eqn:Ess; cbn [of_option map_err rbind fst snd]; [|done].
    destruct (H1 id ss Ess) as [_ ->].
    rewrite ideal_bind, (ideal_s_set t s Hh). cbn [rbind fst snd].
    rewrite ideal_bind, ideal_own. destruct (m_sets s !! ss_wsid ss) as [ws|]; cbn [of_option map_err rbind fst snd]; [|done].
    rewrite ideal_bind, (ideal_s_sigs t s Hh) by done. done.
  Qed.

  (** ** The simulation *)
  Definition multisig_sim (m : gmap string msval) (s : mstate) : Prop :=
    multisig_ids s /\ exists t, stored multisig_layout m t /\ multisig_holds t s.
  Lemma multisig_sim_step m s op :
    multisig_sim m s -> multisig_call_ok op ->
    agree multisig_sim (stepb m op) (map_err SOwn (step s op)).
  Proof using.
    intros (Hn & t & Hst & Hh) Hop.
    pose proof (c97_faithful multisig_layout (multisig_prog wsid crypto op) m t ltac:(by vm_compute)
                  (keeps_multisig_prog op) Hst) as H1.
    pose proof (multisig_like t s op Hh Hn Hop) as H2. unfold multisig_bytes_step.
    pose proof (agree_trans _ _ _ _ _ H1 H2) as H3.
    destruct (raw (multisig_prog wsid crypto op) m) as [[m' a]|e|], (step s op) as [[s' b]|f|] eqn:Es;
      simpl in H3 |- *; try done.
    destruct H3 as [-> H3]. split; [done|]. split; [by apply (ids_step s op s' b)|done].
  Qed.
  Lemma multisig_sim_init g r p : multisig_sim (multisig_bytes_init g r p) (multisig_init g r p).
  Proof using.
    split; [split; intros ? ?; simpl; by rewrite lookup_empty|].
    exists (<[MS_COUNTER := MvCounter 0]> {[MS_CONFIG := MvConfig g r p]}). split.
    - unfold multisig_bytes_init. apply (stored_insert multisig_layout _ _ MS_COUNTER); [by vm_compute| |in_layout|done].
      split.
      + intros k [v Hv]. apply lookup_singleton_Some in Hv as [<- _]. split; [in_layout|done].
      + intros x v. rewrite lookup_singleton_Some. split.
        * intros [<- <-]. exists MS_CONFIG. split; [done|]. apply lookup_singleton.
        * intros (k & Hp & Hk). apply lookup_singleton_Some in Hk as [<- <-]. simpl in Hp. by injection Hp as <-.
    - constructor; simpl.
      + by rewrite lookup_insert_ne, lookup_singleton by done.
      + by rewrite lookup_insert.
      + intros id _. by rewrite lookup_empty, lookup_insert_ne, lookup_singleton_ne by done.
      + intros l. rewrite lookup_insert_ne, lookup_singleton_ne by done. by intros [? ?].
      + intros id a _. unfold session_sigs. simpl. rewrite lookup_empty. simpl.
        by rewrite lookup_empty, lookup_insert_ne, lookup_singleton_ne by done.
      + intros q l. rewrite lookup_insert_ne, lookup_singleton_ne by done. by intros [? ?].
      + intros id. by rewrite lookup_empty, lookup_insert_ne, lookup_singleton_ne by done.
      + intros a k. by rewrite lookup_empty, lookup_insert_ne, lookup_singleton_ne by done.
      + intros a l. rewrite lookup_insert_ne, lookup_singleton_ne by done. by intros [? ?].
      + intros a. rewrite lookup_insert_ne, lookup_singleton_ne by done. rewrite decide_False; [done|set_solver].
  Qed.
  Lemma multisig_sim_stored m s : multisig_sim m s -> multisig_stored m s.
  Proof using.
    intros ([Hi1 Hi2] & t & [Hp Hm] & Hh) x v. rewrite Hm. split.
    - intros (k & Hk & Hv). destruct (Hp k ltac:(by eexists)) as [Hpl _].
      destruct k as [i|ns ps l]; simpl in Hpl.
      + apply elem_of_cons in Hpl as [->|Hpl]; [|apply elem_of_list_singleton in Hpl as ->].
        * left. pose proof (mh_config _ _ Hh) as Hc. unfold MS_CONFIG in Hc. rewrite Hc in Hv.
          injection Hv as <-. simpl in Hk. by injection Hk as <-.
        * right. left. pose proof (mh_counter _ _ Hh) as Hc. unfold MS_COUNTER in Hc. rewrite Hc in Hv.
          injection Hv as <-. simpl in Hk. by injection Hk as <-.
      + do 2 right.
        apply elem_of_cons in Hpl as [[= -> Hl]|Hpl];
        [|apply elem_of_cons in Hpl as [[= -> Hl]|Hpl];
        [|apply elem_of_cons in Hpl as [[= -> Hl]|Hpl];
        [|apply elem_of_cons in Hpl as [[= -> Hl]|Hpl];
        [|apply elem_of_list_singleton in Hpl as [= -> Hl]]]]].
        * left. destruct ps; [|done]. destruct (mh_session_only _ _ Hh l ltac:(by eexists)) as (id & -> & Hid).
          change (SEntry "signing_sessions" [] (u64_key id)) with (ms_session_key id) in *.
          rewrite (mh_session _ _ Hh) in Hv by done. destruct (m_sessions s !! id) as [ss|] eqn:E; [|done].
          injection Hv as <-. by exists id, ss.
        * right. left. destruct ps as [|q [|]]; try done.
          destruct (mh_sig_only _ _ Hh q l ltac:(by eexists)) as (id & -> & Hid).
          change (SEntry "signatures" [u64_key id] l) with (ms_sig_key id l) in *.
          rewrite (mh_sig _ _ Hh) in Hv by done. unfold session_sigs in Hv.
          destruct (m_sigs s !! id) as [sigs|] eqn:E; simpl in Hv; [|by rewrite lookup_empty in Hv].
          destruct (sigs !! l) as [sg|] eqn:El; [|done]. injection Hv as <-. by exists id, sigs, l, sg.
        * do 2 right. left. destruct ps; [|done]. change (SEntry "worker_sets" [] l) with (ms_set_key l) in *.
          rewrite (mh_set _ _ Hh) in Hv. destruct (m_sets s !! l) as [ws|] eqn:E; [|done].
          injection Hv as <-. by exists l, ws.
        * do 3 right. left. destruct ps as [|a [|]]; try done.
          destruct (mh_key_only _ _ Hh a l ltac:(by eexists)) as (kt & ->).
          change (SEntry "registered_pub_keys" [a] (key_type_key kt)) with (ms_pub_key a kt) in *.
          rewrite (mh_key _ _ Hh) in Hv. destruct (m_keys s !! (a, kt)) as [kk|] eqn:E; [|done].
          injection Hv as <-. by exists a, kt, kk.
        * do 4 right. destruct ps; [|done]. change (SEntry "authorized_callers" [] l) with (ms_caller_key l) in *.
          rewrite (mh_caller _ _ Hh) in Hv. case_decide; [|done]. injection Hv as <-. by exists l.
    - intros [[-> ->]|[[-> ->]|[(id & ss & He & Hk & ->)|[(id & sigs & a & sg & Hs & Ha & Hk & ->)|
        [(id & ws & Hs & Hk & ->)|[(a & kt & kk & He & Hk & ->)|(a & Ha & Hk & ->)]]]]]].
      + exists MS_CONFIG. split; [done|]. apply (mh_config _ _ Hh).
      + exists MS_COUNTER. split; [done|]. apply (mh_counter _ _ Hh).
      + exists (ms_session_key id). split; [done|]. destruct (Hi1 id ss He). by rewrite (mh_session _ _ Hh), He.
      + exists (ms_sig_key id a). split; [done|]. rewrite (mh_sig _ _ Hh) by (by eapply Hi2).
        unfold session_sigs. rewrite Hs. simpl. by rewrite Ha.
      + exists (ms_set_key id). split; [done|]. by rewrite (mh_set _ _ Hh), Hs.
      + exists (ms_pub_key a kt). split; [done|]. by rewrite (mh_key _ _ Hh), He.
      + exists (ms_caller_key a). split; [done|]. rewrite (mh_caller _ _ Hh). by rewrite decide_True.
  Qed.

  Lemma c98_multisig g r p ops :
    Forall multisig_call_ok ops ->
    let m := run stepb (multisig_bytes_init g r p) ops in
    let s := run step (multisig_init g r p) ops in
    log stepb (multisig_bytes_init g r p) ops = log step (multisig_init g r p) ops /\
    multisig_stored m s /\
    (forall op, multisig_call_ok op -> agree multisig_stored (stepb m op) (map_err SOwn (step s op))) /\
    (forall id, id < 2 ^ 64 -> raw (s_multisig id) m = let? r := map_err SOwn (get_multisig s id) in Ok (m, r)).
  Proof using.
    intros Hops m s.
    destruct (sim_run stepb step multisig_sim multisig_call_ok multisig_sim_step
                (multisig_bytes_init g r p) (multisig_init g r p) ops (multisig_sim_init g r p) Hops) as [H1 H2].
    split; [done|]. split; [by apply multisig_sim_stored|]. split.
    - intros op Hop. eapply agree_impl; [exact multisig_sim_stored|]. by apply multisig_sim_step.
    - intros id Hid. destruct H1 as (Hd & t & Hst & Hh).
      apply (raw_query multisig_layout (s_multisig id) m t _ SOwn);
        [by vm_compute|by apply keeps_s_multisig|apply reads_s_multisig|done|by apply ideal_multisig].
  Qed.
End Calls.
