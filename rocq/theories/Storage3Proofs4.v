(** The multisig contract and the rewards contract over texts. *)
From Verif Require Import Base BaseLemmas MapLemmas StdProofs Text TextLemmas StdModel RouterTypes RegistryTypes OperatorsModel MultisigTypes.
From Verif Require Import EncodingModel VerifierModel RewardsModel RegistryModel RouterModel GatewayModel NexusModel MultisigModel ProverModel.
From Verif Require Import StorageModel StorageSpec StorageProofs2 StorageProofs3 StorageProofs4 StorageProofs5 StorageProofs6.
From Verif Require Import Storage2Model Storage2Spec Storage2Proofs Storage2Proofs2 Storage2Proofs3.
From Verif Require Import EventsModel JsonModel JsonSpec WireModel WireSpec WireProofs WireProofs2 WireProofs3.
From Verif Require Import Storage3Model Storage3Spec Storage3Proofs Storage3Proofs2 Storage3Proofs3.

(** Two items. *)
Lemma tsim_two {V} (P : string -> V -> Prop) (L : layout) enc n1 v1 n2 v2 :
  proper L = true -> place L (SItem n1) -> P n1 v1 -> place L (SItem n2) -> P n2 v2 ->
  tsim P L enc (to_text enc <$> <[n2 := v2]> {[n1 := v1]}) (<[n2 := v2]> {[n1 := v1]}).
Proof.
  intros HL Hp1 Hv1 Hp2 Hv2. split; [done|]. exists (<[SItem n2 := v2]> {[SItem n1 := v1]}). split.
  - apply stored_insert; [done|by apply stored_single|done|done].
  - intros k w Hk. apply lookup_insert_Some in Hk as [[<- <-]|[_ Hk]]; [done|].
    apply lookup_singleton_Some in Hk as [<- <-]. done.
Qed.
Lemma text_uint {B} (f : N -> B) b n : n < b -> (j ← of_wire (to_json (e_uint n)); f <$> d_uint b j) = Some (f n).
Proof.
  intros Hn. apply (text_map e_uint (d_uint b) f). apply (fwd_text e_uint (d_uint b) (fun n => n < b) 0 n); [|lia|done].
  exact (proj1 (codec_uint b)).
Qed.
Lemma text_hex {B} (f : string -> B) s : (j ← of_wire (to_json (e_hex s)); f <$> d_hex j) = Some (f s).
Proof.
  apply (text_map e_hex d_hex f). apply (fwd_text e_hex d_hex (fun _ => True) 0 s); [|lia|done].
  exact (proj1 codec_hex).
Qed.
Lemma text_u64 {B} (f : N -> B) n : n < 2 ^ 64 -> (j ← of_wire (to_json (JNum n)); f <$> d_num U64 j) = Some (f n).
Proof.
  intros Hn. apply (text_map JNum (d_num U64) f). apply (fwd_text JNum (d_num U64) (fun n => n < 2 ^ 64) 0 n); [|lia|done].
  intros m Hm. by apply u64_ok.
Qed.
Lemma add_u64_lt {E} a b n : add_u64 (E:=E) a b = Ok n -> n < 2 ^ 64.
Proof. intros H. apply checked_ok in H as [H ->]. exact H. Qed.

(** ** The multisig contract *)
Definition ms_good (ns : string) (v : msval) : Prop :=
  match v with
  | MvConfig _ _ p => ns = "config" /\ p < 2 ^ 64
  | MvCounter n => ns = "signing_session_counter" /\ n < 2 ^ 64
  | MvSession s => ns = "signing_sessions" /\ proper_session s
  | MvSig _ => ns = "signatures"
  | MvSet w => ns = "worker_sets" /\ proper_set w
  | MvKey _ => ns = "registered_pub_keys"
  | MvCaller => ns = "authorized_callers"
  end.
Lemma ms_codec ns v : ms_good ns v -> (j ← of_wire (to_json (e_msval v)); d_msval ns j) = Some v.
Proof.
  destruct v as [g r p|n|s|s|w|k|]; cbn [ms_good e_msval].
  - intros (-> & Hp). destruct (u64_ok p Hp) as [R D]. pose proof (str_ok g). pose proof (str_ok r).
    rewrite of_wire_to_json by (obj; rd). cbn [mbind option_bind].
    change (d_msval "config") with (struct ["governance"; "rewards_contract"; "grace_period"] (fun l =>
      fld l "governance" d_str (fun g => fld l "rewards_contract" d_str (fun r => fld l "grace_period" (d_num U64) (fun p =>
        Some (MvConfig g r p)))))). to_fields. done.
  - intros (-> & H). by apply (text_uint MvCounter U64).
  - intros (-> & H). apply (text_map e_session d_session MvSession). apply (fwd_text _ _ _ 3 s fwd_session); [lia|done].
  - intros ->. apply (text_map e_signature d_signature MvSig). by apply (fwd_text _ _ _ 1 s fwd_signature); [lia|].
  - intros (-> & H). apply (text_map e_worker_set d_worker_set MvSet).
    exact (fwd_text _ _ _ 4 w (proj1 codec_worker_set) ltac:(lia) H).
  - intros ->. apply (text_hex MvKey).
  - intros ->. apply text_null.
Qed.
Section Multisig.
  Context (wsid : worker_set -> string) (crypto : key_type -> string -> string -> string -> option bool).
  Lemma wp_s_set id : wp ms_good (s_set id) (fun _ => True).
  Proof using. by intros [[]|] Ho. Qed.
  Lemma wp_s_session id : wp ms_good (s_session id) (fun o => forall s, o = Some s -> proper_session s).
  Proof using.
    intros [v|] Ho; cbn [wp]; [|done]. specialize (Ho v eq_refl). destruct v; cbn [wp]; try done.
    destruct Ho as [_ Ho]. by intros e' [= <-].
  Qed.
  Lemma wp_s_sigs id : wp ms_good (s_sigs id) (fun _ => True).
  Proof using.
    intros l Hl. eapply wp_bind; [apply (wp_collect _ _ _ (fun _ => True))|done]. intros [x v] _. by destruct v.
  Qed.
  Lemma wp_multisig op : multisig_text_ok op -> wp ms_good (multisig_prog wsid crypto op) (fun _ => True).
  Proof using.
    intros [Hc Ht]. destruct op as [a id msg chain|h a id b|a ws|a t b|a auth c]; unfold multisig_prog.
    - unfold s_start. eapply wp_bind; [instantiate (1 := fun _ => True); by intros [[]|] Ho|]. intros _ _. any. intros m _.
      eapply wp_bind; [apply wp_s_set|]. intros o _. any. intros ws _.
      eapply wp_bind; [instantiate (1 := fun _ => True); by intros [[]|] Ho|]. intros n _.
      eapply wp_bind; [apply (wp_own _ _ (fun n => n < 2 ^ 64)); intros x; apply add_u64_lt|]. intros n' Hn.
      cbn [wp name_of MS_COUNTER ms_session_key ms_good]. split; [done|]. split; [|done]. split; [done|]. by split.
    - unfold s_submit. eapply wp_bind; [instantiate (1 := fun _ => True); by intros [[]|] Ho|]. intros cfg _.
      eapply wp_bind; [apply wp_s_session|]. intros o Ho.
      eapply wp_bind; [apply (wp_own _ _ proper_session); intros s Hs; apply of_option_ok in Hs; by apply Ho|]. intros ss Hss.
      eapply wp_bind; [apply wp_s_set|]. intros ow _. any. intros ws _. any. intros sg _. cbv zeta. any. intros sig _. any. intros _ _.
      eapply wp_bind; [instantiate (1 := fun _ => True); by intros [[]|] ?|]. intros old _. any. intros _ _.
      eapply wp_bind; [instantiate (1 := fun _ => True); by split|]. intros _ _. eapply wp_bind; [apply wp_s_sigs|]. intros sigs _.
      any. intros weight _. cbv zeta. cbn [wp name_of ms_session_key ms_good]. split; [|done]. split; [done|].
      destruct Hss as [H1 H2]. split; [done|]. cbn [ss_state]. destruct (_ && _); [exact Ht|done].
    - split; [|done]. by split.
    - eapply wp_bind; [by apply (wp_own _ _ (fun _ => True))|]. intros pk _. by split.
    - unfold s_caller. eapply wp_bind; [instantiate (1 := fun _ => True); by intros [[]|] Ho|]. intros cfg _. any. intros _ _.
      destruct auth; [by split|done].
  Qed.
  Lemma wp_s_multisig id : wp ms_good (s_multisig id) (fun _ => True).
  Proof using.
    eapply wp_bind; [apply wp_s_session|]. intros o _. any. intros ss _. eapply wp_bind; [apply wp_s_set|]. intros ow _. any. intros ws _.
    eapply wp_bind; [apply wp_s_sigs|]. done.
  Qed.
  Lemma c104_multisig g r p ops :
    p < 2 ^ 64 -> Forall multisig_text_ok ops ->
    let mt := run (multisig_text_step wsid crypto) (multisig_text_init g r p) ops in
    let s := run (multisig_step wsid crypto) (multisig_init g r p) ops in
    log (multisig_text_step wsid crypto) (multisig_text_init g r p) ops = log (multisig_step wsid crypto) (multisig_init g r p) ops /\
    texts_of multisig_layout e_msval d_msval multisig_stored mt s /\
    (forall op, multisig_text_ok op ->
       agree (texts_of multisig_layout e_msval d_msval multisig_stored) (multisig_text_step wsid crypto mt op)
         (map_err (fun e => TOwn (SOwn e)) (multisig_step wsid crypto s op))) /\
    (forall id, id < 2 ^ 64 ->
       raw (in_texts e_msval d_msval (s_multisig id)) mt =
         let? a := map_err (fun e => TOwn (SOwn e)) (get_multisig s id) in Ok (mt, a)).
  Proof using.
    intros Hp Hops mt s.
    assert (Hc : Forall multisig_call_ok ops) by (eapply Forall_impl; [exact Hops|]; by intros op []).
    destruct (c98_multisig wsid crypto g r p ops Hc) as (H1 & H2 & H3 & H4).
    destruct (texts_history ms_good multisig_layout e_msval d_msval ltac:(by vm_compute) ms_codec (multisig_prog wsid crypto)
                (multisig_step wsid crypto) multisig_text_ok
                multisig_stored (fun op _ => keeps_multisig_prog wsid crypto op) wp_multisig
                (multisig_text_init g r p) (multisig_bytes_init g r p) (multisig_init g r p) ops) as (G1 & G2 & G3 & G4); [|done|done|done| |].
    - apply tsim_two; [by vm_compute|cbn; set_solver|by split|cbn; set_solver|by split].
    - intros op [Hop _]. by apply H3.
    - split; [done|]. split; [done|]. split; [done|]. intros id Hid.
      exact (texts_query ms_good multisig_layout e_msval d_msval ltac:(by vm_compute) ms_codec (s_multisig id) (fun _ => True) mt _ _
               (keeps_s_multisig id) (wp_s_multisig id) G4 (H4 id Hid)).
  Qed.
End Multisig.

(** ** The rewards contract *)
Definition rw_good (ns : string) (v : rwval) : Prop :=
  match v with
  | WvConfig _ _ => ns = "config"
  | WvParams p u => ns = "params" /\ proper_params p /\ proper_epoch u
  | WvTally t => ns = "tallies" /\ proper_tally t
  | WvEvent id _ n => ns = "events" /\ id <> "" /\ n < 2 ^ 64
  | WvPool _ n => ns = "pools" /\ n < 2 ^ 128
  | WvMark n => ns = "rewards_watermarks" /\ n < 2 ^ 64
  end.
Lemma rw_codec ns v : rw_good ns v -> (j ← of_wire (to_json (e_rwval v)); d_rwval ns j) = Some v.
Proof.
  destruct v as [g d|p u|t|id c n|c n|n]; cbn [rw_good e_rwval].
  - intros ->. rewrite of_wire_to_json by (obj; apply readable_str). cbn [mbind option_bind]. reflexivity.
  - intros (-> & Hp & Hu). destruct (proj1 codec_params p Hp) as [R1 D1], (fwd_epoch u Hu) as [R2 D2].
    rewrite of_wire_to_json by (obj; rd). cbn [mbind option_bind].
    change (d_rwval "params") with (struct ["params"; "last_updated"] (fun l => fld l "params" d_params (fun p =>
      fld l "last_updated" d_epoch (fun u => Some (WvParams p u))))). to_fields. done.
  - intros (-> & H). apply (text_map e_tally d_tally WvTally). apply (fwd_text _ _ _ 3 t fwd_tally); [lia|done].
  - intros (-> & Hi & Hn). destruct (proj1 codec_nonempty id Hi) as [_ D1], (u64_ok n Hn) as [R2 D2]. pose proof (str_ok c).
    rewrite of_wire_to_json by (obj; rd). cbn [mbind option_bind].
    change (d_rwval "events") with (struct ["event_id"; "contract"; "epoch_num"] (fun l => fld l "event_id" d_nonempty (fun i =>
      fld l "contract" d_str (fun c => fld l "epoch_num" (d_num U64) (fun n => Some (WvEvent i c n)))))). to_fields. done.
  - intros (-> & Hn). pose proof (uint_ok U128 n Hn). pose proof (str_ok c).
    rewrite of_wire_to_json by (obj; rd). cbn [mbind option_bind].
    change (d_rwval "pools") with (struct ["contract"; "balance"] (fun l => fld l "contract" d_str (fun c =>
      fld l "balance" (d_uint U128) (fun n => Some (WvPool c n))))). to_fields. done.
  - intros (-> & H). by apply (text_u64 WvMark).
Qed.
Lemma wp_w_params : wp rw_good w_params (fun pu => proper_params pu.1 /\ proper_epoch pu.2).
Proof. intros [v|] Ho; [|done]. specialize (Ho v eq_refl). destruct v; cbn [wp]; try done. by destruct Ho. Qed.
Lemma epoch_at_proper p u h e : epoch_at p u h = Ok e -> proper_epoch e.
Proof.
  unfold epoch_at. destruct (h <? e_start u); [done|]. destruct (rp_duration p =? 0); [done|]. intros H.
  apply rbind_ok in H as (n & Hn & H). apply rbind_ok in H as (l & Hl & H). apply rbind_ok in H as (s & Hs & H). injection H as <-.
  split; cbn [e_num e_start]; by eapply add_u64_lt.
Qed.
Lemma wp_w_epoch h : wp rw_good (w_epoch h) proper_epoch.
Proof. eapply wp_bind; [apply wp_w_params|]. intros pu _. apply wp_own. intros e. apply epoch_at_proper. Qed.
Lemma wp_w_pool c : wp rw_good (w_pool c) (fun x => x.2 < 2 ^ 128).
Proof. intros [v|] Ho; cbn [wp]; [|done]. specialize (Ho v eq_refl). destruct v; cbn [wp]; try done. by destruct Ho. Qed.
Lemma wp_w_cumulate c l acc : wp rw_good (w_cumulate c l acc) (fun _ => True).
Proof.
  revert acc. induction l as [|n l IH]; intros acc; [done|]. cbn [w_cumulate wp]. intros o Ho.
  eapply wp_bind; [instantiate (1 := fun _ => True)|intros acc' _; apply IH]. destruct o as [[]|]; try done. by apply wp_own.
Qed.
Lemma wp_rewards op : rewards_text_ok op -> wp rw_good (rewards_prog op) (fun _ => True).
Proof.
  intros [Hc Ht]. eapply wp_bind; [instantiate (1 := fun _ => True); by intros [[]|] Ho|]. intros cfg _.
  destruct op as [h c ev w|c funds|h c limit|h sender p].
  - eapply wp_bind; [instantiate (1 := fun _ => True)|done]. unfold w_record. eapply wp_bind; [apply wp_w_epoch|]. intros cur Hcur.
    eapply wp_bind; [instantiate (1 := fun _ => True); by intros [[]|] Ho|]. intros old _.
    eapply wp_bind; [instantiate (1 := fun _ => True)|].
    { destruct old; [done|]. split; [|done]. split; [done|]. split; [exact Ht|by destruct Hcur]. }
    intros new _.
    eapply wp_bind; [instantiate (1 := fun o => forall t, o = Some t -> proper_tally t)|].
    { intros [v|] Ho; cbn [wp]; [|done]. specialize (Ho v eq_refl). destruct v; cbn [wp]; try done. destruct Ho as [_ Ho].
      by intros t' [= <-]. }
    intros o Ho. eapply wp_bind; [instantiate (1 := proper_tally)|].
    { destruct o as [t|]; [by apply Ho|]. eapply wp_bind; [apply wp_w_params|]. intros pu [Hp Hu]. cbn [wp].
      split; cbn [ty_count ty_part ty_epoch ty_params]; [lia|]. split; [|done]. intros a n Hn. by rewrite lookup_empty in Hn. }
    intros t0 Ht0. eapply wp_bind; [apply (wp_own _ _ proper_tally)|].
    { intros t1 H. unfold tally_record in H. apply rbind_ok in H as (n & Hn & H). injection H as <-. destruct Ht0 as (A & B & C & D).
      split; [done|]. split; [|done]. cbn [ty_part]. intros a k Hk. apply lookup_insert_Some in Hk as [[_ <-]|[_ Hk]]; [|by eapply B].
      destruct (ty_part t0 !! w); [by eapply add_u64_lt|]. injection Hn as <-. lia. }
    intros t1 Ht1. destruct Ht1 as (A & B & C & D). eapply wp_bind; [apply (wp_own _ _ (fun n => n < 2 ^ 64))|].
    { intros n Hn. destruct (new.1); [by eapply add_u64_lt|]. by injection Hn as <-. }
    intros n Hn. cbv zeta. cbn [wp name_of rw_tally_key rw_good].
    split; [|done]. split; [done|]. split; [exact Hn|]. split; [exact B|]. by split.
  - eapply wp_bind; [instantiate (1 := fun _ => True)|done]. unfold w_add. any. intros n _. any. intros _ _.
    eapply wp_bind; [apply wp_w_pool|]. intros pool Hpool.
    eapply wp_bind; [apply (wp_own _ _ (fun n => n < 2 ^ 128)); intros b; apply add_u128_lt|]. intros b Hb.
    cbn [wp name_of rw_pool_key rw_good]. done.
  - unfold w_distribute. cbv zeta. eapply wp_bind; [apply wp_w_epoch|]. intros cur Hcur.
    eapply wp_bind; [instantiate (1 := fun _ => True); by intros [[]|] Ho|]. intros mark _. any. intros from _. any. intros bound _.
    any. intros _ _. eapply wp_bind; [apply wp_w_cumulate|]. intros rewards _. eapply wp_bind; [apply wp_w_pool|]. intros pool Hpool.
    any. intros total _. any. intros _ _. cbn [wp name_of rw_pool_key rw_watermark_key rw_good].
    cbv beta in Hpool. split; [split; [done|lia]|]. split; [|done]. split; [done|]. destruct Hcur as [Hcur _]. lia.
  - eapply wp_bind; [instantiate (1 := fun _ => True)|done]. unfold w_update. any. intros _ _. eapply wp_bind; [apply wp_w_epoch|].
    intros cur Hcur. any. intros bound _. eapply wp_bind; [apply (wp_own _ _ proper_epoch)|].
    { intros e He. destruct (bound <? h); [|by injection He as <-]. apply rbind_ok in He as (n & Hn & He). injection He as <-.
      split; cbn [e_num e_start]; [by eapply add_u64_lt|apply Ht]. }
    intros cur' Hcur'. split; [|done]. split; [done|]. split; [apply Ht|done].
Qed.
Lemma c104_rewards g d p h ops :
  proper_params p -> h < 2 ^ 64 -> Forall rewards_text_ok ops ->
  let mt := run rewards_text_step (rewards_text_init g d p h) ops in
  let s := run rewards_step (rewards_init g d p h) ops in
  log rewards_text_step (rewards_text_init g d p h) ops = log rewards_step (rewards_init g d p h) ops /\
  texts_of rewards_layout e_rwval d_rwval rewards_stored mt s /\
  (forall op, rewards_text_ok op ->
     agree (texts_of rewards_layout e_rwval d_rwval rewards_stored) (rewards_text_step mt op)
       (map_err (fun e => TOwn (SOwn e)) (rewards_step s op))).
Proof.
  intros Hp Hh Hops mt s.
  assert (Hc : Forall rewards_call_ok ops) by (eapply Forall_impl; [exact Hops|]; by intros op []).
  destruct (c98_rewards g d p h ops Hc) as (H1 & H2 & H3).
  destruct (texts_history rw_good rewards_layout e_rwval d_rwval ltac:(by vm_compute) rw_codec rewards_prog rewards_step rewards_text_ok
              rewards_stored (fun op _ => rewards_keeps op) wp_rewards
              (rewards_text_init g d p h) (rewards_bytes_init g d p h) (rewards_init g d p h) ops) as (G1 & G2 & G3 & _); [|done|done|done| |done].
  - apply tsim_two; [by vm_compute|cbn; set_solver|done|cbn; set_solver|]. split; [done|]. split; [done|]. split; [|done]. cbn [e_num]. lia.
  - intros op [Hop _]. by apply H3.
Qed.
