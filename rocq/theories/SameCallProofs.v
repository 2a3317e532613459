(** Proofs: one id stands for one call. *)
From Verif Require Import Base BaseLemmas Text TextLemmas StdModel RouterTypes RegistryTypes OperatorsModel MultisigTypes
  RouterModel RouterProofs GatewayModel NexusModel VerifierModel EncodingModel EncodingProofs5 ProverModel ProverSpec SigningModel EventsModel HandlersModel HandlersSpec HandlersProofs3 WorkersSpec
  SystemModel SystemSpec JourneySpec JourneyProofs3 SameCallSpec.

(** ** Places *)
Lemma parse_u64_sep n i : parse_u64 n = Some i -> contains ":" n = false.
Proof.
  assert (Hu : forall s a k, undec s a = Some k -> contains ":" s = false).
  { intros s. induction s as [|c s IH]; intros a k H; [reflexivity|]. cbn [undec] in H.
    destruct (undigit c) eqn:Ed; [|done]. cbn [contains]. rewrite (IH _ _ H), orb_false_r.
    destruct (Ascii.eqb_spec c ":") as [->|Hc]; [by vm_compute in Ed|].
    first [reflexivity | by destruct (Ascii.eqb_spec ":" c) as [<-|]]. }
  unfold parse_u64, parse_uint. destruct n as [|c n]; [done|]. destruct (Ascii.eqb_spec c "+") as [->|Hc].
  - destruct (is_empty n); [done|]. destruct (undec n 0) eqn:E; [|done]. intros _. cbn [contains]. by rewrite (Hu _ _ _ E).
  - destruct (is_empty (String c n)); [done|]. destruct (undec (String c n) 0) eqn:E; [|done]. intros _. by eapply Hu.
Qed.
Lemma last_sep x n x' n' : contains ":" n = false -> contains ":" n' = false ->
  x +:+ String ":" n = x' +:+ String ":" n' -> x = x' /\ n = n'.
Proof.
  intros Hn Hn'. revert x'. induction x as [|a x IH]; intros [|a' x'] E; cbn in E.
  - by injection E as ->.
  - injection E as _ ->. rewrite contains_app in Hn. cbn in Hn. by rewrite orb_true_r in Hn.
  - injection E as _ <-. rewrite contains_app in Hn'. cbn in Hn'. by rewrite orb_true_r in Hn'.
  - injection E as -> E. by apply IH in E as [-> ->].
Qed.
Lemma evm_id_fun id t i t' i' : evm_id id t i -> evm_id id t' i' -> t = t' /\ i = i'.
Proof.
  intros (x & n & -> & Hx & Hn) (x' & n' & E & Hx' & Hn').
  apply last_sep in E as [<- <-]; [|by eapply parse_u64_sep..]. split; [by eapply hex_bytes_inj|congruence].
Qed.

Lemma canonical_evm_place id t i : canonical_evm_id id -> evm_id id t i ->
  id = ("0x" +:+ to_hex t) +:+ String ":" (dec i).
Proof.
  intros (t0 & i0 & Hl & Hi & ->) H.
  assert (E : evm_id (("0x" +:+ to_hex t0) +:+ String ":" (dec i0)) t0 i0).
  { exists ("0x" +:+ to_hex t0), (dec i0). split; [done|]. split.
    - split; [done|]. right. exists (to_hex t0). split; [done|apply of_to_hex].
    - unfold parse_u64. by rewrite parse_uint_dec. }
  by destruct (evm_id_fun _ _ _ _ _ H E) as [-> ->].
Qed.
Lemma canonical_evm_place_total id : canonical_evm_id id -> exists t i, evm_id id t i.
Proof.
  intros (t0 & i0 & Hl & Hi & ->). exists t0, i0, ("0x" +:+ to_hex t0), (dec i0). split; [done|]. split.
  - split; [done|]. right. exists (to_hex t0). split; [done|apply of_to_hex].
  - unfold parse_u64. by rewrite parse_uint_dec.
Qed.
Lemma c63_places id id' t i : canonical_evm_id id -> canonical_evm_id id' -> evm_id id t i -> evm_id id' t i -> id = id'.
Proof. intros H H' Hp Hp'. by rewrite (canonical_evm_place _ _ _ H Hp), (canonical_evm_place _ _ _ H' Hp'). Qed.

Lemma sent_same b58 w w' vc vc' m m' : agree w w' -> m_cc m = m_cc m' ->
  was_sent b58 w vc m -> was_sent b58 w' vc' m' -> same_call m m'.
Proof.
  intros Ha Hcc. unfold was_sent. destruct w as [c nodes|nodes], w' as [c' nodes'|nodes']; try done.
  - intros (rpc & Hr & q & t & i & gw & s & dc & Hid & _ & Hs & Hd & Hseen) (rpc' & Hr' & q' & t' & i' & gw' & s' & dc' & Hid' & _ & Hs' & Hd' & Hseen').
    rewrite <- Hcc in Hid'. destruct (evm_id_fun _ _ _ _ _ Hid Hid') as [<- <-].
    pose proof (Ha _ _ _ _ _ _ _ _ _ _ _ _ Hr Hr' Hseen Hseen') as [= -> -> E1 E2].
    split; [done|]. split; [by rewrite <- Hd, Hd'|]. split; [done|]. split; [done|]. by exists 20%nat, s'.
  - intros (rpc & Hr & x & n & t & i & gw & s & dc & ids & bs & b & e & Hid & Ht & Hn & _ & Hs & Hd & Hbs & Hb & Hseen & Hc)
      (rpc' & Hr' & x' & n' & t' & i' & gw' & s' & dc' & ids' & bs' & b' & e' & Hid' & Ht' & Hn' & _ & Hs' & Hd' & Hbs' & Hb' & Hseen' & Hc').
    rewrite <- Hcc, Hid in Hid'. apply last_sep in Hid' as [<- <-]; [|by eapply parse_u64_sep..].
    assert (t' = t) as -> by congruence. assert (i' = i) as -> by congruence.
    pose proof (Ha _ _ _ _ _ _ _ _ _ _ _ _ _ _ Hr Hr' Hbs Hbs' Hb Hb' Hseen Hseen') as E. rewrite Hc, Hc' in E. injection E as -> -> E1 E2.
    split; [done|]. split; [by rewrite <- Hd, Hd'|]. split; [done|]. split; [done|]. by exists 32%nat, s'.
Qed.

Section SameCall.
  Context (keccak : string -> string) (wshash : worker_set -> string)
          (sec1 : string -> option string)
          (crypto : key_type -> string -> string -> string -> option bool)
          (acc : string -> bool) (json : string -> option jval) (b58 : string -> option string).
  Context (dep : gmap addr deployed) (watches : addr -> option (watch * list addr)).

  Lemma watched_prefix w trusted v vc l l' :
    watched keccak acc json b58 w trusted v vc (l ++ l') -> watched keccak acc json b58 w trusted v vc l.
  Proof.
    intros (H1 & H2 & H3 & H4). split; [done|]. split; [done|]. split.
    - eapply Forall_impl; [exact H3|]. intros a Ha pre k post id ballot -> Ht Hs Hb.
      eapply (Ha pre k (post ++ l')); [|done..]. by rewrite <- app_assoc.
    - intros k ev workers Hk. apply H4. set_solver.
  Qed.
  Lemma well_watched_prefix l l' : well_watched keccak acc json b58 watches dep (l ++ l') ->
    well_watched keccak acc json b58 watches dep l.
  Proof. intros H v vc w trusted Hd Hw. eapply watched_prefix. by eapply H. Qed.
  Lemma came_longer r rc d l l' m : came b58 watches dep r rc d l m -> came b58 watches dep r rc d (l ++ l') m.
  Proof.
    intros (pre & k & post & rs & -> & H). exists pre, k, (post ++ l'), rs. split; [by rewrite <- app_assoc|exact H].
  Qed.
  Lemma came_sent r rc d l m : covered watches dep r rc l (cc_chain (m_cc m)) -> came b58 watches dep r rc d l m ->
    exists v vc w trusted, dep !! v = Some (DVerifier vc) /\ watches v = Some (w, trusted) /\ vc_chain vc = cc_chain (m_cc m) /\
      was_sent b58 w vc m.
  Proof.
    intros ([nc Hnc] & Hno & Hgw & _) (pre & k & post & rs & -> & (Hto & Hk & _) & Hfrom & Hver & Hnx).
    destruct Hfrom as [Hs|(e & He & Hs & _)].
    - rewrite Hs in Hnx. destruct (Hnx nc Hnc) as (p & ns & n & Hp & _ & _ & Hb & Hn & ->).
      exfalso. eapply (Hno p ns n); [set_solver|done..].
    - assert (Hin : k ∈ pre ++ k :: post) by set_solver.
      destruct (Hgw k rs e Hin Hk He) as (gc & vc & w & trusted & Hg & Hv & Hw). rewrite Hs in Hg.
      destruct (Hver gc vc w trusted Hg Hv Hw) as [Hc Hsent]. exists (gc_verifier gc), vc, w, trusted. eauto.
  Qed.
  Lemma came_same r rc d d' l m m' : covered watches dep r rc l (cc_chain (m_cc m)) -> m_cc m = m_cc m' ->
    came b58 watches dep r rc d l m -> came b58 watches dep r rc d' l m' -> same_call m m'.
  Proof.
    intros Hc E H H'. destruct (came_sent _ _ _ _ _ Hc H) as (v & vc & w & tr & Hv & Hw & Hch & Hs).
    pose proof Hc as Hc'. rewrite E in Hc'. destruct (came_sent _ _ _ _ _ Hc' H') as (v' & vc' & w' & tr' & Hv' & Hw' & Hch' & Hs').
    destruct Hc as (_ & _ & _ & Hag). eapply sent_same; [|exact E|exact Hs|exact Hs'].
    eapply Hag; [exact Hv|exact Hv'|done..|congruence].
  Qed.

  Lemma history_app txs later : exists l, history keccak wshash sec1 crypto dep (txs ++ later) = history keccak wshash sec1 crypto dep txs ++ l.
  Proof. unfold history, syslog. rewrite log_app, bind_app. eauto. Qed.

  Context (txs later : list tx).
  Notation whole := (history keccak wshash sec1 crypto dep (txs ++ later)).
  Context (Hall : well_watched keccak acc json b58 watches dep whole).

  Lemma c109_served d d' gs gs' m m' rc :
    sysrun keccak wshash sec1 crypto dep txs !! d = Some (CGateway gs) -> GatewayModel.get_messages gs [m_cc m] = Ok [m] ->
    sysrun keccak wshash sec1 crypto dep (txs ++ later) !! d' = Some (CGateway gs') -> GatewayModel.get_messages gs' [m_cc m'] = Ok [m'] ->
    gc_router (gw_config gs) = gc_router (gw_config gs') -> dep !! gc_router (gw_config gs) = Some (DRouter rc) ->
    covered watches dep (gc_router (gw_config gs)) rc whole (cc_chain (m_cc m)) -> m_cc m = m_cc m' -> same_call m m'.
  Proof.
    intros Hd Hm Hd' Hm' Er Hr Hc E. destruct (history_app txs later) as [l Hl].
    assert (Hpre : well_watched keccak acc json b58 watches dep (history keccak wshash sec1 crypto dep txs)).
    { eapply well_watched_prefix. rewrite <- Hl. exact Hall. }
    destruct (c86_served _ _ _ _ _ _ _ _ _ _ Hpre _ _ _ _ _ Hd Hm Hr) as [_ H].
    rewrite Er in Hr. destruct (c86_served _ _ _ _ _ _ _ _ _ _ Hall _ _ _ _ _ Hd' Hm' Hr) as [_ H'].
    eapply came_same; [exact Hc|exact E| |rewrite Er; exact H']. rewrite Hl. by apply came_longer.
  Qed.

  Lemma c63_events d d' gs gs' m m' rc :
    sysrun keccak wshash sec1 crypto dep txs !! d = Some (CGateway gs) -> GatewayModel.get_messages gs [m_cc m] = Ok [m] ->
    sysrun keccak wshash sec1 crypto dep (txs ++ later) !! d' = Some (CGateway gs') -> GatewayModel.get_messages gs' [m_cc m'] = Ok [m'] ->
    gc_router (gw_config gs) = gc_router (gw_config gs') -> dep !! gc_router (gw_config gs) = Some (DRouter rc) ->
    covered watches dep (gc_router (gw_config gs)) rc whole (cc_chain (m_cc m)) -> cc_chain (m_cc m) = cc_chain (m_cc m') ->
    canonical_evm_id (cc_id (m_cc m)) -> canonical_evm_id (cc_id (m_cc m')) -> m_cc m <> m_cc m' ->
    seen_somewhere b58 watches dep m /\ seen_somewhere b58 watches dep m' /\
    exists t i t' i', evm_id (cc_id (m_cc m)) t i /\ evm_id (cc_id (m_cc m')) t' i' /\ (t, i) <> (t', i').
  Proof.
    intros Hd Hm Hd' Hm' Er Hr Hc E Hca Hca' Hne. destruct (history_app txs later) as [l Hl].
    assert (Hpre : well_watched keccak acc json b58 watches dep (history keccak wshash sec1 crypto dep txs)).
    { eapply well_watched_prefix. rewrite <- Hl. exact Hall. }
    destruct (c86_served _ _ _ _ _ _ _ _ _ _ Hpre _ _ _ _ _ Hd Hm Hr) as [_ H].
    rewrite Er in Hr. destruct (c86_served _ _ _ _ _ _ _ _ _ _ Hall _ _ _ _ _ Hd' Hm' Hr) as [_ H'].
    split; [|split].
    - eapply came_sent; [exact Hc|]. rewrite Hl. apply came_longer. exact H.
    - eapply came_sent; [|exact H']. rewrite <- E, <- Er. exact Hc.
    - destruct (canonical_evm_place_total _ Hca) as (t & i & Hp). destruct (canonical_evm_place_total _ Hca') as (t' & i' & Hp').
      exists t, i, t', i'. split; [done|]. split; [done|]. intros [= <- <-]. apply Hne.
      pose proof (c63_places _ _ _ _ Hca Hca' Hp Hp') as Ei. destruct (m_cc m), (m_cc m'); cbn in *; congruence.
  Qed.

  Lemma c109_commands recover p c g r n gc rc s s' id id' resp resp' x x' :
    dep !! p = Some (DProver c) -> dep !! pc_multisig c = Some (DMultisig g r n) ->
    dep !! pc_gateway c = Some (DGateway gc) -> dep !! gc_router gc = Some (DRouter rc) ->
    pair_state (sysrun keccak wshash sec1 crypto dep txs) p c s -> system_proof keccak sec1 recover c s id = Ok resp ->
    pair_state (sysrun keccak wshash sec1 crypto dep (txs ++ later)) p c s' -> system_proof keccak sec1 recover c s' id' = Ok resp' ->
    x ∈ d_commands (pr_data resp) -> x' ∈ d_commands (pr_data resp') ->
    c_ty x = ApproveContractCall -> c_ty x' = ApproveContractCall -> c_id x = c_id x' ->
    asked_apart keccak p whole ->
    (forall k ids i, k ∈ whole -> sb_body (k_sub k) = BProver (ConstructProof ids) -> i ∈ ids -> wf_chain (cc_chain i)) ->
    (forall i, i ∈ pr_ids resp -> covered watches dep (gc_router gc) rc whole (cc_chain i)) ->
    exists m m', make_command keccak (pc_encoder c) m = Ok x /\ make_command keccak (pc_encoder c) m' = Ok x' /\
      m_dchain m = m_dchain m' /\ same_call m m' /\ (m_src m = m_src m' -> x = x').
  Proof.
    intros Hp Hmu Hg Hr Hs Hpf Hs' Hpf' Hx Hx' Ht Ht' Ec Hap Hwf Hcov. destruct (history_app txs later) as [l Hl].
    assert (Hpre : well_watched keccak acc json b58 watches dep (history keccak wshash sec1 crypto dep txs)).
    { eapply well_watched_prefix. rewrite <- Hl. exact Hall. }
    assert (Hpick : forall (ts cs : list command) msgs k, (ts = [] \/ exists t ws, ts = [t] /\ make_transfer keccak wshash sec1 (pc_encoder c) ws = Ok t /\
         is_active_set c (prover_env keccak (k_env k) (k_index k) (k_chain k)) ws) ->
         Forall2 (fun m x => make_command keccak (pc_encoder c) m = Ok x) msgs cs ->
         forall x, x ∈ ts ++ cs -> c_ty x = ApproveContractCall -> exists m, m ∈ msgs /\ make_command keccak (pc_encoder c) m = Ok x).
    { intros ts cs msgs k Hts HF y Hy Hty. apply elem_of_app in Hy as [Hy|Hy].
      - destruct Hts as [->|(t & ws & -> & Htr & _)]; [by apply elem_of_nil in Hy|]. apply elem_of_list_singleton in Hy as ->.
        unfold make_transfer in Htr. apply rbind_ok in Htr as (ps & _ & [= <-]). done.
      - apply elem_of_list_lookup in Hy as [i Hi]. destruct (Forall2_lookup_r _ _ _ _ _ HF Hi) as (m & Hm & Hmk).
        exists m. split; [by eapply elem_of_list_lookup_2|done]. }
    destruct (c86_proof _ _ _ _ _ _ _ _ _ _ Hpre _ _ _ _ _ _ Hp Hmu _ _ _ _ _ Hg Hr Hs Hpf)
      as (pre & k & post & msgs & ts & cs & Hh & Hk & Hb & Hids & _ & Hcs & Hts & HF & Hcame).
    destruct (c86_proof _ _ _ _ _ _ _ _ _ _ Hall _ _ _ _ _ _ Hp Hmu _ _ _ _ _ Hg Hr Hs' Hpf')
      as (pre' & k' & post' & msgs' & ts' & cs' & Hh' & Hk' & Hb' & Hids' & _ & Hcs' & Hts' & HF' & Hcame').
    rewrite Hcs in Hx. rewrite Hcs' in Hx'.
    destruct (Hpick _ _ _ _ Hts HF _ Hx Ht) as (m & Hm & Hmk). destruct (Hpick _ _ _ _ Hts' HF' _ Hx' Ht') as (m' & Hm' & Hmk').
    rewrite Forall_forall in Hcame, Hcame'. destruct (Hcame m Hm) as [Hd Hc]. destruct (Hcame' m' Hm') as [Hd' Hc'].
    assert (Hin : k ∈ whole) by (rewrite Hl, Hh; set_solver). assert (Hin' : k' ∈ whole) by (rewrite Hh'; set_solver).
    destruct Hb as [Hb|[_ ->]]; [|by apply elem_of_nil in Hm]. destruct Hb' as [Hb'|[_ ->]]; [|by apply elem_of_nil in Hm'].
    assert (Hi : m_cc m ∈ m_cc <$> msgs) by (by apply elem_of_list_fmap_1). assert (Hi' : m_cc m' ∈ m_cc <$> msgs') by (by apply elem_of_list_fmap_1).
    assert (E : m_cc m = m_cc m').
    { assert (Hid : forall m x, make_command keccak (pc_encoder c) m = Ok x -> c_id x = keccak (ccid_to_string (m_cc m))).
      { intros m0 x0 H0. unfold make_command in H0. apply rbind_ok in H0 as (ps & _ & [= <-]). done. }
      rewrite (Hid _ _ Hmk), (Hid _ _ Hmk') in Ec.
      pose proof (Hap _ _ _ _ _ _ Hin Hin' Hk Hk' Hb Hb' Hi Hi' Ec) as Et.
      apply ccid_string_inj in Et; [done|..].
      - pose proof (Hwf _ _ _ Hin Hb Hi) as Hw. apply wf_chain_iff in Hw as (_ & Hw & _). exact Hw.
      - pose proof (Hwf _ _ _ Hin' Hb' Hi') as Hw. apply wf_chain_iff in Hw as (_ & Hw & _). exact Hw. }
    exists m, m'. split; [done|]. split; [done|]. split; [congruence|]. split.
    - eapply came_same; [apply Hcov; rewrite Hids; exact Hi|exact E| |].
      + rewrite Hl, Hh. rewrite <- app_assoc. apply came_longer. exact Hc.
      + rewrite Hh'. apply came_longer. exact Hc'.
    - intros Esrc. assert (Hsc : same_call m m').
      { eapply came_same; [apply Hcov; rewrite Hids; exact Hi|exact E| |].
        + rewrite Hl, Hh. rewrite <- app_assoc. apply came_longer. exact Hc.
        + rewrite Hh'. apply came_longer. exact Hc'. }
      destruct Hsc as (_ & _ & Ea & Eh & _). unfold make_command in Hmk, Hmk'. rewrite <- E, <- Esrc, <- Ea, <- Eh, Hmk in Hmk'. congruence.
  Qed.
End SameCall.
