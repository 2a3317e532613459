(** Proofs, execute data, digests. *)
From stdpp Require Import sorting.
From Verif Require Import Base BaseLemmas MapLemmas Text TextLemmas StdModel StdProofs RouterTypes MultisigTypes OperatorsModel
  EncodingModel EncodingSpec EncodingProofs EncodingProofs2 EncodingProofs3 RegistryProofs.

Lemma ok_inj {E A} (a b : A) : Ok (E:=E) a = Ok b -> a = b.
Proof. by intros [= ->]. Qed.

(** ** The derived order on operators is a total order *)
Definition tri {A} (c : A -> A -> comparison) : Prop :=
  (forall a b, c a b = Eq <-> a = b) /\ (forall a b, c b a = CompOpp (c a b)) /\
  (forall x y z, c x y = Lt -> c y z = Lt -> c x z = Lt).
Lemma tri_N : tri N.compare.
Proof.
  split_and!; [apply N.compare_eq_iff|intros a b; apply N.compare_antisym|].
  intros x y z. rewrite !N.compare_lt_iff. lia.
Qed.
Lemma tri_string : tri String.compare.
Proof.
  split_and!; [|intros a b; apply String.compare_antisym|].
  { intros a b. split; [apply String.compare_eq_iff|]. intros ->.
    pose proof (String.compare_antisym b b) as H. by destruct (String.compare b b). }
  intros x y z H1 H2. assert (H : String.leb x z = true).
  { apply (leb_trans x y z); unfold String.leb; by rewrite ?H1, ?H2. }
  unfold String.leb in H. destruct (String.compare x z) eqn:E; [|done|done].
  apply String.compare_eq_iff in E as ->. rewrite String.compare_antisym, H1 in H2. done.
Qed.
Lemma tri_inj {A B} (f : A -> B) (c : B -> B -> comparison) : (forall a b, f a = f b -> a = b) ->
  tri c -> tri (fun a b => c (f a) (f b)).
Proof.
  intros Hf (H1 & H2 & H3). split_and!; [|naive_solver|naive_solver].
  intros a b. rewrite H1. split; [apply Hf|by intros ->].
Qed.
Lemma tri_lex {A B} (c : A -> A -> comparison) (d : B -> B -> comparison) : tri c -> tri d ->
  tri (fun a b : A * B => lex (c a.1 b.1) (d a.2 b.2)).
Proof.
  intros (C1 & C2 & C3) (D1 & D2 & D3). split_and!.
  - intros [a1 a2] [b1 b2]. cbn. destruct (c a1 b1) eqn:E; cbn.
    + apply C1 in E as ->. rewrite D1. split; congruence.
    + split; [done|]. intros [= -> ->]. assert (c b1 b1 = Eq) by (by apply C1). congruence.
    + split; [done|]. intros [= -> ->]. assert (c b1 b1 = Eq) by (by apply C1). congruence.
  - intros [a1 a2] [b1 b2]. cbn. rewrite (C2 a1 b1), (D2 a2 b2). by destruct (c a1 b1).
  - intros [x1 x2] [y1 y2] [z1 z2]. cbn.
    destruct (c x1 y1) eqn:E1; cbn; [|intros _|done].
    + apply C1 in E1 as ->. destruct (c y1 z1) eqn:E2; cbn; [apply D3|done|done].
    + destruct (c y1 z1) eqn:E2; cbn; [|intros _|done].
      * apply C1 in E2 as ->. by rewrite E1.
      * by rewrite (C3 _ _ _ E1 E2).
Qed.
Lemma tri_opt : tri sig_cmp -> tri opt_sig_cmp.
Proof.
  intros (C1 & C2 & C3). split_and!.
  - intros [a|] [b|]; cbn; [|done..]. rewrite C1. split; congruence.
  - intros [a|] [b|]; cbn; [apply C2|done..].
  - intros [a|] [b|] [c|]; cbn; try done. apply C3.
Qed.
Lemma tri_sig : tri sig_cmp.
Proof.
  apply (tri_inj (fun s => (sig_rank s, sig_bytes s))
    (fun a b => lex (N.compare a.1 b.1) (String.compare a.2 b.2))).
  - intros [a|a|a] [b|b|b]; cbn; congruence.
  - apply (tri_lex _ _ tri_N tri_string).
Qed.
Lemma tri_operator : tri operator_cmp.
Proof.
  apply (tri_inj (fun o => (op_addr o, (op_weight o, op_sig o)))
    (fun a b => lex (String.compare a.1 b.1) (lex (N.compare a.2.1 b.2.1) (opt_sig_cmp a.2.2 b.2.2)))).
  - intros [a b c] [a' b' c']; cbn; congruence.
  - apply (tri_lex _ _ tri_string (tri_lex _ _ tri_N (tri_opt tri_sig))).
Qed.
Lemma operator_leb_total a b : operator_leb a b = true \/ operator_leb b a = true.
Proof.
  destruct tri_operator as (_ & H & _). unfold operator_leb. rewrite (H a b).
  destruct (operator_cmp a b); cbn; auto.
Qed.
Lemma operator_leb_antisym a b : operator_leb a b = true -> operator_leb b a = true -> a = b.
Proof.
  destruct tri_operator as (H1 & H & _). unfold operator_leb. rewrite (H a b).
  destruct (operator_cmp a b) eqn:E; cbn; try done. by rewrite H1 in E.
Qed.
Lemma operator_leb_trans a b c : operator_leb a b = true -> operator_leb b c = true -> operator_leb a c = true.
Proof.
  destruct tri_operator as (H1 & H2 & H3). unfold operator_leb.
  destruct (operator_cmp a b) eqn:E1; [|intros _|done].
  - apply H1 in E1 as ->. done.
  - destruct (operator_cmp b c) eqn:E2; [|intros _|done].
    + apply H1 in E2 as ->. by rewrite E1.
    + by rewrite (H3 _ _ _ E1 E2).
Qed.
Lemma operator_leb_addr a b : operator_leb a b = true -> String.leb (op_addr a) (op_addr b) = true.
Proof.
  unfold operator_leb, operator_cmp, String.leb. by destruct (String.compare (op_addr a) (op_addr b)).
Qed.
Lemma isort_operators_eq l l' : l ≡ₚ l' -> isort operator_leb l = isort operator_leb l'.
Proof.
  intros Hp.
  assert (AntiSymm (=) (fun a b => operator_leb a b = true)) by (intros x y; apply operator_leb_antisym).
  apply (StronglySorted_unique (fun a b => operator_leb a b = true)).
  - apply Sorted_StronglySorted; [intros x y z; apply operator_leb_trans|].
    apply isort_sorted, operator_leb_total.
  - apply Sorted_StronglySorted; [intros x y z; apply operator_leb_trans|].
    apply isort_sorted, operator_leb_total.
  - by rewrite !isort_perm.
Qed.

Lemma try_map_perm {E A B} (f : A -> res E B) l l' r : l ≡ₚ l' -> try_map f l = Ok r ->
  exists r', try_map f l' = Ok r' /\ r ≡ₚ r'.
Proof.
  intros Hp Hr%try_map_ok. 
  assert (H : exists r', Forall2 (fun a b => f a = Ok b) l' r' /\ r ≡ₚ r').
  { revert r Hr. induction Hp as [|x l l' Hp IH|x y l|l l' l'' Hp1 IH1 Hp2 IH2]; intros r Hr.
    - inversion Hr; subst. eauto.
    - inversion Hr as [|? ? ? ? Hx Hl]; subst. destruct (IH _ Hl) as (r' & H1 & H2).
      eexists. split; [by constructor|]. by constructor.
    - inversion Hr as [|? ? ? ? Hx Hl]; subst. inversion Hl as [|? ? ? ? Hy Hl']; subst.
      eexists. split; [constructor; [done|]; constructor; done|]. constructor.
    - destruct (IH1 _ Hr) as (r' & H1 & H2). destruct (IH2 _ H1) as (r'' & H3 & H4).
      exists r''. split; [done|]. by etrans. }
  destruct H as (r' & H & Hpr). exists r'. split; [|done].
  clear Hr Hp Hpr. induction H as [|a b l0 r0 Hab H IH]; [done|]. cbn [try_map]. rewrite Hab. cbn [rbind].
  by rewrite IH.
Qed.

Section Ops.
  Context (keccak : string -> string) (wshash : worker_set -> string) (sec1 : string -> option string)
    (recover : string -> string -> string -> option N).

  Lemma signer_operator_ok e x o : signer_operator keccak sec1 e x = Ok o <-> dest_operator keccak sec1 e x = Some o.
  Proof.
    unfold signer_operator, dest_operator. destruct e; cbn.
    - unfold evm_address. destruct (sec1 _); cbn; split; congruence.
    - split; congruence.
  Qed.
  Lemma proof_operators_ok e signers ops : proof_operators keccak sec1 e signers = Ok ops ->
    Some <$> ops ≡ₚ dest_operator keccak sec1 e <$> signers /\ ascending (op_addr <$> ops).
  Proof.
    unfold proof_operators. intros H. res_inv. subst ops. split.
    - rewrite isort_perm. apply try_map_ok in Hv.
      induction Hv as [|x o l ops Hx H IH]; [done|]. rewrite !fmap_cons, IH.
      apply signer_operator_ok in Hx. by rewrite Hx.
    - apply ascending_of_sorted.
      pose proof (isort_sorted operator_leb v operator_leb_total) as Hs.
      induction Hs as [|a l Hs IH Hh]; [constructor|]. rewrite fmap_cons. constructor; [done|].
      destruct Hh; constructor. by apply operator_leb_addr.
  Qed.
  Lemma operators_weight e ops (l : list (signer * option signature)) :
    Some <$> ops ≡ₚ dest_operator keccak sec1 e <$> l -> Forall (fun x => sg_weight x.1 < U256) l ->
    Forall (fun w => w < U256) (op_weight <$> ops).
  Proof.
    intros Hp Hw. rewrite Forall_fmap. apply Forall_forall. intros o Hin. cbn.
    assert (H : Some o ∈ dest_operator keccak sec1 e <$> l).
    { rewrite <- Hp. by apply elem_of_list_fmap_1. }
    apply elem_of_list_fmap in H as (sg & Heq & Hsg). unfold dest_operator in Heq.
    destruct (dest_addr _ _ _ _); [|done]. injection Heq as ->. cbn.
    rewrite Forall_forall in Hw. by apply Hw.
  Qed.

  Lemma proof_view e q signers s : signers_ok q signers -> encode_proof keccak sec1 e q signers = Ok s -> fits e s ->
    exists ops, decode_proof e s =
        Some (op_addr <$> ops, op_weight <$> ops, q, omap (fun o => sig_bytes <$> op_sig o) ops) /\
      Some <$> ops ≡ₚ dest_operator keccak sec1 e <$> signers /\ ascending (op_addr <$> ops).
  Proof.
    intros [Hq Hw] H Hf. unfold encode_proof in H. res_inv. rename v into ops.
    apply proof_operators_ok in Hv as [Hp Hs]. exists ops. split; [|done].
    destruct e; res_inv; cbn [decode_proof fits] in *.
    - match goal with H : try_map _ _ = Ok _ |- _ => apply address_tokens in H as [-> H20] end.
      subst s. apply small_u256 in Hf.
      match goal with |- abi_decode_proof (abi_encode ?x) = _ => pose proof (abi_layout x) as L end.
      set (w := abi_encode _) in *. lay L. destruct L as (H0 & H1 & H2 & H3 & _).
      unfold abi_decode_proof, a_pair.
      rewrite (repr_array_address _ H20 _ _ _ Hf H0).
      rewrite list_fmap_compose in H1.
      rewrite (repr_array_uint _ (operators_weight _ _ _ Hp Hw) _ _ _ Hf H1).
      rewrite (repr_uint _ Hq _ _ _ Hf H2).
      by rewrite (repr_array_bytes _ _ _ _ Hf H3).
    - match goal with H : try_map _ _ = Ok _ |- _ => apply weights_ok in H as [-> H128] end.
      match goal with H : u256_to_u128 _ = Ok _ |- _ => apply u256_to_u128_ok in H as [-> Hq'] end.
      match goal with H : bcs_tuple _ = _ |- _ => rename H into Hb' end. tup.
      unfold bcs_decode_proof. apply reads_run. apply reads_pair; [apply reads_pair; [apply reads_pair|]|].
      + by apply reads_bytes_seq.
      + apply reads_le_seq; [exact H128|done].
      + apply reads_le. exact Hq'.
      + by apply reads_bytes_seq.
  Qed.

  Lemma proof_perm e q l l' s : l ≡ₚ l' -> encode_proof keccak sec1 e q l = Ok s ->
    encode_proof keccak sec1 e q l' = Ok s.
  Proof.
    intros Hp. unfold encode_proof, proof_operators.
    destruct (try_map (signer_operator keccak sec1 e) l) as [ops| |] eqn:E; [|done..].
    destruct (try_map_perm _ _ _ _ Hp E) as (ops' & -> & Ho). cbn [rbind].
    by rewrite (isort_operators_eq _ _ Ho).
  Qed.

  Lemma encode_data_view e d s : data_ok d -> encode_data e d = Ok s -> fits e s -> decode_data e s = Some (data_view d).
  Proof.
    intros Hd H Hf. destruct e; cbn [decode_data encode_data fits] in *.
    - apply ok_inj in H as <-. by apply abi_data_view.
    - by apply bcs_data_view in H as [H _].
  Qed.
  Lemma encode_data_inj e d d' s : data_ok d -> data_ok d' -> encode_data e d = Ok s -> encode_data e d' = Ok s ->
    fits e s -> d = d'.
  Proof.
    intros Hd Hd' H H' Hf. apply data_view_inj.
    apply encode_data_view in H; [|done..]. apply encode_data_view in H'; [|done..]. congruence.
  Qed.

  Lemma abi_bytes_pair a b : slen (abi_encode [TBytes a; TBytes b]) < U256 ->
    a_pair 32%nat (a_bytes (abi_encode [TBytes a; TBytes b]) 0%nat 0%nat) a_bytes (abi_encode [TBytes a; TBytes b]) = Some (a, b)
    /\ slen a <= slen (abi_encode [TBytes a; TBytes b]) /\ slen b <= slen (abi_encode [TBytes a; TBytes b]).
  Proof.
    intros Hs. pose proof (abi_layout [TBytes a; TBytes b]) as L.
    set (w := abi_encode _) in *. lay L. destruct L as (H0 & H1 & _).
    unfold a_pair. rewrite (repr_bytes _ _ _ _ Hs H0), (repr_bytes _ _ _ _ Hs H1). split; [done|].
    assert (Hx : forall x p, holds w 0 p (TBytes x) -> slen x <= slen w).
    { intros x p (off & _ & Ht). specialize (Ht eq_refl). cbn [encode_tail] in Ht.
      apply occurs_app in Ht as [_ Ht]. apply occurs_le in Ht. unfold pad_right in Ht. rewrite app_length_str in Ht.
      unfold slen. lia. }
    split; eauto.
  Qed.
  Lemma abi_bytes_single a : slen (abi_encode [TBytes a]) < U256 ->
    a_bytes (abi_encode [TBytes a]) 0%nat 0%nat = Some a /\ slen a <= slen (abi_encode [TBytes a]).
  Proof.
    intros Hs. pose proof (abi_layout [TBytes a]) as L.
    set (w := abi_encode _) in *. lay L. destruct L as (H0 & _).
    rewrite (repr_bytes _ _ _ _ Hs H0). split; [done|].
    destruct H0 as (off & _ & Ht). specialize (Ht eq_refl). cbn [encode_tail] in Ht.
    apply occurs_app in Ht as [_ Ht]. apply occurs_le in Ht. unfold pad_right in Ht. rewrite app_length_str in Ht.
    unfold slen. lia.
  Qed.

  Lemma execute_view b q signers s : (forall x, String.length (keccak x) = 32%nat) ->
    encode_execute_data keccak sec1 recover b q signers = Ok s -> fits (b_encoder b) s ->
    exists digest x p, msg_digest keccak b = Ok digest /\ decode_execute (b_encoder b) s = Some (x, p) /\
      encode_data (b_encoder b) (b_data b) = Ok x /\ fits (b_encoder b) x /\
      encode_proof keccak sec1 (b_encoder b) q
        ((fun y => (y.1, convert_sig recover (b_encoder b) digest y.1 y.2)) <$> signers) = Ok p /\
      fits (b_encoder b) p /\ (b_encoder b = Abi -> stake 4 s = stake 4 (keccak "execute(bytes)")).
  Proof.
    intros Hk H Hf. unfold encode_execute_data in H. res_inv. rename v into digest, v0 into x, v1 into p.
    exists digest, x, p. split; [done|]. split; [|split; [done|]].
    - destruct (b_encoder b) eqn:Ee; res_inv; cbn [decode_execute fits] in *.
      + subst s. unfold abi_decode_execute.
        assert (H4 : String.length (stake 4 (keccak "execute(bytes)")) = 4%nat) by (apply stake_length; rewrite Hk; lia).
        rewrite <- H4 at 1. rewrite sdrop_app.
        unfold slen in Hf at 1. rewrite app_length_str in Hf.
        assert (Hs1 : slen (abi_encode [TBytes (abi_encode [TBytes x; TBytes p])]) < 2 ^ 32) by (unfold slen; lia).
        apply small_u256 in Hs1. destruct (abi_bytes_single _ Hs1) as [-> Hle].
        apply abi_bytes_pair. lia.
      + match goal with H : bcs_tuple _ = _ |- _ => rename H into Hb' end. tup.
        unfold bcs_decode_execute. apply reads_run. apply reads_pair; by apply reads_bytes.
    - destruct (b_encoder b) eqn:Ee; res_inv; cbn [fits] in *; [|done].
      subst s. assert (H4 : String.length (stake 4 (keccak "execute(bytes)")) = 4%nat) by (apply stake_length; rewrite Hk; lia).
      assert (Hs1 : slen (abi_encode [TBytes (abi_encode [TBytes x; TBytes p])]) < 2 ^ 32).
      { unfold slen in *. rewrite app_length_str in Hf. lia. }
      pose proof (small_u256 _ Hs1) as Hs2. destruct (abi_bytes_single _ Hs2) as [_ Hle].
      destruct (abi_bytes_pair x p) as (_ & H1 & H2); [lia|].
      split; [lia|]. split; [done|]. split; [lia|]. intros _.
      rewrite <- H4 at 1. apply stake_app.
  Qed.

  Lemma digest_inj b b' h : data_ok (b_data b) -> data_ok (b_data b') ->
    msg_digest keccak b = Ok h -> msg_digest keccak b' = Ok h ->
    (b_encoder b = Abi -> slen (abi_encode_data (b_data b)) < 2 ^ 32) ->
    no_collision keccak (hashed keccak b ++ hashed keccak b') ->
    b_encoder b = b_encoder b' /\ b_data b = b_data b'.
  Proof.
    clear wshash sec1 recover. intros Hd Hd' H H' Hf Hn. unfold msg_digest, no_collision, hashed in *.
    destruct (b_encoder b) eqn:E, (b_encoder b') eqn:E'; cbn [rbind] in *.
    - apply ok_inj in H as <-. apply ok_inj in H'. split; [done|].
      apply Hn in H'; [|set_solver..]. apply app_inj_l_str in H'.
      apply Hn in H'; [|set_solver..].
      apply (encode_data_inj Abi _ _ (abi_encode_data (b_data b))); cbn [encode_data fits]; rewrite ?H'; auto.
    - destruct (bcs_encode (b_data b')) as [e| |] eqn:Eb; [|done..]. apply ok_inj in H as <-. apply ok_inj in H'.
      apply Hn in H'; [|set_solver..]. done.
    - destruct (bcs_encode (b_data b)) as [e| |] eqn:Eb; [|done..]. apply ok_inj in H as <-. apply ok_inj in H'.
      apply Hn in H'; [|set_solver..]. done.
    - destruct (bcs_encode (b_data b)) as [e| |] eqn:Eb; [|done..].
      destruct (bcs_encode (b_data b')) as [e'| |] eqn:Eb'; [|done..]. apply ok_inj in H as <-. apply ok_inj in H'.
      apply Hn in H'; [|set_solver..]. apply app_inj_l_str in H'. subst e'. split; [done|].
      by eapply bcs_data_inj.
  Qed.

  Lemma command_view e m c : make_command keccak e m = Ok c -> String.length (m_hash m) = 32%nat -> fits e (c_params c) ->
    c_id c = keccak (ccid_to_string (m_cc m)) /\ c_ty c = ApproveContractCall /\
    exists d, dest_bytes e (m_daddr m) = Some d /\
      decode_params e (c_params c) = Some (cc_chain (m_cc m), m_src m, d, m_hash m).
  Proof.
    unfold make_command. intros H Hh Hf. res_inv. subst c. cbn [c_id c_ty c_params] in *.
    split; [done|]. split; [done|]. destruct e; cbn [dest_bytes decode_params fits] in *.
    - destruct (abi_params_view _ _ _ _ _ Hv Hh Hf) as (d & H1 & H2 & _). eauto.
    - destruct (bcs_params_view _ _ _ _ _ Hv) as (d & H1 & H2 & H3). rewrite H1.
      exists d. split; [|done]. unfold bytes32. by rewrite H2.
  Qed.

  Lemma build_view chain e ws msgs b : build_batch keccak wshash sec1 chain e ws msgs = Ok b ->
    b_encoder b = e /\ b_ids b = m_cc <$> msgs /\ b_id b = batch_id keccak wshash (m_cc <$> msgs) ws /\
    d_chain (b_data b) = chain /\
    exists cs ms, d_commands (b_data b) = cs ++ ms /\
      match ws with
      | Some w => exists c, cs = [c] /\ make_transfer keccak wshash sec1 e w = Ok c
      | None => cs = []
      end /\ Forall2 (fun m c => make_command keccak e m = Ok c) msgs ms.
  Proof.
    unfold build_batch. intros H. res_inv. subst b. cbn. split_and!; [done..|].
    eexists _, _. split; [done|]. split; [|by apply try_map_ok].
    destruct ws; res_inv; [|by subst]. subst. eauto.
  Qed.
  Lemma build_data_ok chain e ws msgs b : (forall x, String.length (keccak x) = 32%nat) ->
    (forall w, String.length (wshash w) = 32%nat) -> chain < U256 ->
    build_batch keccak wshash sec1 chain e ws msgs = Ok b -> data_ok (b_data b).
  Proof.
    intros Hk Hw Hc H. apply build_view in H as (_ & _ & _ & Hch & cs & ms & Hcs & Ht & Hm).
    split; [by rewrite Hch|]. rewrite Hcs. apply Forall_app. split.
    - destruct ws as [w|]; [|by subst]. destruct Ht as (c & -> & Ht). constructor; [|constructor].
      unfold make_transfer in Ht. res_inv. subst c. apply Hw.
    - clear -Hm Hk. induction Hm as [|m c ms cs Hc Hm IH]; constructor; [|done].
      unfold make_command in Hc. res_inv. subst c. apply Hk.
  Qed.
End Ops.

(** ** BCS totality *)
Lemma bcs_len_total n : n <= BCS_MAX -> exists s, bcs_len n = Some s.
Proof. intros H. unfold bcs_len. destruct (N.leb_spec n BCS_MAX); [eauto|lia]. Qed.
Lemma bcs_bytes_total b : slen b <= BCS_MAX -> exists s, bcs_bytes b = Some s.
Proof. intros H. unfold bcs_bytes. destruct (bcs_len_total _ H) as [s ->]. eauto. Qed.
Lemma bcs_seq_total {A} (f : A -> option string) l : N.of_nat (length l) <= BCS_MAX ->
  (forall a, a ∈ l -> exists s, f a = Some s) -> exists s, bcs_seq f l = Some s.
Proof.
  intros Hn Hf. unfold bcs_seq. cbn [bcs_tuple]. destruct (bcs_len_total _ Hn) as [sn ->].
  assert (H : exists s, bcs_tuple (f <$> l) = Some s).
  { clear Hn. induction l as [|a l IH]; [eauto|]. rewrite fmap_cons. cbn [bcs_tuple].
    destruct (Hf a) as [sa ->]; [by left|]. destruct IH as [sl ->]; [|eauto]. intros b Hb. apply Hf. by right. }
  destruct H as [s ->]. eauto.
Qed.
Lemma bcs_encode_total d : d_chain d < U64 -> Forall (fun c => String.length (c_id c) = 32%nat) (d_commands d) ->
  N.of_nat (length (d_commands d)) <= BCS_MAX -> Forall (fun c => slen (c_params c) <= BCS_MAX) (d_commands d) ->
  exists s, bcs_encode d = Ok s.
Proof.
  intros Hc Hi Hn Hp. unfold bcs_encode, u256_to_u64. rewrite parse_uint_dec by done. cbn [expect rbind].
  assert (Hids : try_map (fun c => expect (E:=perror) (bytes32 (c_id c))) (d_commands d) = Ok (c_id <$> d_commands d)).
  { clear -Hi. induction Hi as [|c cs Hc Hi IH]; [done|]. cbn [try_map]. unfold bytes32 at 1. rewrite Hc. cbn.
    change ((fix go _ := _) cs) with (try_map (fun c => expect (E:=perror) (bytes32 (c_id c))) cs) || idtac. by rewrite IH. }
  rewrite Hids. cbn [rbind bcs_tuple].
  destruct (bcs_seq_total Some (c_id <$> d_commands d)) as [s1 ->]; [by rewrite fmap_length|eauto|].
  destruct (bcs_seq_total bcs_bytes (command_type_str ∘ c_ty <$> d_commands d)) as [s2 ->];
    [by rewrite fmap_length| |].
  { intros a (c & -> & _)%elem_of_list_fmap. apply bcs_bytes_total. cbn. by destruct (c_ty c). }
  destruct (bcs_seq_total bcs_bytes (c_params <$> d_commands d)) as [s3 ->];
    [by rewrite fmap_length| |cbn; eauto].
  intros a (c & -> & Hin)%elem_of_list_fmap. apply bcs_bytes_total. rewrite Forall_forall in Hp. by apply Hp.
Qed.
Lemma bcs_chain_panics d : U64 <= d_chain d -> bcs_encode d = Panic.
Proof.
  intros H. unfold bcs_encode, u256_to_u64.
  destruct (parse_uint U64 (dec (d_chain d))) as [m|] eqn:E; [|done].
  apply parse_dec_ok in E as [_ Hl]. lia.
Qed.

(** the usual way to write an address *)
Lemma drop_spaces_hex s : drop_spaces (to_hex s) = to_hex s.
Proof.
  induction s as [|c s IH]; [done|]. cbn [to_hex drop_spaces].
  assert (Hd : forall n, n < 16 -> is_hex_space (hex_digit n) = false).
  { intros n Hn. unfold hex_digit, is_hex_space. destruct (N.ltb_spec n 10); rewrite N_ascii_embedding by lia.
    - destruct (48 + n) as [|p] eqn:E; [done|]. do 7 (destruct p; try done; try lia).
    - destruct (87 + n) as [|p] eqn:E; [done|]. do 7 (destruct p; try done; try lia). }
  pose proof (N_of_ascii_lt c).
  rewrite !Hd; [by rewrite IH|apply N.mod_lt; lia|apply N.div_lt_upper_bound; lia].
Qed.
Lemma dest_bytes_usual e b : String.length b = match e with Abi => 20%nat | Bcs => 32%nat end ->
  dest_bytes e ("0x" +:+ to_hex b) = Some b.
Proof.
  intros H. destruct e; cbn [dest_bytes strip_0x String.append].
  - unfold h160_of. cbn [strip_0x String.append]. by rewrite drop_spaces_hex, of_to_hex, H.
  - rewrite of_to_hex. unfold bytes32. by rewrite H.
Qed.
