(** Parameters, operator sets, proofs, execute data and digests. *)
From Verif Require Import Base BaseLemmas MapLemmas Text TextLemmas StdModel StdProofs RouterTypes MultisigTypes OperatorsModel
  EncodingModel EncodingSpec EncodingProofs EncodingProofs2 RegistryProofs.

Lemma h160_length s b : h160_of s = Some b -> String.length b = 20%nat.
Proof.
  unfold h160_of. destruct (of_hex _) as [x|]; [|done].
  destruct (Nat.eqb_spec (String.length x) 20); [|done]. by intros [= <-].
Qed.
Lemma abi_params_view chain src dst hash s : abi_command_params chain src dst hash = Ok s ->
  String.length hash = 32%nat -> slen s < 2 ^ 32 ->
  exists d, h160_of dst = Some d /\ abi_decode_params s = Some (chain, src, d, hash) /\
    a_bytes32 s 0%nat 128%nat = Some (zeros 32) /\ a_uint s 0%nat 160%nat = Some (slen chain).
Proof.
  unfold abi_command_params. intros H Hh Hs%small_u256. res_inv.
  match goal with H : h160_of _ = Some ?x |- _ => exists x; rename H into Hd; pose proof (h160_length _ _ Hd) as Hl; rename x into d end.
  split; [done|]. subst s.
  pose proof (abi_layout [TString chain; TString src; TAddress d; TFixedBytes hash; TFixedBytes ""; TUint 0]) as L.
  set (w := abi_encode _) in *. lay L. destruct L as (H0 & H1 & H2 & H3 & H4 & H5 & _).
  split_and!.
  - unfold abi_decode_params, a_pair.
    rewrite (repr_string _ _ _ _ Hs H0), (repr_string _ _ _ _ Hs H1).
    rewrite (repr_address _ Hl _ _ _ Hs H2). by rewrite (repr_bytes32 _ Hh _ _ _ Hs H3).
  - destruct H5 as (off & Ho & _). cbn [is_dynamic raw_head] in Ho. unfold a_bytes32.
    by rewrite (occurs_sub_n _ _ _ _ Ho (word_length 0)).
  - assert (Ho : occurs w 160 (word (slen chain))).
    { assert (He : w = heads_tails (enc1 <$> [TString chain; TString src; TAddress d; TFixedBytes hash; TFixedBytes ""; TUint 0])) by done.
      pose proof (occurs_self w) as Hw. rewrite He in Hw at 2. unfold heads_tails in Hw.
      apply occurs_app in Hw as [_ Hw].
      assert (Hlen : forall off, String.length (heads off (enc1 <$> [TString chain; TString src; TAddress d; TFixedBytes hash; TFixedBytes ""; TUint 0])) = 160%nat).
      { intros off. pose proof (heads_length [TString chain; TString src; TAddress d; TFixedBytes hash; TFixedBytes ""; TUint 0] off) as E.
        rewrite !lsum_cons in E. rewrite !head_string, head_address, head_fixed, head_empty, head_uint in E by done.
        unfold slen in E. change (lsum head_len []) with 0 in E. lia. }
      rewrite Hlen in Hw. cbn [Nat.add] in Hw. rewrite !fmap_cons in Hw. cbn [snd fmap list_fmap sconcat enc1 encode_tail] in Hw.
      apply occurs_app in Hw as [Hw _]. unfold enc1 in Hw. cbn [snd encode_tail] in Hw. by apply occurs_app in Hw as [Hw _]. }
    apply a_uint_word; [|done].
    eapply N.le_lt_trans; [|exact Hs].
    destruct H0 as (off & _ & Ht). specialize (Ht eq_refl). cbn [encode_tail] in Ht.
    apply occurs_app in Ht as [_ Ht]. apply occurs_le in Ht. unfold pad_right in Ht. rewrite app_length_str in Ht.
    unfold slen. lia.
Qed.

Section Ops.
  Context (keccak : string -> string) (wshash : worker_set -> string) (sec1 : string -> option string)
    (recover : string -> string -> string -> option N).

  Lemma signers_perm ws : signers_of ws ≡ₚ members ws.
  Proof. unfold signers_of, members, btree_iter. apply fmap_Permutation, isort_perm. Qed.

  Lemma evm_address_ok pk a : evm_address keccak sec1 pk = Ok a <-> dest_addr keccak sec1 Abi pk = Some a.
  Proof. unfold evm_address, dest_addr. destruct (sec1 pk); cbn; split; congruence. Qed.
  Lemma evm_address_expect_ok pk a : evm_address_expect keccak sec1 pk = Ok a -> dest_addr keccak sec1 Abi pk = Some a.
  Proof. unfold evm_address_expect. rewrite <- evm_address_ok. by destruct (evm_address _ _ _). Qed.
  Lemma abi_list_entries ws l : abi_operator_list keccak sec1 ws = Ok l ->
    Some <$> l = dest_entry keccak sec1 Abi <$> signers_of ws.
  Proof.
    unfold abi_operator_list. intros H%try_map_ok. induction H as [|sg x sgs l Hx H IH]; [done|].
    rewrite !fmap_cons, IH. f_equal. res_inv. unfold dest_entry.
    apply evm_address_expect_ok in Hv. by rewrite Hv, <- Hx.
  Qed.
  Lemma bcs_list_entries ws : Some <$> bcs_operator_list ws = dest_entry keccak sec1 Bcs <$> signers_of ws.
  Proof. unfold bcs_operator_list. rewrite <- list_fmap_compose. done. Qed.

  Lemma sort_by_addr_perm l : sort_by_addr l ≡ₚ l.
  Proof. apply isort_perm. Qed.
  Lemma Sorted_fst {B} (R : string -> string -> Prop) (l : list (string * B)) :
    Sorted (fun x y => R x.1 y.1) l -> Sorted R l.*1.
  Proof. induction 1 as [|a l H IH Hh]; constructor; [done|]. destruct Hh; constructor; done. Qed.
  Lemma leb_trans_inst : Relations_1.Transitive (fun a b : string => String.leb a b = true).
  Proof. intros x y z. apply leb_trans. Qed.
  Lemma ascending_of_sorted l : Sorted (fun a b => String.leb a b = true) l -> ascending l.
  Proof. apply Sorted_StronglySorted. intros x y z. apply leb_trans. Qed.
  Lemma sort_by_addr_ascending l : ascending (sort_by_addr l).*1.
  Proof.
    apply ascending_of_sorted, Sorted_fst. unfold sort_by_addr.
    apply (isort_sorted (fun a b : string * N => String.leb a.1 b.1)). intros x y. apply String.leb_total.
  Qed.
  Lemma ascending_strict l : ascending l -> NoDup l -> strictly_ascending l.
  Proof.
    induction 1 as [|a l H IH Ha]; intros Hd; [constructor|]. apply NoDup_cons in Hd as [Hn Hd].
    constructor; [by apply IH|]. rewrite Forall_forall in *. intros b Hb. specialize (Ha b Hb).
    unfold String.leb in Ha. unfold String.ltb. destruct (String.compare a b) eqn:E; [|done|done].
    apply String.compare_eq_iff in E as ->. done.
  Qed.

  Lemma address_tokens {A} (f : A -> string) (l : list A) toks : try_map (fun o => address_token (f o)) l = Ok toks ->
    toks = TAddress <$> (f <$> l) /\ Forall (fun b => String.length b = 20%nat) (f <$> l).
  Proof.
    intros H%try_map_ok. induction H as [|a t l toks Ht H [IH1 IH2]]; [split; [done|constructor]|].
    unfold address_token in Ht. destruct (Nat.eqb_spec (String.length (f a)) 20); [|done].
    injection Ht as <-. rewrite !fmap_cons, IH1. split; [done|]. by constructor.
  Qed.

  Lemma u128_u256 n : n < U128 -> n < U256.
  Proof. intros H. eapply N.lt_trans; [exact H|]. done. Qed.

  Lemma entries_weight e l (sgs : list signer) :
    Some <$> l ≡ₚ dest_entry keccak sec1 e <$> sgs -> Forall (fun sg => sg_weight sg < U256) sgs ->
    Forall (fun w => w < U256) l.*2.
  Proof.
    intros Hp Hw. rewrite Forall_fmap. apply Forall_forall. intros [a w] Hin. cbn.
    assert (H : Some (a, w) ∈ dest_entry keccak sec1 e <$> sgs).
    { rewrite <- Hp. by apply elem_of_list_fmap_1. }
    apply elem_of_list_fmap in H as (sg & Heq & Hsg). unfold dest_entry in Heq.
    destruct (dest_addr _ _ _ _); [|done]. injection Heq as -> ->.
    rewrite Forall_forall in Hw. by apply Hw.
  Qed.
  Lemma zip_id {A B} (l : list (A * B)) : zip l.*1 l.*2 = l.
  Proof. induction l as [|[a b] l IH]; [done|]. cbn. by f_equal. Qed.

  (** what both encodings of an operator list have in common *)
  Lemma transfer_view e ws c : set_ok ws -> make_transfer keccak wshash sec1 e ws = Ok c -> fits e (c_params c) ->
    c_id c = wshash ws /\ c_ty c = TransferOperatorship /\
    exists l, decode_operators e (c_params c) = Some (l.*1, l.*2, ws_threshold ws) /\
      make_operators keccak sec1 e ws = Ok {| o_weights := l; o_threshold := ws_threshold ws |} /\
      Some <$> l ≡ₚ dest_entry keccak sec1 e <$> members ws /\ ascending l.*1.
  Proof.
    intros [Ht Hw] H Hf. unfold make_transfer in H. res_inv. subst c. cbn [c_id c_ty c_params] in *.
    split; [done|]. split; [done|]. destruct e.
    - unfold abi_transfer_params in Hv. res_inv. subst v. cbn [decode_operators fits] in *.
      match goal with H : abi_operator_list _ _ _ = Ok ?x |- _ => rename H into Hl, x into l0 end.
      match goal with H : try_map _ _ = Ok _ |- _ => apply address_tokens in H as [-> H20] end.
      exists (sort_by_addr l0). pose proof (abi_list_entries _ _ Hl) as He.
      assert (Hp : Some <$> sort_by_addr l0 ≡ₚ dest_entry keccak sec1 Abi <$> members ws).
      { rewrite <- signers_perm, <- He. apply fmap_Permutation, sort_by_addr_perm. }
      split_and!; [| |done|apply sort_by_addr_ascending].
      + apply small_u256 in Hf. 
        match goal with |- abi_decode_operators (abi_encode ?x) = _ => pose proof (abi_layout x) as L end.
        set (w := abi_encode _) in *. lay L. destruct L as (H0 & H1 & H2 & _).
        unfold abi_decode_operators, a_pair.
        rewrite (repr_array_address _ H20 _ _ _ Hf H0).
        rewrite list_fmap_compose in H1.
        rewrite (repr_array_uint _ (entries_weight _ _ _ Hp Hw) _ _ _ Hf H1).
        by rewrite (repr_uint _ Ht _ _ _ Hf H2).
      + unfold make_operators. rewrite Hl. done.
    - unfold bcs_transfer_params in Hv. res_inv. cbn [decode_operators] in *.
      match goal with H : try_map _ _ = Ok _ |- _ => apply weights_ok in H as [-> H128] end.
      match goal with H : u256_to_u128 _ = Ok _ |- _ => apply u256_to_u128_ok in H as [-> Hq] end.
      exists (sort_by_addr (bcs_operator_list ws)).
      split_and!; [|reflexivity| |apply sort_by_addr_ascending].
      + match goal with H : bcs_tuple _ = _ |- _ => rename H into Hb' end. tup.
        unfold bcs_decode_operators. apply reads_run. apply reads_pair; [apply reads_pair|].
        * by apply reads_bytes_seq.
        * apply reads_le_seq; [exact H128|done].
        * apply reads_le. exact Hq.
      + rewrite <- signers_perm, <- bcs_list_entries. apply fmap_Permutation, sort_by_addr_perm.
  Qed.
End Ops.
