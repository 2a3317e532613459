(** What two batches with the same digest have in common. *)
From Verif Require Import Base BaseLemmas MapLemmas Text TextLemmas StdModel StdProofs RouterTypes MultisigTypes OperatorsModel
  EncodingModel EncodingSpec EncodingProofs EncodingProofs2 EncodingProofs3 EncodingProofs4 EncodingProofs5 RegistryProofs.

Lemma layout_bytes w base l : forall p b, layout w base p l -> TBytes b ∈ l -> slen b <= slen w.
Proof.
  induction l as [|t l IH]; intros p b Hl Hin; [by apply elem_of_nil in Hin|].
  cbn [layout] in Hl. destruct Hl as [Hh Hl]. apply elem_of_cons in Hin as [<-|Hin]; [|by eapply IH].
  destruct Hh as (off & _ & Ht). specialize (Ht eq_refl). cbn [encode_tail] in Ht.
  apply occurs_app in Ht as [_ Ht]. apply occurs_le in Ht. unfold pad_right in Ht. rewrite app_length_str in Ht.
  unfold slen. lia.
Qed.
Lemma holds_array_bytes w base p l b : holds w base p (TArray l) -> TBytes b ∈ l -> slen b <= slen w.
Proof.
  intros (off & _ & Ht) Hin. specialize (Ht eq_refl). cbn [encode_tail] in Ht. change (map _ l) with (enc1 <$> l) in Ht.
  apply occurs_app in Ht as [_ Ht]. apply layout_tuple in Ht. by eapply layout_bytes.
Qed.
Lemma abi_params_short d c : c ∈ d_commands d -> slen (c_params c) <= slen (abi_encode_data d).
Proof.
  intros Hin. unfold abi_encode_data.
  match goal with |- _ <= slen (abi_encode ?x) => pose proof (abi_layout x) as L end.
  set (w := abi_encode _) in *. lay L. destruct L as (_ & _ & _ & H3 & _).
  eapply holds_array_bytes; [exact H3|]. apply elem_of_list_fmap. by exists c.
Qed.

Section Sec.
  Context (keccak : string -> string) (wshash : worker_set -> string) (sec1 : string -> option string).

  Lemma commands_meaning e msgs msgs' ms :
    Forall2 (fun m c => make_command keccak e m = Ok c) msgs ms ->
    Forall2 (fun m c => make_command keccak e m = Ok c) msgs' ms ->
    Forall (fun c => fits e (c_params c)) ms ->
    Forall (fun m => String.length (m_hash m) = 32%nat /\ contains ":" (cc_chain (m_cc m)) = false) (msgs ++ msgs') ->
    no_collision keccak (ccid_to_string ∘ m_cc <$> (msgs ++ msgs')) ->
    meaning e <$> msgs = meaning e <$> msgs'.
  Proof.
    intros H. revert msgs'. induction H as [|m c msgs ms Hc H IH]; intros msgs' H' Hf Hw Hn.
    { inversion H'; subst. done. }
    inversion H' as [|m' c' msgs'' ms' Hc' H'']; subst. apply Forall_cons in Hf as [Hf1 Hf].
    rewrite Forall_app in Hw. destruct Hw as [[[Hm1 Hm2] Hw1]%Forall_cons [[Hm1' Hm2'] Hw2]%Forall_cons].
    rewrite !fmap_cons. f_equal.
    - apply command_view in Hc as (Hid & _ & d & Hd & Hp); [|done..].
      apply command_view in Hc' as (Hid' & _ & d' & Hd' & Hp'); [|done..].
      rewrite Hid in Hid'. apply Hn in Hid'.
      2, 3: apply elem_of_list_fmap; eexists; split; [reflexivity|]; rewrite elem_of_app, !elem_of_cons; auto.
      apply ccid_string_inj in Hid'; [|done..].
      rewrite Hp in Hp'. injection Hp' as _ Hs -> Hh. unfold meaning. by rewrite Hid', Hs, Hh, Hd, Hd'.
    - apply IH; [done|done|by rewrite Forall_app|].
      intros x y Hx Hy. apply Hn.
      + apply elem_of_list_fmap in Hx as (z & -> & Hz). apply elem_of_list_fmap. exists z. split; [done|].
        rewrite elem_of_app in Hz |- *. rewrite !elem_of_cons. naive_solver.
      + apply elem_of_list_fmap in Hy as (z & -> & Hz). apply elem_of_list_fmap. exists z. split; [done|].
        rewrite elem_of_app in Hz |- *. rewrite !elem_of_cons. naive_solver.
  Qed.

  (** same digest: same encoder, chain, messages, and worker-set hash *)
  Lemma digest_meaning chain chain' e e' ws ws' msgs msgs' b b' h :
    (forall x, String.length (keccak x) = 32%nat) -> (forall w, String.length (wshash w) = 32%nat) ->
    chain < U256 -> chain' < U256 ->
    build_batch keccak wshash sec1 chain e ws msgs = Ok b ->
    build_batch keccak wshash sec1 chain' e' ws' msgs' = Ok b' ->
    msg_digest keccak b = Ok h -> msg_digest keccak b' = Ok h ->
    (e = Abi -> slen (abi_encode_data (b_data b)) < 2 ^ 32) ->
    Forall (fun m => String.length (m_hash m) = 32%nat /\ contains ":" (cc_chain (m_cc m)) = false) (msgs ++ msgs') ->
    no_collision keccak (hashed keccak b ++ hashed keccak b') ->
    no_collision keccak (ccid_to_string ∘ m_cc <$> (msgs ++ msgs')) ->
    e = e' /\ chain = chain' /\ meaning e <$> msgs = meaning e <$> msgs' /\ wshash <$> ws = wshash <$> ws'.
  Proof.
    intros Hk Hws Hc Hc' Hb Hb' Hh Hh' Hf Hm Hn Hn2.
    pose proof (build_data_ok _ _ _ _ _ _ _ _ Hk Hws Hc Hb) as Hd.
    pose proof (build_data_ok _ _ _ _ _ _ _ _ Hk Hws Hc' Hb') as Hd'.
    apply build_view in Hb as (He & _ & _ & Hch & cs & ms & Hcs & Ht & Hms).
    apply build_view in Hb' as (He' & _ & _ & Hch' & cs' & ms' & Hcs' & Ht' & Hms').
    subst e e' chain chain'.
    destruct (digest_inj keccak b b' h Hd Hd' Hh Hh' Hf Hn) as [He Hdd].
    rewrite Hdd. split; [done|]. split; [done|]. rewrite <- He in Ht', Hms'. rewrite <- Hdd, Hcs in Hcs'.
    assert (Hap : forall c, c ∈ ms -> c_ty c = ApproveContractCall).
    { intros c Hin. eapply Forall2_in_r in Hin as (m & _ & Hx); [|exact Hms].
      unfold make_command in Hx. res_inv. by subst c. }
    assert (Hap' : forall c, c ∈ ms' -> c_ty c = ApproveContractCall).
    { intros c Hin. eapply Forall2_in_r in Hin as (m & _ & Hx); [|exact Hms'].
      unfold make_command in Hx. res_inv. by subst c. }
    assert (Htr : forall w c, make_transfer keccak wshash sec1 (b_encoder b) w = Ok c ->
      c_ty c = TransferOperatorship /\ c_id c = wshash w).
    { intros w c Hx. unfold make_transfer in Hx. res_inv. by subst c. }
    assert (Heq : ms = ms' /\ wshash <$> ws = wshash <$> ws').
    { destruct ws as [w|], ws' as [w'|].
      - destruct Ht as (c & -> & Ht), Ht' as (c' & -> & Ht'). injection Hcs' as <- ->. split; [done|].
        apply Htr in Ht as [_ Ht], Ht' as [_ Ht']. cbn. congruence.
      - destruct Ht as (c & -> & Ht). subst cs'. exfalso. apply Htr in Ht as [Ht _].
        cbn in Hcs'. rewrite Hap' in Ht; [done|]. rewrite <- Hcs'. by left.
      - destruct Ht' as (c & -> & Ht'). subst cs. exfalso. apply Htr in Ht' as [Ht' _].
        cbn in Hcs'. rewrite Hap in Ht'; [done|]. rewrite Hcs'. by left.
      - subst. done. }
    destruct Heq as [<- Hwe]. split; [|done].
    eapply commands_meaning; [exact Hms|exact Hms'| |done|done].
    apply Forall_forall. intros c Hin. unfold fits. destruct (b_encoder b) eqn:E; [|done].
    specialize (Hf eq_refl). eapply N.le_lt_trans; [apply abi_params_short|exact Hf].
    rewrite Hcs. apply elem_of_app. by right.
  Qed.
End Sec.

Section Statements.
  Context (keccak : string -> string) (wshash : worker_set -> string) (sec1 : string -> option string)
    (recover : string -> string -> string -> option N).

  Lemma c50_execute b q signers s : (forall x, String.length (keccak x) = 32%nat) -> b_encoder b = Bcs ->
    encode_execute_data keccak sec1 recover b q signers = Ok s ->
    exists digest x p, msg_digest keccak b = Ok digest /\ bcs_decode_execute s = Some (x, p) /\
      encode_data Bcs (b_data b) = Ok x /\
      encode_proof keccak sec1 Bcs q ((fun y => (y.1, convert_sig recover Bcs digest y.1 y.2)) <$> signers) = Ok p.
  Proof.
    intros Hk He H. destruct (execute_view keccak sec1 recover b q signers s Hk H) as (dg & x & p & H1 & H2 & H3 & _ & H4 & _).
    { by rewrite He. }
    rewrite He in *. eauto 10.
  Qed.
  Lemma c51_execute b q signers s : (forall x, String.length (keccak x) = 32%nat) -> b_encoder b = Abi ->
    encode_execute_data keccak sec1 recover b q signers = Ok s -> slen s < 2 ^ 32 ->
    exists digest x p, msg_digest keccak b = Ok digest /\ abi_decode_execute s = Some (x, p) /\
      encode_data Abi (b_data b) = Ok x /\
      encode_proof keccak sec1 Abi q ((fun y => (y.1, convert_sig recover Abi digest y.1 y.2)) <$> signers) = Ok p /\
      slen x < 2 ^ 32 /\ slen p < 2 ^ 32 /\ stake 4 s = stake 4 (keccak "execute(bytes)").
  Proof.
    intros Hk He H Hf. destruct (execute_view keccak sec1 recover b q signers s Hk H) as (dg & x & p & H1 & H2 & H3 & H5 & H4 & H6 & H7).
    { by rewrite He. }
    rewrite He in *. exists dg, x, p. auto 10.
  Qed.
  Lemma c50_meaning chain chain' e' ws ws' msgs msgs' b b' h :
    (forall x, String.length (keccak x) = 32%nat) -> (forall w, String.length (wshash w) = 32%nat) ->
    chain < U256 -> chain' < U256 ->
    build_batch keccak wshash sec1 chain Bcs ws msgs = Ok b ->
    build_batch keccak wshash sec1 chain' e' ws' msgs' = Ok b' ->
    msg_digest keccak b = Ok h -> msg_digest keccak b' = Ok h ->
    Forall (fun m => String.length (m_hash m) = 32%nat /\ contains ":" (cc_chain (m_cc m)) = false) (msgs ++ msgs') ->
    no_collision keccak (hashed keccak b ++ hashed keccak b') ->
    no_collision keccak (ccid_to_string ∘ m_cc <$> (msgs ++ msgs')) ->
    Bcs = e' /\ chain = chain' /\ meaning Bcs <$> msgs = meaning Bcs <$> msgs' /\ wshash <$> ws = wshash <$> ws'.
  Proof. intros. by eapply digest_meaning. Qed.
  Lemma c51_meaning chain chain' e' ws ws' msgs msgs' b b' h :
    (forall x, String.length (keccak x) = 32%nat) -> (forall w, String.length (wshash w) = 32%nat) ->
    chain < U256 -> chain' < U256 ->
    build_batch keccak wshash sec1 chain Abi ws msgs = Ok b ->
    build_batch keccak wshash sec1 chain' e' ws' msgs' = Ok b' ->
    msg_digest keccak b = Ok h -> msg_digest keccak b' = Ok h -> slen (abi_encode_data (b_data b)) < 2 ^ 32 ->
    Forall (fun m => String.length (m_hash m) = 32%nat /\ contains ":" (cc_chain (m_cc m)) = false) (msgs ++ msgs') ->
    no_collision keccak (hashed keccak b ++ hashed keccak b') ->
    no_collision keccak (ccid_to_string ∘ m_cc <$> (msgs ++ msgs')) ->
    Abi = e' /\ chain = chain' /\ meaning Abi <$> msgs = meaning Abi <$> msgs' /\ wshash <$> ws = wshash <$> ws'.
  Proof. intros. by eapply digest_meaning. Qed.

  Lemma make_operators_view e ws o : make_operators keccak sec1 e ws = Ok o ->
    o_threshold o = ws_threshold ws /\ Some <$> o_weights o ≡ₚ dest_entry keccak sec1 e <$> members ws /\
    ascending (o_weights o).*1.
  Proof.
    intros H. destruct e; cbn [make_operators] in H.
    - res_inv. subst o. split; [done|]. split; [|apply sort_by_addr_ascending].
      rewrite <- signers_perm. rewrite <- (abi_list_entries _ _ _ _ Hv). apply fmap_Permutation, sort_by_addr_perm.
    - apply ok_inj in H as <-. split; [done|]. split; [|apply sort_by_addr_ascending].
      rewrite <- signers_perm. rewrite <- (bcs_list_entries keccak sec1). apply fmap_Permutation, sort_by_addr_perm.
  Qed.
  Lemma somes_NoDup {A} (l : list A) : NoDup (Some <$> l) -> NoDup l.
  Proof. intros H. by eapply NoDup_fmap_1. Qed.
  Lemma make_operators_strict e ws o : make_operators keccak sec1 e ws = Ok o ->
    NoDup (dest_addr keccak sec1 e ∘ pk_bytes ∘ sg_key <$> members ws) -> strictly_ascending (o_weights o).*1.
  Proof.
    intros (_ & Hp & Ha)%make_operators_view Hn. apply ascending_strict; [done|].
    apply somes_NoDup. rewrite <- list_fmap_compose.
    assert (Hq : (fmap (M:=option) fst) <$> (Some <$> o_weights o) ≡ₚ (fmap (M:=option) fst) <$> (dest_entry keccak sec1 e <$> members ws)) by (by rewrite Hp).
    rewrite <- !list_fmap_compose in Hq.
    replace ((fmap (M:=option) fst ∘ dest_entry keccak sec1 e) <$> members ws)
      with (dest_addr keccak sec1 e ∘ pk_bytes ∘ sg_key <$> members ws) in Hq; [by rewrite <- Hq in Hn|].
    apply list_fmap_ext. intros _ sg _. cbn. unfold dest_entry. by destruct (dest_addr _ _ _ _).
  Qed.
  Lemma proof_operators_strict e (signers : list (signer * option signature)) (ops : list operator) :
    Some <$> ops ≡ₚ dest_operator keccak sec1 e <$> signers -> ascending (op_addr <$> ops) ->
    NoDup (dest_addr keccak sec1 e ∘ pk_bytes ∘ sg_key ∘ fst <$> signers) -> strictly_ascending (op_addr <$> ops).
  Proof.
    intros Hp Ha Hn. apply ascending_strict; [done|].
    apply somes_NoDup. rewrite <- list_fmap_compose.
    assert (Hq : (fmap (M:=option) op_addr) <$> (Some <$> ops) ≡ₚ (fmap (M:=option) op_addr) <$> (dest_operator keccak sec1 e <$> signers)) by (by rewrite Hp).
    rewrite <- !list_fmap_compose in Hq.
    replace ((fmap (M:=option) op_addr ∘ dest_operator keccak sec1 e) <$> signers)
      with (dest_addr keccak sec1 e ∘ pk_bytes ∘ sg_key ∘ fst <$> signers) in Hq; [by rewrite <- Hq in Hn|].
    apply list_fmap_ext. intros _ sg _. cbn. unfold dest_operator. by destruct (dest_addr _ _ _ _).
  Qed.
  Lemma operators_preimage_perm l l' t : l ≡ₚ l' -> NoDup l.*1 ->
    operators_preimage (operators_new l t) = operators_preimage (operators_new l' t).
  Proof. intros Hp Hd. by rewrite (operators_perm _ _ t Hp Hd). Qed.
End Statements.
