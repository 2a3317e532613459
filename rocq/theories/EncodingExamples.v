(** Concrete encodings: the byte strings of the repository's own tests, and
    witnesses for the hypotheses of C50-C52. *)
From Verif Require Import Base BaseLemmas Text TextLemmas StdModel RouterTypes MultisigTypes OperatorsModel
  EncodingModel EncodingSpec MultisigExamples.

Definition hex (s : string) : string := match of_hex s with Some b => b | None => "" end.

(** test/test_data.rs:112-115 [encoded_data], 104-106
    [encoded_data_with_operator_transfer]; the parameters inside them *)
Definition tv_data : string := hex (
   "000000000000000000000000000000000000000000000000000000000000053900000000000000000000000000000000" ++
   "0000000000000000000000000000008000000000000000000000000000000000000000000000000000000000000000c0" ++
   "000000000000000000000000000000000000000000000000000000000000014000000000000000000000000000000000" ++
   "000000000000000000000000000000013ee2f8af2201994e3518c9ce6848774785c2eef3bdbf9f954899497616dd59af" ++
   "000000000000000000000000000000000000000000000000000000000000000100000000000000000000000000000000" ++
   "000000000000000000000000000000200000000000000000000000000000000000000000000000000000000000000013" ++
   "617070726f7665436f6e747261637443616c6c0000000000000000000000000000000000000000000000000000000000" ++
   "000000000000000000000000000000010000000000000000000000000000000000000000000000000000000000000020" ++
   "000000000000000000000000000000000000000000000000000000000000014000000000000000000000000000000000" ++
   "000000000000000000000000000000a000000000000000000000000000000000000000000000000000000000000000e0" ++
   "000000000000000000000000a4f10f76b86e01b98daf66a3d02a65e14adb07678c3685dc41c2eca11426f8035742fb97" ++
   "ea9f14931152670a5703f18fe8b392f00000000000000000000000000000000000000000000000000000000000000000" ++
   "000000000000000000000000000000000000000000000000000000000000000967616e616368652d3100000000000000" ++
   "00000000000000000000000000000000000000000000000000000000000000000000000000000000000000000000002a" ++
   "307835323434346631383335416463303230383663333743623232363536313630356532453136393962000000000000" ++
   "00000000000000000000000000000000").
Definition tv_transfer : string := hex (
   "000000000000000000000000000000000000000000000000000000000000053900000000000000000000000000000000" ++
   "0000000000000000000000000000008000000000000000000000000000000000000000000000000000000000000000c0" ++
   "000000000000000000000000000000000000000000000000000000000000014000000000000000000000000000000000" ++
   "00000000000000000000000000000001db7362a425610350d24692e913a3ac1b709565274875883962b48d1d3ed43e5c" ++
   "000000000000000000000000000000000000000000000000000000000000000100000000000000000000000000000000" ++
   "000000000000000000000000000000200000000000000000000000000000000000000000000000000000000000000014" ++
   "7472616e736665724f70657261746f727368697000000000000000000000000000000000000000000000000000000000" ++
   "000000000000000000000000000000010000000000000000000000000000000000000000000000000000000000000020" ++
   "00000000000000000000000000000000000000000000000000000000000001e000000000000000000000000000000000" ++
   "000000000000000000000000000000600000000000000000000000000000000000000000000000000000000000000120" ++
   "000000000000000000000000000000000000000000000000000000000000001e00000000000000000000000000000000" ++
   "000000000000000000000000000000050000000000000000000000000249c31dd0eacb2d73bbe5a0513416cd3888cb5b" ++
   "0000000000000000000000001ae3758c032ae8ebf6f075bb5b6ff6129b56e632000000000000000000000000adb32b50" ++
   "b13f962d302619111de6a1020fbd55f7000000000000000000000000defab04334a82fdea683bca3617c33bc469d4cc9" ++
   "000000000000000000000000e6857cf86038ba741e64ce0d3c883a26a7d3cb4600000000000000000000000000000000" ++
   "00000000000000000000000000000005000000000000000000000000000000000000000000000000000000000000000a" ++
   "000000000000000000000000000000000000000000000000000000000000000a00000000000000000000000000000000" ++
   "0000000000000000000000000000000a000000000000000000000000000000000000000000000000000000000000000a" ++
   "000000000000000000000000000000000000000000000000000000000000000a").
Definition tv_params : string := hex (
   "00000000000000000000000000000000000000000000000000000000000000a000000000000000000000000000000000" ++
   "000000000000000000000000000000e0000000000000000000000000a4f10f76b86e01b98daf66a3d02a65e14adb0767" ++
   "8c3685dc41c2eca11426f8035742fb97ea9f14931152670a5703f18fe8b392f000000000000000000000000000000000" ++
   "000000000000000000000000000000000000000000000000000000000000000000000000000000000000000000000009" ++
   "67616e616368652d31000000000000000000000000000000000000000000000000000000000000000000000000000000" ++
   "0000000000000000000000000000002a3078353234343466313833354164633032303836633337436232323635363136" ++
   "3035653245313639396200000000000000000000000000000000000000000000").
Definition tv_transfer_params : string := hex (
   "000000000000000000000000000000000000000000000000000000000000006000000000000000000000000000000000" ++
   "00000000000000000000000000000120000000000000000000000000000000000000000000000000000000000000001e" ++
   "00000000000000000000000000000000000000000000000000000000000000050000000000000000000000000249c31d" ++
   "d0eacb2d73bbe5a0513416cd3888cb5b0000000000000000000000001ae3758c032ae8ebf6f075bb5b6ff6129b56e632" ++
   "000000000000000000000000adb32b50b13f962d302619111de6a1020fbd55f7000000000000000000000000defab043" ++
   "34a82fdea683bca3617c33bc469d4cc9000000000000000000000000e6857cf86038ba741e64ce0d3c883a26a7d3cb46" ++
   "000000000000000000000000000000000000000000000000000000000000000500000000000000000000000000000000" ++
   "0000000000000000000000000000000a000000000000000000000000000000000000000000000000000000000000000a" ++
   "000000000000000000000000000000000000000000000000000000000000000a00000000000000000000000000000000" ++
   "0000000000000000000000000000000a000000000000000000000000000000000000000000000000000000000000000a").
Definition tv_operators : list (string * N) :=
  [(hex "0249c31dd0eacb2d73bbe5a0513416cd3888cb5b", 10); (hex "1ae3758c032ae8ebf6f075bb5b6ff6129b56e632", 10); (hex "adb32b50b13f962d302619111de6a1020fbd55f7", 10); (hex "defab04334a82fdea683bca3617c33bc469d4cc9", 10); (hex "e6857cf86038ba741e64ce0d3c883a26a7d3cb46", 10)].

Example tv_data_ok :
  abi_encode_data {| d_chain := 1337; d_commands :=
     [{| c_id := hex "3ee2f8af2201994e3518c9ce6848774785c2eef3bdbf9f954899497616dd59af";
         c_ty := ApproveContractCall; c_params := tv_params |}] |} = tv_data /\ slen tv_data = 736.
Proof. split; vm_compute; reflexivity. Qed.
Example tv_transfer_ok :
  abi_encode_data {| d_chain := 1337; d_commands :=
     [{| c_id := hex "db7362a425610350d24692e913a3ac1b709565274875883962b48d1d3ed43e5c";
         c_ty := TransferOperatorship; c_params := tv_transfer_params |}] |} = tv_transfer.
Proof. vm_compute. reflexivity. Qed.
(** encoding/abi.rs:343-365 [test_command_from_router_message], with the
    message of test/test_data.rs:78-99 *)
Example tv_params_ok :
  abi_command_params "ganache-1" "0x52444f1835Adc02086c37Cb226561605e2E1699b"
    "0xA4f10f76B86E01B98daF66A3d02a65e14adb0767"
    (hex "8c3685dc41c2eca11426f8035742fb97ea9f14931152670a5703f18fe8b392f0") = Ok tv_params.
Proof. vm_compute. reflexivity. Qed.
Example tv_transfer_params_ok :
  abi_encode [TArray (TAddress ∘ fst <$> tv_operators); TArray (TUint ∘ snd <$> tv_operators); TUint 30] =
  tv_transfer_params.
Proof. vm_compute. reflexivity. Qed.

(** ** Witnesses. A toy 32-byte hash: a polynomial of the bytes. *)
Definition ex_keccak (s : string) : string :=
  word (fold_left (fun acc c => N.land (acc * 4099 + N_of_ascii c + 1) (N.ones 64)) (list_ascii_of_string s) 7).
Definition ex_wshash (w : worker_set) : string := ex_keccak (dec (ws_threshold w) +:+ dec (ws_created w)).
Lemma ex_keccak_length s : String.length (ex_keccak s) = 32%nat.
Proof. apply TextLemmas.be_bytes_length. Qed.
Lemma ex_wshash_length w : String.length (ex_wshash w) = 32%nat.
Proof. apply ex_keccak_length. Qed.
(** keys starting with "z" are not on the curve *)
Definition ex_sec1 (k : string) : option string :=
  match k with String "z" _ => None | _ => Some (k +:+ k) end.
(** signatures starting with "n" cannot be recovered *)
Definition ex_recover (d k s : string) : option N := match s with String "n" _ => None | _ => Some 1 end.

Definition ex_pk (c : ascii) : public_key := {| pk_type := KEcdsa; pk_bytes := repeat_char 33 c |}.
Definition ex_member (a : addr) (w : N) (c : ascii) : signer := {| sg_addr := a; sg_weight := w; sg_key := ex_pk c |}.
Definition ex_ws (t : N) : worker_set :=
  {| ws_signers := <["w1" := ex_member "w1" 10 "c"]> (<["w2" := ex_member "w2" 20 "a"]> (<["w3" := ex_member "w3" 300 "b"]> ∅));
     ws_threshold := t; ws_created := 5 |}.
Definition ex_dst (e : encoder) : string :=
  "0x" +:+ to_hex (repeat_char match e with Abi => 20 | Bcs => 32 end "d").
Definition ex_message (e : encoder) (n : N) : message :=
  {| m_cc := {| cc_chain := "ethereum"; cc_id := "0xabc:" +:+ dec n |}; m_src := "sender"; m_dchain := "sui";
     m_daddr := ex_dst e; m_hash := repeat_char 32 "h" |}.
Definition ex_msgs (e : encoder) : list message := [ex_message e 1; ex_message e 2; ex_message e 3].
Definition ex_build (e : encoder) (ws : option worker_set) (l : list message) : res perror batch :=
  build_batch ex_keccak ex_wshash ex_sec1 1337 e ws l.
Definition ex_signatures : list (signer * option signature) :=
  [(ex_member "w1" 10 "c", Some (SigEcdsa (repeat_char 64 "s"))); (ex_member "w2" 20 "a", None);
   (ex_member "w3" 300 "b", Some (SigEcdsa (repeat_char 64 "t")))].

(** batches with a transfer and three messages are built, signed over,
    executed and decoded, with both encoders *)
Definition check_batch (e : encoder) : bool :=
  match ex_build e (Some (ex_ws 200)) (ex_msgs e) with
  | Ok b =>
      match encode_data e (b_data b), encode_execute_data ex_keccak ex_sec1 ex_recover b 200 ex_signatures with
      | Ok d, Ok x =>
          bool_decide (length (d_commands (b_data b)) = 4%nat) && bool_decide (decode_data e d = Some (data_view (b_data b))) &&
          match decode_execute e x with
          | Some (d', p) => String.eqb d d' &&
              match decode_proof e p with
              | Some (addrs, ws, q, sigs) => bool_decide (length addrs = 3%nat) && bool_decide (lsum id ws = 330) && (q =? 200) &&
                                             bool_decide (String.length <$> sigs = [65; 65]%nat)
              | None => false
              end
          | None => false
          end
      | _, _ => false
      end
  | _ => false
  end.
Example ex_batches : check_batch Abi = true /\ check_batch Bcs = true.
Proof. split; vm_compute; reflexivity. Qed.
Example ex_hypotheses : set_ok (ex_ws 200) /\ signers_ok 200 ex_signatures /\
  Forall (fun m => String.length (m_hash m) = 32%nat /\ contains ":" (cc_chain (m_cc m)) = false) (ex_msgs Abi ++ ex_msgs Bcs) /\
  Forall event_id (m_cc <$> ex_msgs Abi) /\ Forall plain_id (m_cc <$> ex_msgs Abi).
Proof.
  split; [|split; [|split; [|split]]].
  - split; [reflexivity|]. apply (bool_decide_eq_true_1 (Forall _ _)). vm_compute. reflexivity.
  - split; [reflexivity|]. repeat constructor.
  - repeat constructor.
  - repeat (apply Forall_cons; split; [split; [reflexivity|]|]); [..|apply Forall_nil; exact I]; [exists "0xabc", 1|exists "0xabc", 2|exists "0xabc", 3]; split; reflexivity.
  - repeat constructor.
Qed.
(** batches differing in one message have different digests, and the strings
    hashed do not collide *)
Definition ex_digests (e : encoder) : res perror (string * string * list string) :=
  let? b := ex_build e None (ex_msgs e) in
  let? b' := ex_build e None [ex_message e 1; ex_message e 2; ex_message e 4] in
  let? h := msg_digest ex_keccak b in
  let? h' := msg_digest ex_keccak b' in
  Ok (h, h', hashed ex_keccak b ++ hashed ex_keccak b').
Definition digests_differ (e : encoder) : bool :=
  match ex_digests e with
  | Ok (h, h', l) => negb (String.eqb h h') && forallb (fun x => forallb (fun y =>
      implb (String.eqb (ex_keccak x) (ex_keccak y)) (String.eqb x y)) l) l
  | _ => false
  end.
Example ex_no_collision e : exists h h' l, ex_digests e = Ok (h, h', l) /\ h <> h' /\ no_collision ex_keccak l.
Proof.
  assert (Hc : digests_differ e = true) by (destruct e; vm_compute; reflexivity).
  unfold digests_differ in Hc. destruct (ex_digests e) as [[[h h'] l]| |]; [|discriminate Hc..].
  exists h, h', l. split; [reflexivity|]. clear -Hc.
  apply andb_true_iff in Hc as [Hh Hl]. split.
  - intros ->. rewrite String.eqb_refl in Hh. discriminate Hh.
  - intros x y Hx Hy He. rewrite forallb_forall in Hl. specialize (Hl x (proj1 (elem_of_list_In _ _) Hx)).
    rewrite forallb_forall in Hl. specialize (Hl y (proj1 (elem_of_list_In _ _) Hy)).
    rewrite He, String.eqb_refl in Hl. apply String.eqb_eq. exact Hl.
Qed.

(** two workers that registered the same key are two operators with one
    address *)
Definition ex_shared : worker_set :=
  {| ws_signers := <["w1" := ex_member "w1" 10 "c"]> (<["w2" := ex_member "w2" 20 "c"]> ∅);
     ws_threshold := 20; ws_created := 5 |}.
Lemma ex_shared_dup e : exists o, make_operators ex_keccak ex_sec1 e ex_shared = Ok o /\ length (o_weights o) = 2%nat /\
  ~ strictly_ascending (o_weights o).*1.
Proof.
  destruct e; eexists; (split; [vm_compute; reflexivity|]); (split; [reflexivity|]);
    intros H; inversion H as [|? ? _ Hx]; subst; inversion Hx as [|? ? Hl _]; subst; vm_compute in Hl; discriminate Hl.
Qed.
