(** Concrete stores: the hypotheses of C97 and C98 can be met. *)
From Verif Require Import Base BaseLemmas Text StdModel RouterTypes MultisigTypes RegistryTypes.
From Verif Require Import RouterModel RegistryModel MultisigModel EncodingModel StorageModel StorageSpec.
From Verif Require RouterExamples RegistryExamples MultisigExamples.
Local Open Scope string_scope.
Local Open Scope N_scope.

(** ** Bytes *)
Definition byte (n : N) : string := String (ascii_of_N n) EmptyString.
(** A part is preceded by two bytes of length. *)
Example ex_path :
  path (rt_chain_key "ethereum") = Some (byte 0 +:+ byte 6 +:+ "chains" +:+ "ethereum") /\
  path (rt_index_key "gw" "ethereum") =
    Some (byte 0 +:+ byte 8 +:+ "gateways" +:+ byte 0 +:+ byte 2 +:+ "gw" +:+ "ethereum") /\
  path (ms_session_key 258) =
    Some (byte 0 +:+ byte 16 +:+ "signing_sessions" +:+ byte 0 +:+ byte 0 +:+ byte 0 +:+ byte 0 +:+ byte 0 +:+ byte 0
            +:+ byte 1 +:+ byte 2).
Proof. by vm_compute. Qed.
(** Without the lengths these two would share their bytes. *)
Example ex_parts_apart :
  path (sr_chain_key "ab" "c" "d") <> path (sr_chain_key "a" "bc" "d") /\
  "ab" +:+ "c" +:+ "d" = "a" +:+ "bc" +:+ "d".
Proof. by vm_compute. Qed.
(** The upper bound carries over a last byte 255. *)
Example ex_bound :
  upper_bound (byte 1 +:+ byte 255) = byte 2 +:+ byte 0 /\ upper_bound (byte 1 +:+ byte 7) = byte 1 +:+ byte 8.
Proof. by vm_compute. Qed.
Definition ex_sg (c : ascii) : signature := SigEcdsa (MultisigExamples.repeat_char 64 c).
(** Signatures of session 255 among those of 254, 256 and 511 and other
    entries. *)
Definition ex_sigs : msprog unit :=
  Put MS_CONFIG (MvConfig "gov" "rewards" 10)
    (Put (ms_sig_key 254 "alice") (MvSig (ex_sg "a"))
      (Put (ms_sig_key 255 "bob") (MvSig (ex_sg "b"))
        (Put (ms_sig_key 256 "alice") (MvSig (ex_sg "c"))
          (Put (ms_sig_key 255 "alice") (MvSig (ex_sg "d"))
            (Put (ms_sig_key 511 "bob") (MvSig (ex_sg "e"))
              (Put (ms_caller_key "prover") MvCaller (Ret tt))))))).
Example ex_scan :
  (let? r := raw ex_sigs ∅ in
   let? x := raw (s_sigs 255) r.1 in Ok (map_to_list x.2)) =
  Ok (E:=serr merror) [("bob", ex_sg "b"); ("alice", ex_sg "d")] \/
  (let? r := raw ex_sigs ∅ in
   let? x := raw (s_sigs 255) r.1 in Ok (map_to_list x.2)) =
  Ok (E:=serr merror) [("alice", ex_sg "d"); ("bob", ex_sg "b")].
Proof. vm_compute. by (left + right). Qed.
Example ex_keeps : keeps multisig_layout ex_sigs /\ proper multisig_layout = true.
Proof.
  split; [|by vm_compute]. unfold ex_sigs.
  repeat (split; [simpl; repeat (apply elem_of_cons; first [left; reflexivity | right])|]). done.
Qed.
(** A map has no entry at the start: the empty map is stored as nothing. *)
Example ex_stored_empty : stored multisig_layout (∅ : gmap string msval) ∅.
Proof.
  split.
  - intros k [v Hv]. by rewrite lookup_empty in Hv.
  - intros x v. rewrite lookup_empty. split; [done|]. intros (k & _ & Hk). by rewrite lookup_empty in Hk.
Qed.
(** A leading part of 65536 bytes. *)
Definition ex_long : string := MultisigExamples.repeat_char (N.to_nat 65536) "a".
Lemma ex_long_len : slen ex_long = 65536.
Proof. by vm_compute. Qed.
Example ex_long_panics :
  ~ fits (rt_index_key ex_long "ethereum") /\
  router_bytes_step (router_bytes_init RouterExamples.ex_cfg) (RegisterChain "gov" "ethereum" ex_long) = Panic.
Proof.
  split.
  - intros Hf. apply Forall_inv in Hf. rewrite ex_long_len in Hf. lia.
  - vm_compute. reflexivity.
Qed.

(** ** Histories *)
Example ex_router_ok : Forall router_call_ok (RouterExamples.ex_rops ++ [RouteMessages "gw-eth3" RouterExamples.ex_batch]).
Proof. repeat constructor; vm_compute; reflexivity. Qed.
Definition ex_rbytes : gmap string rtval := run router_bytes_step (router_bytes_init RouterExamples.ex_cfg) RouterExamples.ex_rops.
Example ex_router_bytes :
  ex_rbytes !! (byte 0 +:+ byte 6 +:+ "chainsethereum") =
    Some (RvChain {| ce_name := "ethereum"; ce_gateway := "gw-eth3"; ce_frozen := 0 |}) /\
  ex_rbytes !! (byte 0 +:+ byte 8 +:+ "gateways" +:+ byte 0 +:+ byte 7 +:+ "gw-eth3ethereum") = Some (RvLen 8) /\
  ex_rbytes !! (byte 0 +:+ byte 8 +:+ "gateways" +:+ byte 0 +:+ byte 6 +:+ "gw-ethethereum") = None /\
  length (map_to_list ex_rbytes) = 7%nat /\
  length (log router_bytes_step (router_bytes_init RouterExamples.ex_cfg) RouterExamples.ex_rops) = 6%nat.
Proof. by vm_compute. Qed.
Example ex_registry_ok : Forall registry_call_ok RegistryExamples.ex_more.
Proof. repeat constructor; vm_compute; reflexivity. Qed.
Example ex_registry_bytes :
  (let? x := raw (q_active "amplifier" "ethereum")
               (run registry_bytes_step (registry_bytes_init "gov") RegistryExamples.ex_ops) in Ok (w_addr <$> x.2)) =
  Ok ["w1"; "w2"].
Proof. by vm_compute. Qed.
Example ex_multisig_ok : Forall multisig_call_ok (MultisigExamples.ex_ops 5 ++ MultisigExamples.ex_signs).
Proof. repeat constructor; vm_compute; done. Qed.
Example ex_multisig_bytes :
  match raw (s_multisig 1)
          (run (multisig_bytes_step MultisigExamples.ex_wsid MultisigExamples.ex_crypto)
             (multisig_bytes_init "gov" "rewards" 10) (MultisigExamples.ex_ops 5 ++ MultisigExamples.ex_signs)) with
  | Ok (_, r) => mu_state r = MCompleted 11 /\ length (filter (fun x => is_Some x.2) (mu_signers r)) = 3%nat
  | _ => False
  end.
Proof. by vm_compute. Qed.
