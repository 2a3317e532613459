(** Concrete histories of the multisig contract: witnesses for the
    hypotheses of C22-C27 and for the refutation in C22. *)
From Verif Require Import Base BaseLemmas Text StdModel MultisigTypes MultisigModel MultisigSpec.

(** Identifier and verification functions of the examples: worker sets are
    named by their threshold, a signature is good unless it starts with "x". *)
Definition ex_wsid (ws : worker_set) : string := dec (ws_threshold ws).
Definition ex_crypto (t : key_type) (msg sg key : string) : option bool :=
  match sg with String c _ => Some (negb (Ascii.eqb c "x")) | EmptyString => None end.

Fixpoint repeat_char (n : nat) (c : ascii) : string :=
  match n with O => EmptyString | S n => String c (repeat_char n c) end.
Definition ex_key (t : key_type) : public_key :=
  {| pk_type := t; pk_bytes := repeat_char (match t with KEcdsa => 33 | KEd25519 => 32 end) "k" |}.
Definition ex_signer (a : addr) (w : N) (t : key_type) : signer :=
  {| sg_addr := a; sg_weight := w; sg_key := ex_key t |}.
Definition ex_set (threshold : N) : worker_set :=
  {| ws_signers := <["alice" := ex_signer "alice" 2 KEcdsa]>
                     (<["bob" := ex_signer "bob" 3 KEd25519]>
                        (<["carol" := ex_signer "carol" 4 KEcdsa]> ∅));
     ws_threshold := threshold; ws_created := 7 |}.
Definition ex_msg : string := repeat_char 32 "m".

(** Alice and Bob reach the threshold 5 at height 11, Carol signs late, at the
    last block of the grace period 10; Alice's second and Dave's signatures,
    Carol's first and a too late one by nobody are refused. *)
Definition ex_ops (threshold : N) : list mop :=
  [SetCaller "gov" true "prover";
   RegisterWorkerSet "anyone" (ex_set threshold);
   RegisterPublicKey "alice" KEcdsa (repeat_char 33 "a");
   RegisterPublicKey "alice" KEcdsa (repeat_char 65 "b");
   RegisterPublicKey "alice" KEcdsa (repeat_char 34 "c");
   StartSession "prover" (dec threshold) ex_msg "ethereum";
   StartSession "stranger" (dec threshold) ex_msg "ethereum"].
Definition ex_signs : list mop :=
  [SubmitSignature 10 "alice" 1 (repeat_char 64 "s");
   SubmitSignature 10 "alice" 1 (repeat_char 65 "s");
   SubmitSignature 10 "dave" 1 (repeat_char 64 "s");
   SubmitSignature 11 "carol" 1 (repeat_char 64 "x");
   SubmitSignature 11 "bob" 1 (repeat_char 64 "s");
   SubmitSignature 21 "carol" 1 (repeat_char 65 "s")].

Lemma ex_no_collision threshold ops :
  Forall (fun op => match op with RegisterWorkerSet _ ws => ws = ex_set threshold | _ => True end) ops ->
  no_collision ex_wsid ops.
Proof.
  intros H a1 ws1 a2 ws2 H1 H2 _. rewrite Forall_forall in H.
  apply H in H1. apply H in H2. congruence.
Qed.

Lemma ex_no_collision_ops threshold rest :
  Forall (fun op => match op with RegisterWorkerSet _ ws => ws = ex_set threshold | _ => True end) rest ->
  no_collision ex_wsid (ex_ops threshold ++ rest).
Proof.
  intros H. apply (ex_no_collision threshold). apply Forall_app. split; [|done].
  unfold ex_ops. repeat constructor.
Qed.

Notation ex_run := (mrun ex_wsid ex_crypto "gov" "rewards" 10).
Notation ex_log := (mlog ex_wsid ex_crypto "gov" "rewards" 10).

Lemma ex_started threshold rest :
  threshold = 0 \/ threshold = 5 ->
  started_with ex_wsid (ex_log (ex_ops threshold ++ rest)) 1 ex_msg (ex_set threshold).
Proof.
  intros Ht.
  assert (H : started_with ex_wsid (ex_log (ex_ops threshold)) 1 ex_msg (ex_set threshold)).
  { exists "prover", "ethereum", (sg_key <$> ws_signers (ex_set threshold)), "anyone".
    destruct Ht as [-> | ->]; split; vm_compute.
    - right; right; right; right; left.
    - right; left.
    - right; right; right; right; left.
    - right; left. }
  destruct H as (a & chain & keys & b & H1 & H2). exists a, chain, keys, b.
  unfold mlog. rewrite log_app. split; apply elem_of_app; by left.
Qed.

(** C22: threshold zero, nobody signed yet: pending although 0 >= 0. *)
Lemma c22_zero_refuted :
  exists wsid crypto g r p ops id msg ws mu,
    no_collision wsid ops /\ started_with wsid (mlog wsid crypto g r p ops) id msg ws /\
    get_multisig (mrun wsid crypto g r p ops) id = Ok mu /\
    ws_threshold ws <= lsum (weight_in ws) (signed_by (mlog wsid crypto g r p ops) id) /\
    mu_state mu = MPending.
Proof.
  exists ex_wsid, ex_crypto, "gov", "rewards", 10, (ex_ops 0 ++ []), 1, ex_msg, (ex_set 0).
  eexists. split; [apply ex_no_collision_ops; constructor|].
  split; [apply ex_started; by left|].
  split; [vm_compute; reflexivity|]. split; [vm_compute; discriminate|reflexivity].
Qed.

(** The signing history above: what the queries and the log say. *)
Lemma ex_history :
  let ops := ex_ops 5 ++ ex_signs in
  no_collision ex_wsid ops /\
  started_with ex_wsid (ex_log ops) 1 ex_msg (ex_set 5) /\
  signed_by (ex_log ops) 1 = ["alice"; "bob"; "carol"] /\
  completions (ex_log ops) 1 = [11] /\
  started_ids (ex_log ops) = [1] /\
  (exists mu, get_multisig (ex_run ops) 1 = Ok mu /\ mu_state mu = MCompleted 11 /\ mu_quorum mu = 5 /\
     length (omap snd (mu_signers mu)) = 3%nat) /\
  (exists mu, get_multisig (ex_run (ex_ops 5 ++ firstn 4 ex_signs)) 1 = Ok mu /\ mu_state mu = MPending) /\
  authorized (ex_log ops) "prover" /\
  last_key (ex_log ops) "alice" KEcdsa = Some (repeat_char 65 "b") /\
  multisig_step ex_wsid ex_crypto (ex_run (ex_ops 5 ++ firstn 5 ex_signs))
    (SubmitSignature 22 "carol" 1 (repeat_char 65 "s")) = Err SigningSessionClosed.
Proof.
  cbv zeta. split; [apply ex_no_collision_ops; repeat constructor|].
  split; [apply ex_started; by right|].
  split; [vm_compute; reflexivity|]. split; [vm_compute; reflexivity|]. split; [vm_compute; reflexivity|].
  split; [eexists; split; [vm_compute; reflexivity|]; repeat split; vm_compute; reflexivity|].
  split; [eexists; split; [vm_compute; reflexivity|reflexivity]|].
  split; [vm_compute; reflexivity|]. split; vm_compute; reflexivity.
Qed.
