(** A key daemon that answers, refuses, and answers badly. *)
From Verif Require Import Base Text StdModel RouterTypes OperatorsModel MultisigTypes EncodingModel EventsModel HandlersModel HandlersSpec
  HandlersExamples DaemonModel TofndModel TofndSpec.

Definition tx_r : N := 2 ^ 255 + 5.
Definition tx_s : N := 2 ^ 254 + 77.
Definition tx_read (b : string) : option string := if String.eqb b "sec1" then Some "key2" else None.
Definition tx_keygen (q : keygen_request) : reply :=
  if String.eqb (kr_key q) "axelar" && String.eqb (kr_party q) "ampd" then Answer "sec1" else Refusal "no such party".
Definition tx_ask (q : sign_request) : reply :=
  if String.eqb (sq_key q) "multisig" && String.eqb (sq_party q) "ampd" && String.eqb (sq_pub_key q) "key2" then Answer (der_signature tx_r tx_s)
  else if String.eqb (sq_pub_key q) "key1" then Answer (fixed_signature tx_r tx_s)
  else Refusal "no such key".

Lemma tx_in_group : in_group tx_r /\ in_group tx_s.
Proof. repeat split; vm_compute; reflexivity. Qed.
(** 33 and 32 bytes: 30 45 02 21 00 80 ... 05 02 20 40 ... 4d *)
Lemma tx_der : String.length (der_signature tx_r tx_s) = 71%nat /\
  to_hex (stake 6 (der_signature tx_r tx_s)) = "304502210080" /\ to_hex (sdrop 36 (stake 40 (der_signature tx_r tx_s))) = "05022040" /\
  String.eqb (fixed_signature tx_r tx_s) (be_bytes 64 (tx_r * 2 ^ 256 + tx_s)) = true.
Proof. repeat split; vm_compute; reflexivity. Qed.
Lemma tx_reads :
  from_der (der_signature tx_r tx_s) = Some (fixed_signature tx_r tx_s) /\
  from_der (der_signature tx_r tx_s +:+ "x") = None /\
  from_der (fixed_signature tx_r tx_s) = None /\
  from_der (der_signature 0 tx_s) = None /\ from_der (der_signature secp256k1_n tx_s) = None /\
  from_der (tagged 48 (tagged 2 (be_bytes 2 5) +:+ tagged 2 (be_bytes 1 5))) = None /\
  from_der (tagged 48 (tagged 2 (be_bytes 1 200) +:+ tagged 2 (be_bytes 1 5))) = None /\
  from_der (tagged 48 (tagged 2 (be_bytes 2 200) +:+ tagged 2 (be_bytes 1 5))) = Some (fixed_signature 200 5).
Proof. repeat split; vm_compute; reflexivity. Qed.

Definition tx_client : tofnd := client tx_read tx_keygen tx_ask "ampd".
Lemma tx_handler :
  multisig_handler hx_acc hm_key (hm_cfg "w2") true (tf_sign tx_client) hm_event =
    Ok (Some {| wt_sender := "w2"; wt_contract := "multisig"; wt_body := BodySignature 5 (fixed_signature tx_r tx_s) |}) /\
  multisig_handler hx_acc hm_key (hm_cfg "w1") true (tf_sign tx_client) hm_event = Err SignError /\
  multisig_handler hx_acc hm_key (hm_cfg "w3") true (tf_sign tx_client) hm_event = Ok None /\
  worker_key None tx_client {| cf_key_uid := "axelar"; cf_registry := "registry"; cf_handlers := [] |} = Ok "key2" /\
  worker_key None tx_client {| cf_key_uid := "other"; cf_registry := "registry"; cf_handlers := [] |} = Err Task.
Proof. repeat split; vm_compute; reflexivity. Qed.
