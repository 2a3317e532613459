(** Signatures in DER as X.690 has them, independently of how they are read. *)
From Verif Require Import Base Text.

Definition one (n : N) : string := String (ascii_of_N n) EmptyString.
(** X.690 8.3: an integer is written in two's complement with as few bytes as
    will do, that is [n] in one byte for each full 8 of its bits, and one more *)
Definition int_bytes (n : N) : string := be_bytes (N.to_nat (N.size n / 8 + 1)) n.
(** X.690 8.1: tag, length, contents *)
Definition tagged (tag : N) (body : string) : string := one tag +:+ one (N.of_nat (String.length body)) +:+ body.
(** RFC 3279 2.2.3: [Ecdsa-Sig-Value ::= SEQUENCE { r INTEGER, s INTEGER }] *)
Definition der_signature (r s : N) : string := tagged 48 (tagged 2 (int_bytes r) +:+ tagged 2 (int_bytes s)).
(** SEC 2: the order of the group *)
Definition secp256k1_n : N :=
  2 ^ 256 - 432420386565659656852420866394968145599.
Definition in_group (n : N) : Prop := 0 < n /\ n < secp256k1_n.
(** the 64 bytes the contracts take *)
Definition fixed_signature (r s : N) : string := be_bytes 32 r +:+ be_bytes 32 s.
