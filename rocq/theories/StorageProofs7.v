(** Keys read back from their bytes; keys that cannot be written. *)
From Verif Require Import Base BaseLemmas Text TextLemmas StdModel StdProofs EncodingModel EncodingProofs.
From Verif Require Import RouterTypes StorageModel StorageSpec StorageProofs StorageProofs2 StorageProofs3 StorageProofs6.

Lemma c97_read_back :
  (forall c pre x, with_length "outgoing_messages" = Some pre -> path (gw_message_key c) = Some x ->
     chain_name_of (cc_chain c) = Some (cc_chain c) -> nonempty_string_of (cc_id c) = Some (cc_id c) ->
     exists k, x = pre +:+ k /\ ccid_from_key k = Some c) /\
  (forall n, n < 2 ^ 64 -> poll_id_from_key (u64_key n) = Some n).
Proof.
  split.
  - intros [ch i] pre x Hpre Hx Hc Hi. cbn in Hc, Hi. unfold path, gw_message_key, ccid_parts in Hx. cbn [fst snd cc_chain cc_id with_lengths] in Hx.
    rewrite Hpre in Hx. destruct (with_length ch) as [a|] eqn:Ha; [|done].
    exists (a +:+ i). split.
    + injection Hx as <-. by rewrite !app_assoc_str, ?app_nil_str.
    + unfold ccid_from_key. rewrite (split_key_app ch i a Ha), Hc, Hi. done.
  - intros n Hn. unfold poll_id_from_key. rewrite slen_u64. change (8 =? 8) with true. cbv iota. f_equal. by apply (be_value_bytes 8).
Qed.

Lemma c97_long_parts {V E} L (k : skey) (v : V) (m : gmap string V) :
  proper L = true -> place L k ->
  (fits k -> exists x, path k = Some x) /\
  (~ fits k ->
     raw (V:=V) (E:=E) (Get k Ret) m = Panic /\ raw (E:=E) (Put k v (Ret tt)) m = Panic /\
     raw (E:=E) (Del k (Ret tt)) m = Panic).
Proof.
  intros HL Hk. destruct (place_cases L k HL Hk) as [(x & Hx & Hf)|[Hx Hf]].
  - split; [by exists x|done].
  - split; [done|]. intros _. simpl. by rewrite Hx.
Qed.
