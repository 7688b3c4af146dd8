(** C01, C02: Monero base58. *)
From Coq Require Import String.
From Verif Require Import Py PyLemmas Digits B58Mnr_model B58Mnr_spec B58Mnr_proof.

(** C01: every non-empty byte string encodes, to the text the block-wise
    definition prescribes, and the text decodes back to it. *)
Theorem C01_b58_round_trip : forall bs,
  bytes_ok bs -> bs <> [] ->
  exists s, b58encode_bin bs = Ok s /\ s = spec_encode bs /\ b58decode_bin s = Ok bs /\
    length s = (length bs / 8 * 11 + enc_size (length bs mod 8))%nat.
Proof. exact b58_round_trip. Qed.
Print Assumptions C01_b58_round_trip.

Example C01_case : bytes_ok [18; 0; 255; 7; 1; 2; 3; 4; 5; 6] /\
  b58encode_bin [18; 0; 255; 7; 1; 2; 3; 4; 5; 6] = Ok (codes "41fJFJsqqv31PB"%string).
Proof. split; [apply bytes_okb_spec; reflexivity|vm_compute; reflexivity]. Qed.

(** The hex entry point used by the address code agrees. *)
Theorem C01_b58_hex_round_trip : forall bs,
  bytes_ok bs -> exists s, b58encode_hex (hexlify bs) = Ok s /\ b58decode_str s = Ok bs.
Proof. exact b58_hex_round_trip. Qed.
Print Assumptions C01_b58_hex_round_trip.

(** C02, full statement (a decoded text re-encodes to itself) is false:
    a block spelling 2^64 is accepted and decodes to zeros. *)
Theorem C02_decode_canonical_refuted : exists s1 s2 bs,
  s1 <> s2 /\ b58decode_bin s1 = Ok bs /\ b58decode_bin s2 = Ok bs /\ b58encode_bin bs = Ok s2.
Proof.
  exists (map symbol (be_digits 58 11 (2 ^ 64))), (repeat 49 11), (repeat 0 8).
  split; [|vm_compute; auto]. vm_compute. congruence.
Qed.
Print Assumptions C02_decode_canonical_refuted.

(** C02, what does hold: an accepted text is the encoding of its decoding,
    or one of its full blocks spells exactly 2^64. *)
Theorem C02_decode_canonical_partial : forall s bs,
  b58decode_bin s = Ok bs ->
  b58encode_bin bs = Ok s \/ exists blk, In blk (chunks 11 s) /\ block_spells_2_64 blk.
Proof. exact b58_canonical. Qed.
Print Assumptions C02_decode_canonical_partial.

(** hence two different accepted texts without such a block never decode alike *)
Theorem C02_decode_injective_partial : forall s1 s2 bs,
  b58decode_bin s1 = Ok bs -> b58decode_bin s2 = Ok bs ->
  (forall blk, In blk (chunks 11 s1 ++ chunks 11 s2) -> ~ block_spells_2_64 blk) -> s1 = s2.
Proof. exact b58_injective. Qed.
Print Assumptions C02_decode_injective_partial.

Example C02_case : b58decode_bin (codes "41fJFJsqqv31PB"%string) = Ok [18; 0; 255; 7; 1; 2; 3; 4; 5; 6].
Proof. vm_compute. reflexivity. Qed.
