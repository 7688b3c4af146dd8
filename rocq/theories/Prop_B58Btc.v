(** C05: Bitcoin base58check. *)
From Verif Require Import Py PyLemmas Digits B58Btc_model Addr_spec B58Btc_proof.
From Verif Require Prop_Addr.

Theorem C05_base58_round_trip : forall bs,
  bytes_ok bs -> exists s, b58encode bs = Ok s /\ b58decode s = Ok bs.
Proof. exact btc_round_trip. Qed.
Print Assumptions C05_base58_round_trip.

Theorem C05_base58_canonical : forall s bs,
  b58decode s = Ok bs -> bytes_ok bs /\ b58encode bs = Ok s.
Proof. exact b58decode_inv. Qed.
Print Assumptions C05_base58_canonical.

Theorem C05_base58check_round_trip : forall sha256 bs,
  hash_like sha256 -> bytes_ok bs ->
  exists s, b58encode_check sha256 bs = Ok s /\ b58decode_check sha256 s = Ok bs.
Proof. exact btc_check_round_trip. Qed.
Print Assumptions C05_base58check_round_trip.

Theorem C05_base58check_rejects : forall sha256 s bs,
  hash_like sha256 -> b58decode_check sha256 s = Ok bs ->
  b58decode s = Ok (bs ++ firstn 4 (sha256 (sha256 bs))).
Proof. exact btc_check_reject. Qed.
Print Assumptions C05_base58check_rejects.

Example C05_case : b58encode [0; 0; 1; 2; 255] = Ok [49; 49; 76; 105; 65].
Proof. vm_compute. reflexivity. Qed.
Example C05_hash : hash_like Prop_Addr.toy_hash.
Proof. exact Prop_Addr.toy_hash_like. Qed.
