(** C09, C10, C59: properties of monero_glue/xmr/core/mnemonic.py *)
From Coq Require Import String.
From Verif Require Import Py Digits B58Mnr_model B58Mnr_spec Mnemonic_words Mnemonic_model Mnemonic_spec Mnemonic_proof.

(** C09: the words are those of the specification, and decode to the seed (the
    code returns hex text).  [words] is the real list of 1626 words. *)
Theorem C09_mnemonic_round_trip : forall m, bytes_ok m -> zlen m mod 4 = 0 ->
  exists ws, mn_encode words m false = Ok ws /\ ws = spec_words words m /\ zlen ws = 3 * (zlen m / 4) /\
             mn_decode words ws = Ok (hexlify m).
Proof. exact real_round_trip. Qed.
Print Assumptions C09_mnemonic_round_trip.

Theorem C09_mnemonic_round_trip_checksum : forall m, bytes_ok m -> zlen m mod 4 = 0 -> m <> [] ->
  exists ws w, mn_encode words m true = Ok (ws ++ [w]) /\ mn_encode words m false = Ok ws /\ In w ws /\
    mn_decode words (ws ++ [w]) = Ok (hexlify m).
Proof. exact real_round_trip_checksum. Qed.
Print Assumptions C09_mnemonic_round_trip_checksum.

(** words are distinct, already by the prefix used for the checksum *)
Theorem C09_words_distinct : zlen words = 1626 /\ NoDup words /\ NoDup (map (fun w => firstn 3 w) words).
Proof.
  exact (conj words_count (conj words_nodup (eq_ind _ (@NoDup (list Z)) words_prefix_nodup _
     ltac:(vm_compute; reflexivity)))).
Qed.
Print Assumptions C09_words_distinct.

(** C10 is false: the checksum word is never looked at.  For every mnemonic of
    3k words, ANY further word is accepted and ignored. *)
Theorem C10_checksum_ignored_refuted : forall ws w, zlen ws mod 3 = 0 ->
  mn_decode words (ws ++ [w]) = mn_decode words ws.
Proof. exact real_ignores. Qed.
Print Assumptions C10_checksum_ignored_refuted.

(** concretely: the checksum test of the same file says "wrong", decoding accepts *)
Theorem C10_checksum_enforced_refuted : exists ws w s,
  checksum_test (ws ++ [w]) = Ok (false, ws) /\ mn_decode words (ws ++ [w]) = Ok s.
Proof.
  exists (map codes ["abbey"; "abducts"; "ability"]%string), (codes "zoom"%string), (codes "fe5d2800"%string).
  split; vm_compute; reflexivity.
Qed.
Print Assumptions C10_checksum_enforced_refuted.

(** the checksum word produced by the encoder does pass the checksum test *)
Theorem C10_checksum_created_partial : forall m ws, bytes_ok m -> zlen m mod 4 = 0 -> m <> [] ->
  mn_encode words m true = Ok ws -> exists ws', checksum_test ws = Ok (true, ws') /\ mn_encode words m false = Ok ws'.
Proof. exact real_checksum_created. Qed.
Print Assumptions C10_checksum_created_partial.

(** C59: decoding is canonical while every group stands for less than 2^32 ... *)
Theorem C59_mnemonic_canonical_partial : forall ixs : list (Z * Z * Z),
  Forall (fun '(a, b, c) => 0 <= a < 1626 /\ 0 <= b < 1626 /\ 0 <= c < 1626 /\ triple_value 1626 a b c < 2 ^ 32) ixs ->
  let ws := flat_map (fun '(a, b, c) => map (fun i => nth (Z.to_nat i) words []) [a; b; c]) ixs in
  exists m, bytes_ok m /\ mn_decode words ws = Ok (hexlify m) /\ mn_encode words m false = Ok ws.
Proof. exact real_canonical'. Qed.
Print Assumptions C59_mnemonic_canonical_partial.

(** ... and false otherwise: three dictionary words standing for 2^32 or more are
    accepted, the ninth hex digit is dropped, another word triple gives the same seed *)
Theorem C59_mnemonic_canonical_refuted : exists ws s m,
  Forall (fun w => In w words) ws /\ mn_decode words ws = Ok s /\ bytes_ok m /\ s = hexlify m /\
  exists ws', mn_encode words m false = Ok ws' /\ mn_decode words ws' = Ok s /\ ws' <> ws.
Proof. exact canonical_counterexample. Qed.
Print Assumptions C59_mnemonic_canonical_refuted.

Example C09_case : exists ws, mn_encode words (map Z.of_nat (seq 1 32)) true = Ok ws /\ zlen ws = 25 /\
   mn_decode words ws = Ok (hexlify (map Z.of_nat (seq 1 32))).
Proof. eexists. split; [vm_compute; reflexivity|]. split; vm_compute; reflexivity. Qed.
Example C59_case : triple_value 1626 5 9 1000 < 2 ^ 32.
Proof. vm_compute. reflexivity. Qed.
