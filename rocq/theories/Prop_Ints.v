(** C43, C44, C46-C49, C62: integer and bit-level helpers. *)
From Verif Require Import Py PyLemmas Digits Ints_model Ints_spec Ints_proof Ints_proof2 Ints_proof3.

(** C43 *)
Theorem C43_field_limbs : forall n,
  length (encode_ed25519 n) = 10%nat /\ limbs_ok bits25 (encode_ed25519 n) /\
  limb_val bits25 (encode_ed25519 n) = n mod q /\
  decode_ed25519 (encode_ed25519 n) = Ok (n mod q).
Proof. exact ed25519_round_trip. Qed.
Print Assumptions C43_field_limbs.
Theorem C43_field_limbs_canonical : forall limbs n,
  limbs_ok bits25 limbs -> decode_ed25519 limbs = Ok n -> n < q -> encode_ed25519 n = limbs.
Proof. exact ed25519_canonical. Qed.
Print Assumptions C43_field_limbs_canonical.
Theorem C43_scalar_limbs : forall n,
  length (encode_modm n) = 9%nat /\ limbs_ok bits30 (encode_modm n) /\
  limb_val bits30 (encode_modm n) = n mod l /\
  decode_modm (encode_modm n) = Ok (n mod l).
Proof. exact modm_round_trip. Qed.
Print Assumptions C43_scalar_limbs.
Theorem C43_scalar_limbs_canonical : forall limbs n,
  limbs_ok bits30 limbs -> decode_modm limbs = Ok n -> n < l -> encode_modm n = limbs.
Proof. exact modm_canonical. Qed.
Print Assumptions C43_scalar_limbs_canonical.
Theorem C43_signed_limbs : forall n,
  length (encode_ed25519_sign n) = 10%nat /\
  (limb_val bits25 (encode_ed25519_sign n) - n) mod q = 0 /\
  Forall2 (fun b y => - 2 ^ (b - 1) <= y <= 2 ^ (b - 1)) bits25 (encode_ed25519_sign n).
Proof. exact encode_sign_val. Qed.
Print Assumptions C43_signed_limbs.
(** signed constants converted to unsigned limbs keep their value modulo 2^255 *)
Theorem C43_constants : forall arr,
  length arr = 10%nat -> Forall2 (fun b x => - 2 ^ b <= x) bits25 arr ->
  exists ls n, encode_edd25519_xmr_const arr = Ok ls /\ decode_ed25519 ls = Ok n /\
    (n - limb_val bits25 arr) mod 2 ^ 255 = 0.
Proof. exact const_decode. Qed.
Print Assumptions C43_constants.
Example C43_case :
  limbs_ok bits25 [5; 33554431; 0; 1; 0; 0; 0; 0; 0; 7] /\
  decode_ed25519 [5; 33554431; 0; 1; 0; 0; 0; 0; 0; 7] = Ok (5 + 2 ^ 26 * 33554431 + 2 ^ 77 + 7 * 2 ^ 230) /\
  encode_edd25519_xmr_const [-1; 0; -5; 3; 0; 0; 0; 0; 0; 0] = Ok [67108863; -1; 67108859; 2; 0; 0; 0; 0; 0; 0].
Proof. split; [repeat constructor; lia|]. vm_compute. split; reflexivity. Qed.

(** C44 *)
Theorem C44_bezout : forall a b,
  exists x y, extended_gcd a b = Ok (Z.gcd a b, x, y) /\ a * x + b * y = Z.gcd a b.
Proof. exact extended_gcd_spec. Qed.
Print Assumptions C44_bezout.
Theorem C44_inverse : forall a m, 0 < m -> Z.gcd a m = 1 ->
  exists r, modinv a m = Ok r /\ 0 <= r < m /\ (a * r) mod m = 1 mod m.
Proof. exact modinv_ok. Qed.
Print Assumptions C44_inverse.
Theorem C44_no_inverse : forall a m, Z.gcd a m <> 1 -> modinv a m = Err ValueError.
Proof. exact modinv_fail. Qed.
Print Assumptions C44_no_inverse.
Example C44_case : Z.gcd 7 l = 1 /\ Z.gcd 6 9 <> 1 /\ modinv 7 40 = Ok 23.
Proof. vm_compute. repeat split; discriminate. Qed.

(** C46 *)
Theorem C46_round_trip : forall v off pre, 0 <= v < l -> zlen pre = off -> bytes_ok pre ->
  exists bs, encodeint v = Ok bs /\ length bs = 32%nat /\ bytes_ok bs /\ le_int bs = v /\
    forall rest, bytes_ok rest -> decodeint (pre ++ bs ++ rest) off = Ok v.
Proof. exact scalar_round_trip. Qed.
Print Assumptions C46_round_trip.
Theorem C46_decode : forall bs, bytes_ok bs -> length bs = 32%nat ->
  decodeint bs 0 = Ok (le_int bs mod l) /\ decodeint_noreduce bs 0 = Ok (le_int bs).
Proof. exact decodeint_reduces. Qed.
Print Assumptions C46_decode.
Theorem C46_short : forall bs, bytes_ok bs -> (length bs < 32)%nat -> decodeint bs 0 = Err IndexError.
Proof. exact decodeint_short. Qed.
Print Assumptions C46_short.
Theorem C46_injective : forall a b bs, 0 <= a < 2 ^ 256 -> 0 <= b < 2 ^ 256 ->
  encodeint a = Ok bs -> encodeint b = Ok bs -> a = b.
Proof. exact encodeint_inj. Qed.
Print Assumptions C46_injective.
Theorem C46_check : forall v, (sc_check v = 0 <-> 0 < v < l) /\ (sc_check v = 0 \/ sc_check v = -1).
Proof. exact sc_check_spec. Qed.
Print Assumptions C46_check.
Example C46_case : encodeint 66051 = Ok ([3; 2; 1] ++ repeat 0 29) /\ decodeint (repeat 255 32) 0 = Ok ((2 ^ 256 - 1) mod l).
Proof. vm_compute. split; reflexivity. Qed.

(** C47 *)
Theorem C47_stream : forall H seed reqs n, (forall x, length (H x) = 32%nat) ->
  Forall (fun n => 0 <= n) reqs -> 0 <= n -> fold_right Z.add 0 reqs + n + 1 < 2 ^ 256 ->
  exists p p' out full, after H seed reqs = Ok p /\ prng_next H p n = Ok (p', out) /\
    zlen out = n /\ keystream H seed (fold_right Z.add 0 (map blocks reqs)) (Z.to_nat (blocks n)) full /\
    out = firstn (Z.to_nat n) full.
Proof. exact prng_history. Qed.
Print Assumptions C47_stream.
(** whole blocks compose, and "rewind" skips exactly that many bytes forward *)
Theorem C47_split : forall H seed reqs j n, (forall x, length (H x) = 32%nat) ->
  Forall (fun n => 0 <= n) reqs -> 0 <= n -> 0 <= j -> fold_right Z.add 0 reqs + 32 * j + n + 1 < 2 ^ 256 ->
  exists p p1 p2 a b, after H seed reqs = Ok p /\ prng_next H p (32 * j) = Ok (p1, a) /\
    prng_rewind H p (32 * j) = Ok p1 /\ prng_next H p1 n = Ok (p2, b) /\
    prng_next H p (32 * j + n) = Ok (p2, a ++ b).
Proof. exact prng_split. Qed.
Print Assumptions C47_split.
Theorem C47_reset : forall H reqs seed p, (forall x, length (H x) = 32%nat) ->
  Forall (fun n => 0 <= n) reqs -> fold_right Z.add 0 reqs + 1 < 2 ^ 256 ->
  after H seed reqs = Ok p -> prng_reset p None = prng_new seed /\ forall s, prng_reset p (Some s) = prng_new s.
Proof. exact prng_seed_kept. Qed.
Print Assumptions C47_reset.

(** a hash for the examples: byte reversal cut to 32 bytes *)
Definition ex_hash (x : list Z) : list Z := map (fun b => b mod 256) (firstn 32 (rev x ++ repeat 0 32)).
Lemma ex_hash_len x : length (ex_hash x) = 32%nat.
Proof. unfold ex_hash. rewrite map_length, firstn_length, app_length, repeat_length. lia. Qed.
Lemma ex_hash_bytes x : bytes_ok (ex_hash x).
Proof. apply Forall_forall. intros b Hb. apply in_map_iff in Hb as (c & <- & _). unfold byte_ok. lia. Qed.
Example C47_case : exists p, after ex_hash [1; 2; 3] [40; 0; 5] = Ok p /\ pr_ctr p = 3.
Proof. eexists. vm_compute. split; reflexivity. Qed.
(** unaligned requests are not seamless: the rest of the last block is thrown away *)
Theorem C47_unaligned_discards : exists seed a b p1 p2 p3 x y z,
  prng_next ex_hash (prng_new seed) a = Ok (p1, x) /\ prng_next ex_hash p1 b = Ok (p2, y) /\
  prng_next ex_hash (prng_new seed) (a + b) = Ok (p3, z) /\ z <> x ++ y.
Proof.
  exists [7], 1, 1. eexists _, _, _, _, _, _.
  split; [vm_compute; reflexivity|]. split; [vm_compute; reflexivity|]. split; [vm_compute; reflexivity|]. discriminate.
Qed.
Print Assumptions C47_unaligned_discards.

(** C62: after index 0 has been read once, any order of reads of the random
    mask vector returns, at index i, the i-th block reduced modulo l. *)
Theorem C62_mask_vector_partial : forall H seed size is_, (forall x, length (H x) = 32%nat) -> (forall x, bytes_ok (H x)) ->
  0 < size < 2 ^ 64 -> Forall (fun i => 0 <= i < size) is_ ->
  exists m' vs, reads H (pmask_new size seed true) (0 :: is_) = Ok (m', vs) /\
    Forall2 (fun i v => exists c, is_ctr32 (i + 1) c /\ v = le_int (H (seed ++ c)) mod l) (0 :: is_) vs.
Proof. exact mask_vector. Qed.
Print Assumptions C62_mask_vector_partial.
(** without that first read the vector is off by one *)
Theorem C62_first_read_refuted : exists seed size i m v m1 m2 v1 v2,
  pmask_get ex_hash (pmask_new size seed true) i = Ok (m, v) /\
  pmask_get ex_hash (pmask_new size seed true) 0 = Ok (m1, v1) /\
  pmask_get ex_hash m1 i = Ok (m2, v2) /\ v <> v2.
Proof.
  exists [7], 4, 1. eexists _, _, _, _, _, _.
  split; [vm_compute; reflexivity|]. split; [vm_compute; reflexivity|]. split; [vm_compute; reflexivity|]. discriminate.
Qed.
Print Assumptions C62_first_read_refuted.
Example C62_case : exists m vs, reads ex_hash (pmask_new 8 [9] true) [0; 5; 2; 2; 3] = Ok (m, vs) /\ length vs = 5%nat.
Proof. eexists _, _. split; vm_compute; reflexivity. Qed.

(** C48 *)
Theorem C48_seed_words : forall sha256 secret j cs,
  bytes_ok secret -> zlen secret = 4 * j -> 1 <= j <= 8 -> byte_ok cs -> firstn 1 (sha256 secret) = [cs] ->
  let I := to_seed_indices sha256 secret in
  zlen I = 3 * j /\ Forall (fun w => 0 <= w < 2048) I /\
  be_words 11 I = be_int secret * 2 ^ j + cs / 2 ^ (8 - j) /\
  (indices_to_bytes I 11 = Ok (if j =? 8 then secret ++ [cs] else secret)).
Proof. exact to_seed_indices_spec. Qed.
Print Assumptions C48_seed_words.
Theorem C48_round_trip : forall bits seed, 8 <= bits <= 15 -> seed <> [] -> bytes_ok seed ->
  exists out, indices_to_bytes (bytes_to_indices seed bits) bits = Ok out /\
    ((8 * (zlen seed - 1)) mod bits + 8 <= bits -> out = seed) /\
    (bits < (8 * (zlen seed - 1)) mod bits + 8 -> 1 < zlen seed -> out = removelast seed).
Proof. exact bip39_round_trip. Qed.
Print Assumptions C48_round_trip.
Theorem C48_unpack : forall bits I, 1 <= bits -> I <> [] -> Forall (fun w => 0 <= w < 2 ^ bits) I ->
  exists out, indices_to_bytes I bits = Ok out /\ bytes_ok out /\
    zlen out = bits * zlen I / 8 /\ be_int out = be_words bits I / 2 ^ ((bits * zlen I) mod 8).
Proof. exact indices_to_bytes_spec. Qed.
Print Assumptions C48_unpack.
Example C48_case : bytes_to_indices [0; 255; 16; 32] 11 = [7; 1988; 64] /\ (8 * (zlen [0; 255; 16; 32] - 1)) mod 11 = 2.
Proof. vm_compute. split; reflexivity. Qed.

(** C49 *)
Theorem C49_height : forall ts height date, 0 < height ->
  (exists r, height_by_date ts height date = Ok r /\ 0 <= r < height /\ (r = 0 \/ ts r < date) /\
     ((exists h, r <= h <= r + 1440 /\ h < height /\ date <= ts h) \/ date <= ts r + 172800 \/
      exists a b, r <= a < b /\ b < height /\ ts b < ts a)) \/
  (height_by_date ts height date = Err ValueError /\ ts (height - 1) < date).
Proof. exact height_spec. Qed.
Print Assumptions C49_height.
Example C49_case : height_by_date (fun h => 120 * h) 100000 6000000 = Ok 49999.
Proof. vm_compute. reflexivity. Qed.
