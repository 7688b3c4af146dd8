(** Byte level of the point encodings. *)
From Verif Require Import Py PyLemmas Digits Ints_model Ints_spec Ints_proof Ints_proof2 Ed25519_model.

Lemma le_digits_snoc n y : le_digits 256 (S n) y = le_digits 256 n y ++ [(y / 256 ^ Z.of_nat n) mod 256].
Proof. rewrite !le_digits_alt, seq_S, map_app. reflexivity. Qed.
Lemma div_pow_shift y b i k : 0 <= i < k -> ((y + 2 ^ k * b) / 2 ^ i) mod 2 = (y / 2 ^ i) mod 2.
Proof.
  intros Hi. replace (2 ^ k * b) with (2 * (2 ^ (k - i - 1) * b) * 2 ^ i).
  - rewrite Z.div_add by (apply Z.pow_nonzero; lia). replace (y / 2 ^ i + 2 * (2 ^ (k - i - 1) * b)) with (y / 2 ^ i + (2 ^ (k - i - 1) * b) * 2) by ring.
    apply Z_mod_plus_full.
  - replace k with (1 + (k - i - 1) + i) at 2 by lia. rewrite !Z.pow_add_r by lia. ring.
Qed.
(** the bit list of [encodepoint] *)
Lemma enc_bits y b : 0 <= y < 2 ^ 255 -> 0 <= b < 2 ->
  map (fun i => Z.land (Z.shiftr y i) 1) (zrange 255) ++ [b] = map (fun i => Z.land (Z.shiftr (y + 2 ^ 255 * b) i) 1) (zrange 256).
Proof.
  intros Hy Hb. assert (E : zrange 256 = zrange 255 ++ [255]) by reflexivity. rewrite E, map_app. f_equal.
  - apply map_ext_in. intros i Hi. apply In_zrange in Hi. rewrite !land1, !Z.shiftr_div_pow2 by lia. symmetry. apply div_pow_shift. lia.
  - cbn [map]. f_equal. rewrite land1, Z.shiftr_div_pow2 by lia. replace (y + 2 ^ 255 * b) with (y + b * 2 ^ 255) by ring.
    rewrite Z.div_add, (Z.div_small y), Z.add_0_l, Z.mod_small; [reflexivity|lia|lia|discriminate].
Qed.
Definition enc_raw (x y : Z) : list Z := le_digits 256 32 (y + 2 ^ 255 * (x mod 2)).
Lemma encodepoint_raw y b : 0 <= y < 2 ^ 255 -> 0 <= b < 2 ->
  mapM (fun i =>
    let* bs := mapM (fun j => let* b := py_get (map (fun i => Z.land (Z.shiftr y i) 1) (zrange 255) ++ [b]) (i * 8 + j) in Ok (Z.shiftl b j)) (zrange 8) in
    Ok (zsum' bs)) (zrange 32) = Ok (le_digits 256 32 (y + 2 ^ 255 * b)).
Proof. intros Hy Hb. rewrite enc_bits by assumption. exact (encodeint_digits (y + 2 ^ 255 * b)). Qed.

(** reading *)
Lemma bit_val s i : 0 <= i -> i / 8 < zlen s -> bit s i = Ok (bitv s i).
Proof.
  intros H0 H. unfold bit. rewrite (py_get_nonneg _ _ (nth (Z.to_nat (i / 8)) s 0)).
  - cbn [bind]. f_equal. rewrite land1, Z.shiftr_div_pow2; [reflexivity|]. apply Z.mod_pos_bound. lia.
  - apply Z.div_pos; lia.
  - apply nth_error_nth'. unfold zlen in H. assert (0 <= i / 8) by (apply Z.div_pos; lia). lia.
Qed.
Lemma bitv_range s i : 0 <= bitv s i < 2.
Proof. apply Z.mod_pos_bound. lia. Qed.
Lemma sum_range s n : 0 <= zsum' (map (fun i => 2 ^ Z.of_nat i * bitv s (Z.of_nat i)) (seq 0 n)) < 2 ^ Z.of_nat n.
Proof.
  induction n as [|n IH]; [split; [reflexivity|reflexivity]|]. rewrite seq_S, map_app, zsum'_app. cbn [map Nat.add].
  change (zsum' [2 ^ Z.of_nat n * bitv s (Z.of_nat n)]) with (2 ^ Z.of_nat n * bitv s (Z.of_nat n)).
  pose proof (bitv_range s (Z.of_nat n)). rewrite Nat2Z.inj_succ, Z.pow_succ_r by lia. nia.
Qed.
Lemma dec_low s : bytes_ok s -> 32 <= zlen s ->
  let V := le_val 256 (firstn 32 s) in
  mapM (fun i => let* b := bit s i in Ok (2 ^ i * b)) (zrange 255) = Ok (map (fun i => 2 ^ i * bitv s i) (zrange 255)) /\
  zsum' (map (fun i => 2 ^ i * bitv s i) (zrange 255)) = V mod 2 ^ 255 /\ bit s 255 = Ok (V / 2 ^ 255).
Proof.
  intros Hb Hs V. split; [|].
  - apply mapM_all_ok. intros i Hi. apply In_zrange in Hi. rewrite bit_val; [reflexivity|lia|lia].
  - assert (E : zsum' (map (fun i => 2 ^ i * bitv s i) (zrange 255)) + 2 ^ 255 * bitv s 255 = V).
    { unfold V. rewrite <- bit_sum; [|unfold zlen in Hs; lia|exact Hb]. change (8 * 32)%nat with 256%nat. rewrite (seq_S 255), map_app, zsum'_app.
      unfold zrange. rewrite map_map. reflexivity. }
    assert (R : 0 <= zsum' (map (fun i => 2 ^ i * bitv s i) (zrange 255)) < 2 ^ 255).
    { unfold zrange. rewrite map_map. exact (sum_range s 255). }
    revert E R. generalize (zsum' (map (fun i => 2 ^ i * bitv s i) (zrange 255))). intros S E R. rewrite <- E.
    replace (S + 2 ^ 255 * bitv s 255) with (S + bitv s 255 * 2 ^ 255) by ring. split.
    + rewrite Z_mod_plus_full, Z.mod_small; [reflexivity|exact R].
    + rewrite Z.div_add by discriminate. rewrite (Z.div_small S) by exact R. rewrite bit_val; [reflexivity|lia|]. change (255 / 8) with 31. lia.
Qed.
Lemma decodepoint_val s : bytes_ok s -> 32 <= zlen s ->
  decodepoint s = (let V := le_val 256 (firstn 32 s) in let y := V mod 2 ^ 255 in
    let x := if negb (Z.land (xrecover y) 1 =? V / 2 ^ 255) then q - xrecover y else xrecover y in
    let P := (x, y, 1, (x * y) mod q) in if isoncurve P then Ok P else Err ValueError).
Proof.
  intros Hb Hs. destruct (dec_low s Hb Hs) as (E1 & E2 & E3). unfold decodepoint. rewrite E1. cbn [bind]. rewrite E2, E3. cbn [bind].
  cbv zeta. destruct (isoncurve _); reflexivity.
Qed.
(** a string shorter than 32 bytes raises *)
Lemma decodepoint_short s : bytes_ok s -> zlen s < 32 -> decodepoint s = Err IndexError.
Proof.
  intros Hb Hs. unfold decodepoint.
  destruct (mapM (fun i => let* b := bit s i in Ok (2 ^ i * b)) (zrange 255)) as [ts|e] eqn:E; cbn [bind].
  - assert (H : bit s 255 = Err IndexError).
    { unfold bit, py_get, py_idx. change (255 / 8) with 31. destruct (Z.leb_spec 0 31); [|lia]. destruct (Z.ltb_spec 31 (zlen s)); [lia|reflexivity]. }
    rewrite H. reflexivity.
  - f_equal. clear Hs. assert (G : forall ls, mapM (fun i => let* b := bit s i in Ok (2 ^ i * b)) ls = Err e -> e = IndexError).
    { induction ls as [|i ls IH]; cbn [mapM]; [discriminate|]. destruct (bit s i) as [b|e'] eqn:Eb; cbn [bind].
      - destruct (mapM _ ls) as [t|e'']; cbn [bind]; [discriminate|]. intros K. apply IH. injection K as ->. reflexivity.
      - intros K. injection K as ->. unfold bit in Eb. destruct (py_get s (i / 8)) as [c|e'] eqn:Eg; cbn [bind] in Eb; [discriminate|].
        unfold py_get in Eg. destruct (py_idx _ _); [destruct (nth_error s n)|]; congruence. }
    rewrite (G _ E). reflexivity.
Qed.
Lemma enc_raw_bytes x y : bytes_ok (enc_raw x y).
Proof. apply digits_ok_256, le_digits_ok. lia. Qed.
Lemma enc_raw_val x y : 0 <= y < 2 ^ 255 -> le_val 256 (enc_raw x y) = y + 2 ^ 255 * (x mod 2).
Proof.
  intros H. unfold enc_raw. rewrite le_val_digits by lia. apply Z.mod_small. change (256 ^ Z.of_nat 32) with (2 * 2 ^ 255).
  assert (0 <= x mod 2 < 2) by (apply Z.mod_pos_bound; lia). lia.
Qed.
