(** Hex text, and what a wallet of the model stands for. *)
From Verif Require Import Py PyLemmas Digits B58Mnr_model B58Mnr_spec B58Mnr_proof Mnemonic_model Mnemonic_proof Ints_model Ints_proof2 Ec_model
  Bip32_model Bip32_spec.

Lemma hex_digit_char d : 0 <= d < 16 -> hex_digit (hex_char d) = Ok d.
Proof.
  intros H. unfold hex_char, hex_digit. destruct (d <? 10) eqn:E.
  - replace ((48 <=? 48 + d) && (48 + d <=? 57)) with true by lia. f_equal. lia.
  - replace ((48 <=? 87 + d) && (87 + d <=? 57)) with false by lia.
    replace ((97 <=? 87 + d) && (87 + d <=? 102)) with true by lia. f_equal. lia.
Qed.
Lemma unhexlify_hexlify bs : bytes_ok bs -> unhexlify (hexlify bs) = Ok bs.
Proof.
  induction bs as [|b bs IH]; intros H; [reflexivity|]. inversion H; subst.
  change (hexlify (b :: bs)) with (hex_char (b / 16) :: hex_char (b mod 16) :: hexlify bs).
  cbn [unhexlify]. unfold byte_ok in *. rewrite !hex_digit_char by lia. cbn [bind].
  rewrite IH by assumption. cbn [bind]. f_equal. f_equal. lia.
Qed.

Lemma bytes_be n v : bytes_ok (be_digits 256 n v).
Proof. apply digits_ok_256, be_digits_ok. lia. Qed.
Lemma hexlify_be n v : 0 <= v -> hexlify (be_digits 256 n v) = map (fun i => hex_char (v / 16 ^ (2 * Z.of_nat n - 1 - i) mod 16)) (zrange (2 * Z.of_nat n)).
Proof.
  revert v; induction n as [|n IH]; intros v Hv; [reflexivity|].
  cbn [be_digits]. rewrite hexlify_app, IH by lia.
  replace (2 * Z.of_nat (S n)) with (2 * Z.of_nat n + 1 + 1) by lia.
  rewrite !zrange_S by lia. rewrite !map_app. cbn [map]. rewrite <- app_assoc. f_equal.
  - apply map_ext_in. intros i Hi. apply In_zrange in Hi.
    replace (2 * Z.of_nat n + 1 + 1 - 1 - i) with (2 + (2 * Z.of_nat n - 1 - i)) by lia.
    rewrite Z.pow_add_r by lia. change (16 ^ 2) with 256. rewrite Z.div_div by lia. reflexivity.
  - cbn [hexlify flat_map app].
    replace (2 * Z.of_nat n + 1 + 1 - 1 - 2 * Z.of_nat n) with 1 by lia.
    replace (2 * Z.of_nat n + 1 + 1 - 1 - (2 * Z.of_nat n + 1)) with 0 by lia.
    change (16 ^ 1) with 16. change (16 ^ 0) with 1. rewrite Z.div_1_r.
    replace (v mod 256 / 16) with (v / 16 mod 16) by lia. replace (v mod 256 mod 16) with (v mod 16) by lia. reflexivity.
Qed.
Lemma long_to_hex_be n v : (0 < n)%nat -> 0 <= v < 256 ^ Z.of_nat n -> long_to_hex v (2 * Z.of_nat n) = hexlify (be_digits 256 n v).
Proof.
  intros Hn [H0 H1]. rewrite hexlify_be by assumption. unfold long_to_hex.
  replace (Z.max (2 * Z.of_nat n) (Z.log2 v / 4 + 1)) with (2 * Z.of_nat n); [reflexivity|].
  assert (Z.log2 v < 8 * Z.of_nat n); [|lia].
  destruct (Z.eq_dec v 0) as [->|]; [change (Z.log2 0) with 0; lia|].
  apply Z.log2_lt_pow2; [lia|]. rewrite Z.pow_mul_r by lia. exact H1.
Qed.

Lemma int16_be n v : 0 <= v < 256 ^ Z.of_nat n -> int16 (hexlify (be_digits 256 n v)) = Ok v.
Proof. intros H. rewrite int16_hexlify by apply bytes_be. rewrite be_val_digits by lia. f_equal. apply Z.mod_small, H. Qed.

(** what is assumed of the operations: lengths of the hashes, coordinates below 2^256, and
    that the library finds a point again from its coordinates or from x and the parity of y *)
Record bops_ok (O : bops) : Prop := {
  ok_hmac : forall k m, length (hmac512 O k m) = 64%nat /\ bytes_ok (hmac512 O k m);
  ok_h160 : forall m, length (hash160 O m) = 20%nat /\ bytes_ok (hash160 O m);
  ok_xy : forall P, 0 <= fst (s_xy O P) < 2 ^ 256 /\ 0 <= snd (s_xy O P);
  ok_point : forall P, s_point O (fst (s_xy O P)) (snd (s_xy O P)) = Ok P;
  ok_lift : forall P, s_lift O (fst (s_xy O P)) (Z.odd (snd (s_xy O P))) = Ok (s_xy O P);
  ok_enc : forall P, length (encp (bE O) P) = 32%nat /\ bytes_ok (encp (bE O) P);
}.

Section B.
Context (O : bops) (OK : bops_ok O).
Notation hmac := (hmac512 O).
Notation point := (fun k => s_xy O (s_base O k)).
Notation h160 := (hash160 O).

Lemma serP_hex P net : pub_key O (QSecp O P net) = hexlify (serP (s_xy O P)).
Proof.
  unfold pub_key, serP. pose proof (ok_xy O OK P) as [Hx Hy]. destruct (s_xy O P) as [x y]. cbn [fst snd] in *.
  change (hexlify ((if Z.odd y then 3 else 2) :: ser256 x)) with (hexlify ([if Z.odd y then 3 else 2] ++ ser256 x)).
  rewrite hexlify_app. f_equal.
  - replace (Z.land y 1) with (if Z.odd y then 1 else 0).
    + destruct (Z.odd y); reflexivity.
    + change 1 with (Z.ones 1) at 2. rewrite Z.land_ones by lia. change (2 ^ 1) with 2. rewrite Zmod_odd. reflexivity.
  - change 64 with (2 * Z.of_nat 32). apply long_to_hex_be; [lia|]. change (256 ^ Z.of_nat 32) with (2 ^ 256). exact Hx.
Qed.
Lemma serP_bytes xy : bytes_ok (serP xy).
Proof. unfold serP. constructor; [unfold byte_ok; destruct (Z.odd _); lia|apply bytes_be]. Qed.
Lemma serP_len xy : length (serP xy) = 33%nat.
Proof. unfold serP. cbn [length]. unfold ser256. rewrite be_digits_length. reflexivity. Qed.

Lemma upto32 k m : py_upto (hmac k m) 32 = left32 (hmac k m) /\ py_from (hmac k m) 32 = right32 (hmac k m) /\
  length (left32 (hmac k m)) = 32%nat /\ length (right32 (hmac k m)) = 32%nat /\ bytes_ok (left32 (hmac k m)) /\ bytes_ok (right32 (hmac k m)).
Proof.
  destruct (ok_hmac O OK k m) as [L B]. set (h := hmac k m) in *. clearbody h.
  assert (L1 : length (left32 h) = 32%nat) by (unfold left32; rewrite firstn_length; lia).
  assert (L2 : length (right32 h) = 32%nat) by (unfold right32; rewrite skipn_length; lia).
  assert (S : h = left32 h ++ right32 h) by (symmetry; apply firstn_skipn).
  unfold bytes_ok in B. rewrite S in B. apply Forall_app in B. destruct B as [B1 B2].
  repeat split; auto.
  - rewrite S at 1. apply py_upto_app. unfold zlen. rewrite L1. reflexivity.
  - rewrite S at 1. apply py_from_app. unfold zlen. rewrite L1. reflexivity.
Qed.
End B.
