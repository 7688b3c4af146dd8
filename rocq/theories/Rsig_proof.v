From Verif Require Import Py PyLemmas Digits Ints_model Protobuf_model Ec_model Ec_spec Ec_proof Sigs_proof Mlsag_model Mlsag_spec Mlsag_proof Clsag_proof KeySep_proof Borromean_model Borromean_proof Rsig_model Rsig_spec.

(** ** flattened Borromean proofs *)
Lemma key_zlen k : key k -> 32 = zlen k.
Proof. unfold key, zlen. intros ->. reflexivity. Qed.
Lemma take_keys_ok ks : Forall key ks -> forall n r, length ks = n -> take_keys n (concat ks ++ r) = (ks, r).
Proof.
  intros F. induction F as [|k ks Hk F IH]; intros n r <-; cbn [length take_keys concat app]; [reflexivity|].
  rewrite <- app_assoc, py_upto_app, py_from_app by (apply key_zlen, Hk). rewrite (IH _ r eq_refl). reflexivity.
Qed.
Lemma inflate_flatten r junk : rsig_keys r -> inflate_rsig (flatten_rsig r ++ junk) = r.
Proof.
  intros (L0 & L1 & Lc & F). apply Forall_app in F. destruct F as [F0 F]. apply Forall_app in F. destruct F as [F1 F].
  inversion F as [|? ? Fe Fc]; subst. unfold inflate_rsig, flatten_rsig. rewrite <- !app_assoc.
  rewrite (take_keys_ok _ F0) by exact L0. rewrite (take_keys_ok _ F1) by exact L1.
  rewrite py_upto_app, py_from_app by (apply key_zlen, Fe). rewrite (take_keys_ok _ Fc) by exact Lc. destruct r; reflexivity.
Qed.

Section P.
Context (E : ecops) (L : ec_laws E) (Le : forall P, length (encp E P) = 32%nat).
Lemma enc_sc_key v : key (enc_sc v).
Proof. apply le_digits_length. Qed.
Lemma encode_keys r : length (rs_s0 E r) = 64%nat -> length (rs_s1 E r) = 64%nat -> length (rs_Ci E r) = 64%nat -> rsig_keys (encode_rangesig E r).
Proof.
  intros L0 L1 Lc. unfold rsig_keys, encode_rangesig. cbn [rb_s0 rb_s1 rb_ee rb_Ci]. rewrite !map_length.
  repeat split; try assumption. rewrite !Forall_app. repeat split; [| |constructor];
    try (apply Forall_forall; intros x Hx; apply in_map_iff in Hx; destruct Hx as (y & <- & _); apply enc_sc_key || apply Le); apply enc_sc_key.
Qed.
Lemma dec_enc_sc v : scalar v -> dec_sc (enc_sc v) = v.
Proof. intros H. unfold dec_sc. rewrite enc_sc_val by exact H. apply scalar_small, H. Qed.
Lemma decode_encode r : Forall scalar (rs_s0 E r) -> Forall scalar (rs_s1 E r) -> scalar (rs_ee E r) ->
  decode_rangesig E (encode_rangesig E r) = Ok r.
Proof.
  intros F0 F1 Fe. unfold decode_rangesig, encode_rangesig. cbn [rb_s0 rb_s1 rb_ee rb_Ci].
  assert (M : mapM (decp E) (map (encp E) (rs_Ci E r)) = Ok (rs_Ci E r)).
  { induction (rs_Ci E r) as [|c cs IH]; [reflexivity|]. cbn [map mapM]. rewrite (law_dec E L). cbn [bind]. rewrite IH. reflexivity. }
  rewrite M. cbn [bind]. f_equal. destruct r as [Ci s0 s1 ee]. cbn [rs_s0 rs_s1 rs_ee rs_Ci] in *.
  assert (Z0 : forall xs, Forall scalar xs -> map dec_sc (map enc_sc xs) = xs).
  { intros xs F. induction F as [|x xs Hx F IH]; [reflexivity|]. cbn [map]. rewrite dec_enc_sc, IH by exact Hx. reflexivity. }
  rewrite !Z0, dec_enc_sc by assumption. reflexivity.
Qed.
End P.

(** ** bulletproofs *)
Lemma memcpy32_ok pre src z : key src -> (32 <= z)%nat ->
  memcpy32 (pre ++ repeat 0 z) (zlen pre) src = Ok ((pre ++ src) ++ repeat 0 (z - 32)).
Proof.
  intros K Hz. unfold memcpy32. change 32 with (Z.of_nat 32).
  rewrite (foldM_memcpy src 32 pre src z); [rewrite <- app_assoc; reflexivity|rewrite K; lia|rewrite <- K; symmetry; apply firstn_all|rewrite K; lia].
Qed.
Lemma foldM_app_err {A S0} (f : S0 -> A -> res S0) a b s e : foldM f a s = Err e -> foldM f (a ++ b) s = Err e.
Proof.
  revert s. induction a as [|x a IH]; intros s H; cbn [foldM app] in *; [discriminate|].
  destruct (f s x); cbn [bind] in *; [apply IH, H|exact H].
Qed.
Lemma memcpy32_err pre src z : key src -> (z < 32)%nat -> memcpy32 (pre ++ repeat 0 z) (zlen pre) src = Err IndexError.
Proof.
  intros K Hz. unfold memcpy32.
  set (f := fun dst i => let* v := py_get src i in py_set dst (zlen pre + i) v).
  assert (Hf : forall n, (n <= z)%nat -> foldM f (zrange (Z.of_nat n)) (pre ++ repeat 0 z) = Ok (pre ++ firstn n src ++ repeat 0 (z - n))).
  { induction n as [|n IH]; intros Hn; [cbn; rewrite Nat.sub_0_r; reflexivity|].
    replace (Z.of_nat (S n)) with (Z.of_nat n + 1) by lia. rewrite zrange_S by lia. rewrite foldM_app.
    rewrite IH by lia. cbn [bind foldM]. destruct (nth_error src n) as [x|] eqn:E; [|apply nth_error_None in E; unfold key in K; lia].
    unfold f at 1. rewrite (py_get_nonneg src (Z.of_nat n) x) by (try lia; now rewrite Nat2Z.id). cbn [bind].
    replace (z - n)%nat with (S (z - S n)) by lia. cbn [repeat].
    rewrite app_assoc. rewrite (PyLemmas.py_set_mid (pre ++ firstn n src) 0 (repeat 0 (z - S n)) x).
    - cbn [bind]. rewrite (firstn_S_nth src n x E). f_equal. rewrite <- !app_assoc. reflexivity.
    - rewrite zlen_app. unfold zlen. rewrite firstn_length. unfold key in K. lia. }
  assert (Hs : exists b, zrange 32 = zrange (Z.of_nat z) ++ Z.of_nat z :: b).
  { exists (map Z.of_nat (seq (S z) (31 - z))). unfold zrange. rewrite Nat2Z.id. change (Z.to_nat 32) with 32%nat.
    change (Z.of_nat z :: map Z.of_nat (seq (S z) (31 - z))) with (map Z.of_nat (z :: seq (S z) (31 - z))).
    rewrite <- map_app. f_equal. change (z :: seq (S z) (31 - z)) with (seq z (S (31 - z))).
    replace (seq z) with (seq (0 + z)) by reflexivity. rewrite <- seq_app. f_equal. lia. }
  destruct Hs as [b Hs]. rewrite Hs. rewrite foldM_app, Hf by lia. cbn [bind foldM].
  destruct (nth_error src z) as [x|] eqn:E; [|apply nth_error_None in E; unfold key in K; lia].
  unfold f at 1. rewrite (py_get_nonneg src (Z.of_nat z) x) by (try lia; now rewrite Nat2Z.id). cbn [bind].
  rewrite Nat.sub_diag. cbn [repeat]. rewrite app_nil_r.
  replace (zlen pre + Z.of_nat z) with (zlen (pre ++ firstn z src)).
  2: { rewrite zlen_app. unfold zlen. rewrite firstn_length. unfold key in K. lia. }
  rewrite py_set_end. reflexivity.
Qed.
Lemma zlen_key pre k : key k -> zlen (pre ++ k) = zlen pre + 32.
Proof. intros K. rewrite zlen_app. rewrite <- (key_zlen k K). reflexivity. Qed.
Lemma put_keys_ok ks : Forall key ks -> forall pre z, (32 * length ks <= z)%nat ->
  put_keys (pre ++ repeat 0 z) (zlen pre) ks = Ok ((pre ++ concat ks) ++ repeat 0 (z - 32 * length ks), zlen (pre ++ concat ks)).
Proof.
  intros F. induction F as [|k ks K F IH]; intros pre z Hz.
  - cbn [put_keys concat length]. rewrite app_nil_r. do 3 f_equal. f_equal. lia.
  - cbn [put_keys concat length] in *. rewrite memcpy32_ok by (assumption || lia). cbn [bind].
    rewrite <- (zlen_key pre k K). rewrite IH by lia. rewrite <- !app_assoc. do 5 f_equal. f_equal. lia.
Qed.
Lemma put_keys_err ks : Forall key ks -> forall pre z, (z < 32 * length ks)%nat ->
  put_keys (pre ++ repeat 0 z) (zlen pre) ks = Err IndexError.
Proof.
  intros F. induction F as [|k ks K F IH]; intros pre z Hz; cbn [length] in Hz; [lia|].
  cbn [put_keys]. destruct (Nat.le_gt_cases 32 z) as [H|H].
  - rewrite memcpy32_ok by assumption. cbn [bind]. rewrite <- (zlen_key pre k K). apply IH. lia.
  - rewrite memcpy32_err by assumption. reflexivity.
Qed.
Lemma put_keys_app a : forall b buff off, put_keys buff off (a ++ b) = let* (buff, off) := put_keys buff off a in put_keys buff off b.
Proof.
  induction a as [|k a IH]; intros b buff off; [reflexivity|]. cbn [put_keys app]. destruct (memcpy32 buff off k); [|reflexivity].
  cbn [bind]. apply IH.
Qed.
Lemma put_byte_ok pre v z : byte_ok v -> (0 < z)%nat -> put_byte (pre ++ repeat 0 z) (zlen pre) v = Ok ((pre ++ [v]) ++ repeat 0 (z - 1)).
Proof.
  intros B Hz. unfold put_byte. replace (byte_okb v) with true by (symmetry; unfold byte_okb, byte_ok in *; apply andb_true_iff; split; [apply Z.leb_le|apply Z.ltb_lt]; lia).
  cbn [guard bind]. destruct z as [|z]; [lia|]. cbn [repeat]. rewrite (PyLemmas.py_set_mid pre 0 (repeat 0 z) v) by reflexivity.
  rewrite <- app_assoc. cbn [app]. do 4 f_equal. lia.
Qed.

(** the dump in terms of put_keys *)
Lemma put1 buff off k : (let* b := memcpy32 buff off k in Ok b) = let* (b, _) := put_keys buff off [k] in Ok b.
Proof. cbn [put_keys]. destruct (memcpy32 buff off k); reflexivity. Qed.
Definition wire (p : bulletproof) : list Z :=
  concat [bp_A p; bp_S p; bp_T1 p; bp_T2 p; bp_taux p; bp_mu p] ++ zlen (bp_L p) :: concat (bp_L p) ++
  zlen (bp_R p) :: concat (bp_R p ++ [bp_a p; bp_b p; bp_t p]).
Lemma dump_as_keys p : dump_rsig_bp p =
  let* _ := guard (zlen (bp_L p) <=? 127) ValueError in
  let* (buff, off) := put_keys (repeat 0 (Z.to_nat (32 * (9 + 2 * zlen (bp_L p)) + 2))) 0 [bp_A p; bp_S p; bp_T1 p; bp_T2 p; bp_taux p; bp_mu p] in
  let* buff := put_byte buff off (zlen (bp_L p)) in
  let* (buff, off) := put_keys buff (off + 1) (bp_L p) in
  let* buff := put_byte buff off (zlen (bp_R p)) in
  let* (buff, off) := put_keys buff (off + 1) (bp_R p ++ [bp_a p; bp_b p; bp_t p]) in Ok buff.
Proof.
  unfold dump_rsig_bp. destruct (guard _ _); [|reflexivity]. cbn [bind put_keys].
  change (0 + 32 + 32 + 32 + 32 + 32 + 32) with (32 * 6). change (0 + 32 + 32 + 32 + 32 + 32) with (32 * 5).
  change (0 + 32 + 32 + 32 + 32) with (32 * 4). change (0 + 32 + 32 + 32) with (32 * 3). change (0 + 32 + 32) with (32 * 2). change (0 + 32) with 32.
  destruct (memcpy32 _ 0 (bp_A p)); [cbn [bind]|reflexivity]. destruct (memcpy32 _ 32 (bp_S p)); [cbn [bind]|reflexivity].
  destruct (memcpy32 _ _ (bp_T1 p)); [cbn [bind]|reflexivity]. destruct (memcpy32 _ _ (bp_T2 p)); [cbn [bind]|reflexivity].
  destruct (memcpy32 _ _ (bp_taux p)); [cbn [bind]|reflexivity]. destruct (memcpy32 _ _ (bp_mu p)); [cbn [bind]|reflexivity].
  destruct (put_byte _ _ _); [|reflexivity]. cbn [bind].
  destruct (put_keys _ _ (bp_L p)) as [[b o]|]; [|reflexivity]. cbn [bind].
  destruct (put_byte _ _ _); [|reflexivity]. cbn [bind]. rewrite put_keys_app.
  destruct (put_keys _ _ (bp_R p)) as [[b' o']|]; [|reflexivity]. cbn [bind put_keys].
  destruct (memcpy32 b' o' (bp_a p)); [|reflexivity]. cbn [bind].
  destruct (memcpy32 _ _ (bp_b p)); [|reflexivity]. cbn [bind].
  destruct (memcpy32 _ _ (bp_t p)); reflexivity.
Qed.
Lemma concat_keys_len ks : Forall key ks -> length (concat ks) = (32 * length ks)%nat.
Proof. intros F. induction F as [|k ks K F IH]; [reflexivity|]. cbn [concat length]. rewrite app_length, IH, K. lia. Qed.

Lemma dump_ok p : bp_keys p -> (length (bp_L p) <= 127)%nat -> (length (bp_R p) <= length (bp_L p))%nat ->
  dump_rsig_bp p = Ok (wire p ++ repeat 0 (32 * (length (bp_L p) - length (bp_R p)))).
Proof.
  intros K HL HR. unfold bp_keys in K. rewrite !Forall_app in K. destruct K as (K1 & K2 & K3 & K4).
  rewrite dump_as_keys. rewrite (proj2 (Z.leb_le _ _)) by (unfold zlen; lia). cbn [guard bind].
  set (z := Z.to_nat _).
  assert (Ez : z = (32 * (9 + 2 * length (bp_L p)) + 2)%nat) by (unfold z, zlen; lia). clearbody z.
  change (put_keys (repeat 0 z) 0) with (put_keys ([] ++ repeat 0 z) (zlen (@nil Z))). rewrite (put_keys_ok _ K1 [] z) by (cbn [length]; lia). cbn [bind]. rewrite put_byte_ok by (unfold byte_ok, zlen; cbn [length]; lia).
  cbn [bind]. match goal with |- context[put_keys (?pre ++ repeat 0 _) (zlen ?q + 1) (bp_L p)] => replace (zlen q + 1) with (zlen pre) by (rewrite (zlen_app q); reflexivity) end.
  rewrite (put_keys_ok _ K2) by (cbn [length]; lia). cbn [bind].
  rewrite put_byte_ok by (unfold byte_ok, zlen; cbn [length]; lia). cbn [bind].
  match goal with |- context[put_keys (?pre ++ repeat 0 _) (zlen ?q + 1) (bp_R p ++ _)] => replace (zlen q + 1) with (zlen pre) by (rewrite (zlen_app q); reflexivity) end.
  rewrite put_keys_ok by (try (rewrite app_length; cbn [length]; lia); apply Forall_app; split; assumption). cbn [bind].
  f_equal. f_equal; [unfold wire; rewrite <- !app_assoc; reflexivity|].
  f_equal. rewrite app_length. cbn [length]. lia.
Qed.
Lemma dump_too_long p : (127 < length (bp_L p))%nat -> dump_rsig_bp p = Err ValueError.
Proof. intros H. rewrite dump_as_keys. rewrite (proj2 (Z.leb_gt _ _)) by (unfold zlen; lia). reflexivity. Qed.
Lemma dump_bad_R p : bp_keys p -> (length (bp_L p) <= 127)%nat -> (length (bp_L p) < length (bp_R p))%nat ->
  dump_rsig_bp p = Err (if (length (bp_R p) <=? 255)%nat then IndexError else ValueError).
Proof.
  intros K HL HR. unfold bp_keys in K. rewrite !Forall_app in K. destruct K as (K1 & K2 & K3 & K4).
  rewrite dump_as_keys. rewrite (proj2 (Z.leb_le _ _)) by (unfold zlen; lia). cbn [guard bind].
  set (z := Z.to_nat _).
  assert (Ez : z = (32 * (9 + 2 * length (bp_L p)) + 2)%nat) by (unfold z, zlen; lia). clearbody z.
  change (put_keys (repeat 0 z) 0) with (put_keys ([] ++ repeat 0 z) (zlen (@nil Z))). rewrite (put_keys_ok _ K1 [] z) by (cbn [length]; lia). cbn [bind]. rewrite put_byte_ok by (unfold byte_ok, zlen; cbn [length]; lia).
  cbn [bind]. match goal with |- context[put_keys (?pre ++ repeat 0 _) (zlen ?q + 1) (bp_L p)] => replace (zlen q + 1) with (zlen pre) by (rewrite (zlen_app q); reflexivity) end.
  rewrite (put_keys_ok _ K2) by (cbn [length]; lia). cbn [bind].
  destruct (Nat.leb_spec (length (bp_R p)) 255) as [H|H].
  - rewrite put_byte_ok by (unfold byte_ok, zlen; cbn [length]; lia). cbn [bind].
    match goal with |- context[put_keys (?pre ++ repeat 0 _) (zlen ?q + 1) (bp_R p ++ _)] => replace (zlen q + 1) with (zlen pre) by (rewrite (zlen_app q); reflexivity) end.
    rewrite put_keys_err by (try (rewrite app_length; cbn [length]; lia); apply Forall_app; split; assumption). reflexivity.
  - unfold put_byte, byte_okb. rewrite (proj2 (Z.ltb_ge _ _)) by (unfold zlen; lia). rewrite andb_false_r. reflexivity.
Qed.

(** ** reading *)
Lemma read_key_ok k r : key k -> read_key (k ++ r) = Ok (k, r).
Proof.
  intros K. unfold read_key. rewrite app_length, K. rewrite (proj2 (Nat.leb_le 32 _)) by lia.
  rewrite <- K. rewrite firstn_app, firstn_all, skipn_app, skipn_all, Nat.sub_diag. cbn [firstn skipn app]. rewrite app_nil_r. reflexivity.
Qed.
Lemma read_keys_ok ks : Forall key ks -> forall r, read_keys (length ks) (concat ks ++ r) = Ok (ks, r).
Proof.
  intros F. induction F as [|k ks K F IH]; intros r; [reflexivity|]. cbn [length read_keys concat]. rewrite <- app_assoc, read_key_ok by exact K.
  cbn [bind]. rewrite IH. reflexivity.
Qed.
Lemma read_counted_ok ks r : Forall key ks -> (length ks <= 127)%nat -> read_counted (zlen ks :: concat ks ++ r) = Ok (ks, r).
Proof.
  intros F H. unfold read_counted, read_varint, load_uvarint_exn, load_uvarint. cbn [rest limits load_uvarint_from existsb map].
  assert (B : 0 <= zlen ks < 128) by (unfold zlen; lia).
  replace (Z.land (zlen ks) 128) with 0.
  2: { symmetry. apply Z.bits_inj'. intros n Hn. rewrite Z.land_spec, Z.bits_0. change 128 with (2 ^ 7). rewrite Z.pow2_bits_eqb by lia.
       destruct (Z.eqb_spec 7 n) as [<-|]; [|apply andb_false_r]. rewrite andb_true_r. apply (proj2 (Z.bits_above_log2 _ _)) || idtac.
       destruct (Z.eq_dec (zlen ks) 0) as [->|Hz]; [apply Z.bits_0|]. apply Z.bits_above_log2; [lia|]. apply Z.log2_lt_pow2; lia. }
  cbn [Z.eqb bind rest]. rewrite Z.shiftl_0_r, Z.add_0_l. change 127 with (Z.ones 7). rewrite Z.land_ones by lia.
  rewrite Z.mod_small by (change (2 ^ 7) with 128; lia). unfold zlen. rewrite Nat2Z.id. apply read_keys_ok, F.
Qed.
Lemma read_dump p r : bp_keys p -> (length (bp_L p) <= 127)%nat -> (length (bp_R p) <= 127)%nat -> read_bp (wire p ++ r) = Ok (p, r).
Proof.
  intros K HL HR. unfold bp_keys in K. rewrite !Forall_app in K. destruct K as (K1 & K2 & K3 & K4).
  repeat match goal with H : Forall key (_ :: _) |- _ => inversion H; clear H; subst end.
  unfold wire, read_bp. cbn [concat]. rewrite concat_app. cbn [concat]. rewrite !app_nil_r, <- !app_assoc.
  repeat (rewrite read_key_ok by assumption; cbn [bind]). cbn [app]. rewrite <- !app_assoc.
  rewrite read_counted_ok by assumption. cbn [bind app]. rewrite <- !app_assoc. rewrite read_counted_ok by assumption. cbn [bind].
  repeat (rewrite read_key_ok by assumption; cbn [bind]). destruct p; reflexivity.
Qed.
