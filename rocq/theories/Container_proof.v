From Verif Require Import Py PyLemmas Digits Ints_model Ec_model Ec_spec Ec_proof Sigs_model Sigs_spec Sigs_proof Mlsag_model Rsig_model Rsig_proof KeySep_proof Clsag_proof Ec_toy Container_model.

(** what the primitives are assumed to do *)
Definition cipher_laws (K : prims) : Prop :=
  (forall key nonce x, chacha20 K key nonce (chacha20 K key nonce x) = x) /\
  (forall key nonce p ad, aead_dec K key nonce (aead_enc K key nonce p ad) ad = Ok p).

Lemma split12 (a b : list Z) : length a = 12%nat -> py_upto (a ++ b) 12 = a /\ py_from (a ++ b) 12 = b.
Proof. intros H. split; [apply py_upto_app|apply py_from_app]; unfold zlen; rewrite H; reflexivity. Qed.
Lemma pack_roundtrip K key p nonce : cipher_laws K -> length nonce = 12%nat ->
  decrypt_pack K key (encrypt_pack K key p nonce None) = Ok p.
Proof.
  intros [_ H] Hn. unfold decrypt_pack, encrypt_pack. rewrite app_nil_r. destruct (split12 nonce (aead_enc K key nonce p None) Hn) as [-> ->]. apply H.
Qed.
Lemma firstn_pre {A} (a b : list A) n : length a = n -> firstn n (a ++ b) = a.
Proof. intros <-. rewrite firstn_app, Nat.sub_diag, firstn_all, firstn_O. apply app_nil_r. Qed.
Lemma decodeint_enc v r : scalar v -> decodeint (enc_sc v ++ r) = Ok v.
Proof.
  intros H. unfold decodeint. rewrite (proj2 (Z.ltb_ge _ _)) by (unfold zlen; rewrite app_length, (enc_sc_key v); lia).
  rewrite (firstn_pre (enc_sc v) r) by apply enc_sc_key. rewrite dec_enc_sc by exact H. reflexivity.
Qed.
Lemma decodeint_enc0 v : scalar v -> decodeint (enc_sc v) = Ok v.
Proof. intros H. rewrite <- (app_nil_r (enc_sc v)). apply decodeint_enc, H. Qed.

Lemma chunk_keys : forall vs pre fuel, (length vs < fuel)%nat ->
  chunk_loop fuel (pre ++ concat (map enc_sc vs)) 32 (zlen pre) = Ok (map enc_sc vs ++ [[]]).
Proof.
  induction vs as [|v vs IH]; intros pre fuel Hf; destruct fuel as [|fuel]; try (cbn [length] in Hf; lia); cbn [map concat chunk_loop].
  - rewrite app_nil_r. replace (py_slice pre (zlen pre) (zlen pre + 32)) with (@nil Z).
    + reflexivity.
    + unfold py_slice. replace (py_clamp (zlen pre) (zlen pre + 32)) with (py_clamp (zlen pre) (zlen pre)).
      * rewrite Z.sub_diag. reflexivity.
      * unfold py_clamp. pose proof (zlen_nonneg pre). rewrite !(proj2 (Z.ltb_ge (zlen pre) 0)) by lia. rewrite !(proj2 (Z.ltb_ge (zlen pre + 32) 0)) by lia. rewrite (proj2 (Z.ltb_ge (zlen pre) (zlen pre))), (proj2 (Z.ltb_lt (zlen pre) (zlen pre + 32))) by lia. reflexivity.
  - rewrite (py_slice_app pre (enc_sc v)) by (reflexivity || (unfold zlen; rewrite (enc_sc_key v); lia)).
    replace (zlen (enc_sc v)) with 32 by (unfold zlen; rewrite (enc_sc_key v); reflexivity). cbn [Z.eqb Pos.eqb negb].
    specialize (IH (pre ++ enc_sc v) fuel). rewrite <- app_assoc in IH.
    replace (zlen pre + 32) with (zlen (pre ++ enc_sc v)) by (unfold zlen; rewrite app_length, (enc_sc_key v); lia).
    rewrite IH by (cbn [length] in Hf; lia). reflexivity.
Qed.
Lemma concat_keys_len vs : length (concat (map enc_sc vs)) = (32 * length vs)%nat.
Proof. induction vs as [|v vs IH]; [reflexivity|]. cbn [map concat length]. rewrite app_length, (enc_sc_key v), IH. lia. Qed.
Lemma chunk_all vs : chunk (concat (map enc_sc vs)) 32 = Ok (map enc_sc vs ++ [[]]).
Proof. apply (chunk_keys vs []). rewrite concat_keys_len. lia. Qed.
Lemma decode_all vs : Forall scalar vs -> mapM decodeint (filter (fun x => negb (zlen x =? 0)) (map enc_sc vs ++ [[]])) = Ok vs.
Proof.
  induction 1 as [|v vs Hv _ IH]; [reflexivity|]. cbn [map app filter].
  replace (zlen (enc_sc v)) with 32 by (unfold zlen; rewrite (enc_sc_key v); reflexivity). cbn [Z.eqb Pos.eqb negb mapM].
  rewrite decodeint_enc0 by exact Hv. cbn [bind]. rewrite IH. reflexivity.
Qed.
Lemma slices_all : forall vs pre, Forall scalar vs ->
  mapM (fun i => decodeint (py_slice (pre ++ concat (map enc_sc vs)) (i * 32) ((i + 1) * 32)))
    (map Z.of_nat (seq (length pre / 32) (length vs))) = Ok vs \/ (length pre mod 32 <> 0)%nat.
Proof.
  induction vs as [|v vs IH]; intros pre Hv; [left; reflexivity|]. inversion Hv; subst.
  destruct (Nat.eq_dec (length pre mod 32) 0) as [Hm|Hm]; [left|right; exact Hm].
  cbn [length seq map mapM concat].
  assert (Hp : length pre = (32 * (length pre / 32))%nat) by (pose proof (Nat.div_mod (length pre) 32 ltac:(lia)); lia).
  rewrite (py_slice_app pre (enc_sc v)); [|unfold zlen; lia|unfold zlen; rewrite (enc_sc_key v); lia].
  rewrite decodeint_enc0 by assumption. cbn [bind].
  destruct (IH (pre ++ enc_sc v) ltac:(assumption)) as [H|H].
  - rewrite <- app_assoc, app_length, (enc_sc_key v) in H. replace ((length pre + 32) / 32)%nat with (S (length pre / 32)) in H.
    + rewrite H. reflexivity.
    + rewrite Hp at 2. replace (32 * (length pre / 32) + 32)%nat with ((S (length pre / 32)) * 32)%nat by lia. rewrite Nat.div_mul by lia. reflexivity.
  - exfalso. apply H. rewrite app_length, (enc_sc_key v), Hp. replace (32 * (length pre / 32) + 32)%nat with ((S (length pre / 32)) * 32)%nat by lia.
    apply Nat.mod_mul. lia.
Qed.

(** ** toy primitives for the examples *)
Definition toy_prims : prims := {|
  cn_slow := fun x => toy_hash (2 :: x);
  chacha20 := fun k n x => map (fun b => Z.lxor b (nth 0 (toy_hash (k ++ n)) 0)) x;
  aead_enc := fun k n p ad => p ++ toy_hash (k ++ n ++ p ++ match ad with Some a => 1 :: a | None => [] end);
  aead_dec := fun k n ct ad =>
    let p := py_upto ct (-32) in
    if zlist_eqb (py_from ct (-32)) (toy_hash (k ++ n ++ p ++ match ad with Some a => 1 :: a | None => [] end)) then Ok p else Err ValueError;
  hmac := fun k m => toy_hash (k ++ m) |}.
Lemma toy_cipher_laws : cipher_laws toy_prims.
Proof.
  split.
  - intros k n x. cbn [chacha20 toy_prims]. rewrite map_map. rewrite <- map_id. apply map_ext. intros b. rewrite Z.lxor_assoc, Z.lxor_nilpotent, Z.lxor_0_r. reflexivity.
  - intros k n p ad. cbn [aead_enc aead_dec toy_prims]. set (t := toy_hash _).
    assert (Lt : zlen t = 32) by (unfold t, toy_hash, zlen; rewrite le_digits_length; reflexivity).
    rewrite py_upto_neg_app, py_from_neg_app by lia. fold t. rewrite zlist_eqb_refl. reflexivity.
Qed.
