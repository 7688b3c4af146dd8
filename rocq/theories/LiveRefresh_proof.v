From Verif Require Import Py PyLemmas Digits Ints_model Ec_model Ec_spec Ec_proof Sigs_model Sigs_spec Sigs_proof Mlsag_model Mlsag_spec Rsig_model Rsig_proof KeySep_proof Clsag_proof Ec_toy Container_model Container_proof LiveRefresh_model LiveRefresh_spec Accept_spec Accept_proof2 Accept_proof3.

Lemma cut96 (b : list Z) : (96 <= length b)%nat ->
  py_upto b 32 = firstn 32 b /\ py_slice b 32 64 = firstn 32 (skipn 32 b) /\ py_from b 64 = skipn 64 b.
Proof.
  intros H. unfold py_upto, py_slice, py_from, py_clamp, zlen.
  change (32 <? 0) with false. change (64 <? 0) with false. cbv beta iota zeta.
  change (32 <? 0) with false. change (64 <? 0) with false. cbv beta iota zeta.
  rewrite !(proj2 (Z.ltb_ge _ _)) by lia. repeat split; reflexivity.
Qed.
Lemma cut_short (b : list Z) : 32 <= zlen (py_from b 64) -> (96 <= length b)%nat.
Proof.
  unfold py_from, py_clamp, zlen. change (64 <? 0) with false. cbv beta iota zeta. change (64 <? 0) with false. cbv beta iota zeta.
  destruct (Z.ltb_spec (Z.of_nat (length b)) 64) as [H|H]; rewrite skipn_length; intros H1; lia.
Qed.
Lemma decodeint_ok b v : decodeint b = Ok v <-> 32 <= zlen b /\ v = le_val 256 (firstn 32 b) mod l.
Proof.
  unfold decodeint, dec_sc. destruct (Z.ltb_spec (zlen b) 32) as [H|H]; split.
  - discriminate.
  - lia.
  - intros X. split; [exact H|]. congruence.
  - intros [_ ->]. reflexivity.
Qed.

Section P.
Context (E : ecops) (K : prims).

Lemma one_member msg P ki c r : check_ring_signature E msg ki [P] [(c, r)] = Ok true <-> image_proof E msg P ki c r.
Proof.
  rewrite (ring_iff E msg ki [P] [(c, r)] eq_refl). unfold ring_valid, image_proof, nz_scalar, proof_G, proof_H.
  cbn [map fst snd fold_right ring_points]. rewrite app_nil_r, Z.add_0_r. split.
  - intros (_ & F & H). apply Forall_inv in F. destruct F as [F1 F2]. cbn [fst snd] in F1, F2.
    rewrite Z.mod_small in H by lia. tauto.
  - intros (F1 & F2 & H). split; [reflexivity|]. split; [repeat constructor; cbn [fst snd]; lia|].
    rewrite Z.mod_small by lia. exact H.
Qed.

Lemma refresh_ok view out_key salt pack ki :
  live_refresh E K view out_key salt pack = Ok ki <->
  exists b P c r,
    decrypt_pack K (shared_key (hash E) (hmac K) (enc_sc view) out_key salt) pack = Ok b /\ (96 <= length b)%nat /\
    decp E out_key = Ok P /\ decp E (firstn 32 b) = Ok ki /\
    c = le_val 256 (firstn 32 (skipn 32 b)) mod l /\ r = le_val 256 (firstn 32 (skipn 64 b)) mod l /\
    image_proof E (firstn 32 b) P ki c r.
Proof.
  unfold live_refresh. change (compute_ki_enc_key_host E K view out_key salt) with (shared_key (hash E) (hmac K) (enc_sc view) out_key salt).
  split.
  - intros H. apply bind_ok_inv in H. destruct H as (b & Hb & H). apply bind_ok_inv in H. destruct H as (ki' & Hk & H).
    apply bind_ok_inv in H. destruct H as (c & Hc & H). apply bind_ok_inv in H. destruct H as (r & Hr & H).
    apply bind_ok_inv in H. destruct H as (P & HP & H). apply bind_ok_inv in H. destruct H as (ok & Ho & H).
    apply bind_ok_inv in H. destruct H as ([] & Hg & H). apply guard_ok_inv in Hg. subst ok.
    assert (X : ki' = ki) by congruence. subst ki'.
    apply decodeint_ok in Hc, Hr. destruct Hc as [Lc Hc], Hr as [Lr Hr]. pose proof (cut_short b Lr) as Lb.
    destruct (cut96 b Lb) as (E1 & E2 & E3). rewrite E1 in Hk, Ho. rewrite E2 in Hc. rewrite E3 in Hr.
    rewrite firstn_firstn in Hc. apply one_member in Ho. exists b, P, c, r. repeat split; try assumption; apply Ho.
  - intros (b & P & c & r & Hb & Lb & HP & Hk & Hc & Hr & Ho). rewrite Hb. cbn [bind].
    destruct (cut96 b Lb) as (-> & -> & ->). rewrite Hk. cbn [bind].
    assert (Dc : decodeint (firstn 32 (skipn 32 b)) = Ok c).
    { apply decodeint_ok. rewrite firstn_firstn. split; [|exact Hc]. unfold zlen. rewrite firstn_length, skipn_length. lia. }
    assert (Dr : decodeint (skipn 64 b) = Ok r).
    { apply decodeint_ok. split; [|exact Hr]. unfold zlen. rewrite skipn_length. lia. }
    rewrite Dc. cbn [bind]. rewrite Dr. cbn [bind]. rewrite HP. cbn [bind].
    apply one_member in Ho. rewrite Ho. reflexivity.
Qed.
End P.

Section D.
Context (E : ecops) (L : ec_laws E) (e32 : forall P, length (encp E P) = 32%nat).

(** one commitment, two challenges: the key image is the right one *)
Lemma two_challenges P I x c r c' r' : Gb E <> pid E -> scalar x -> P = smul E (Gb E) x -> in_group E I ->
  0 <= c < l -> 0 <= c' < l -> 0 <= r -> 0 <= r' -> c <> c' ->
  proof_G E P c r = proof_G E P c' r' -> proof_H E P I c r = proof_H E P I c' r' ->
  I = smul E (Hp E (encp E P)) x.
Proof.
  intros NG Sx HP GI Hc Hc' Hr Hr' N HG HH.
  assert (GP : in_group E P).
  { apply (in_group_sub E L). rewrite HP. rewrite (smul_zmul E L) by apply Sx. apply (sub_zmul E L), (sub_G E L). }
  assert (M : mlsag_column E [P] [r] [I] c = mlsag_column E [P] [r'] [I] c').
  { unfold mlsag_column. cbn [length seq map concat]. rewrite !app_nil_r. unfold mlsag_row. cbn [nth nth_error].
    unfold proof_G, proof_H in HG, HH. rewrite (law_comm E L (smul E P c)), (law_comm E L (smul E P c')) in HG.
    rewrite HG, HH. reflexivity. }
  assert (N' : c mod l <> c' mod l) by (rewrite !Z.mod_small by lia; exact N).
  destruct (column_extract E L e32 c c' (proj1 Hc) (proj1 Hc') N' [P] [r] [r'] [I] eq_refl eq_refl (le_n 1)
     (Forall_cons _ Hr (Forall_nil _)) (Forall_cons _ Hr' (Forall_nil _)) (Forall_cons _ GP (Forall_nil _)) (Forall_cons _ GI (Forall_nil _)) M) as (xx & C & KI & _).
  inversion C as [|? y ? xx1 [Sy K1] K2]; subst. inversion K2; subst.
  assert (Y : y = x) by (apply (base_inj E L y x NG Sy Sx); congruence). subst y.
  unfold key_images in KI. cbn [length combine firstn map fst snd] in KI. congruence.
Qed.

Lemma derivs_all K0 : forall (Ds : list (pt E)) pre, (length pre mod 32 = 0)%nat ->
  mapM (fun i => decp E (py_slice (pre ++ concat (map (encp E) Ds) ++ K0) (i * 32) ((i + 1) * 32)))
    (map Z.of_nat (seq (length pre / 32) (length Ds))) = Ok Ds.
Proof.
  induction Ds as [|D Ds IH]; intros pre Hm; [reflexivity|]. cbn [length seq map mapM concat].
  assert (Hp : length pre = (32 * (length pre / 32))%nat) by (pose proof (Nat.div_mod (length pre) 32 ltac:(lia)); lia).
  rewrite <- (app_assoc (encp E D)).
  rewrite (py_slice_app pre (encp E D)); [|unfold zlen; lia|unfold zlen; rewrite (e32 D); lia].
  rewrite (law_dec E L). cbn [bind].
  assert (Q : length (pre ++ encp E D) = (S (length pre / 32) * 32)%nat) by (rewrite app_length, (e32 D); lia).
  specialize (IH (pre ++ encp E D)). rewrite Q in IH. rewrite Nat.mod_mul, Nat.div_mul in IH by lia.
  rewrite <- app_assoc in IH. rewrite IH by reflexivity. reflexivity.
Qed.
Lemma concat_enc_len (Ds : list (pt E)) : length (concat (map (encp E) Ds)) = (32 * length Ds)%nat.
Proof. induction Ds as [|D Ds IH]; [reflexivity|]. cbn [map concat length]. rewrite app_length, (e32 D), IH. lia. Qed.
End D.

Section T.
Context (E : ecops) (L : ec_laws E) (e32 : forall P, length (encp E P) = 32%nat).
(** a key image off by a point of small order passes when the challenge is a multiple of the order *)
Lemma torsion_points x k c T : scalar x -> scalar k -> 0 <= c -> smul E T 8 = pid E -> c mod 8 = 0 ->
  let r := (k - c * x) mod l in let P := smul E (Gb E) x in
  proof_G E P c r = smul E (Gb E) k /\
  proof_H E P (padd E (image_of E x) T) c r = smul E (Hp E (encp E P)) k.
Proof.
  intros Sx Sk Hc HT Hm r P. unfold proof_G, proof_H, image_of. fold P. unfold r.
  rewrite (smul_mod E L (k - c * x) (Gb E) (sub_G E L)), (smul_mod E L (k - c * x) (Hp E (encp E P)) (sub_Hp E L _)). split.
  - unfold P. rewrite !(smul_zmul E L) by (apply Sx || apply Sk || exact Hc). lin E L.
  - rewrite (smul_zmul E L _ 8) in HT by lia.
    rewrite !(smul_zmul E L) by (apply Sx || apply Sk || exact Hc). rewrite (zmul_padd E L).
    assert (Z0 : zmul E c T = pid E).
    { pose proof (Z.div_mod c 8 ltac:(lia)) as D. rewrite D, Hm, Z.add_0_r, Z.mul_comm, (zmul_mul E L), HT. apply (zmul_id E L). }
    rewrite Z0. lin E L.
Qed.

Lemma app_length_64 I c : length (encp E I ++ enc_sc c) = 64%nat.
Proof. rewrite app_length, (e32 I), (enc_sc_key c). reflexivity. Qed.
Lemma refresh_pack K view x salt nonce I c r tail : cipher_laws K -> length nonce = 12%nat ->
  image_proof E (encp E I) (smul E (Gb E) x) I c r ->
  live_refresh E K view (encp E (smul E (Gb E) x)) salt
    (encrypt_pack K (shared_key (hash E) (hmac K) (enc_sc view) (encp E (smul E (Gb E) x)) salt) (encp E I ++ enc_sc c ++ enc_sc r ++ tail) nonce None) = Ok I.
Proof.
  intros HK Hn HP. apply refresh_ok. exists (encp E I ++ enc_sc c ++ enc_sc r ++ tail), (smul E (Gb E) x), c, r.
  rewrite pack_roundtrip by assumption. split; [reflexivity|].
  assert (F1 : firstn 32 (encp E I ++ enc_sc c ++ enc_sc r ++ tail) = encp E I) by (apply firstn_pre, e32).
  assert (F2 : skipn 32 (encp E I ++ enc_sc c ++ enc_sc r ++ tail) = enc_sc c ++ enc_sc r ++ tail).
  { rewrite <- (e32 I). rewrite skipn_app, skipn_all, Nat.sub_diag. reflexivity. }
  assert (F3 : skipn 64 (encp E I ++ enc_sc c ++ enc_sc r ++ tail) = enc_sc r ++ tail).
  { rewrite app_assoc. rewrite <- (app_length_64 I c). rewrite skipn_app, skipn_all, Nat.sub_diag. reflexivity. }
  rewrite F1, F2, F3. rewrite (firstn_pre (enc_sc c)), (firstn_pre (enc_sc r)) by apply enc_sc_key.
  split; [rewrite !app_length, (e32 I), (enc_sc_key c), (enc_sc_key r); lia|].
  split; [apply (law_dec E L)|]. split; [apply (law_dec E L)|].
  destruct HP as (Hc & Hr & HP). split; [|split; [|split; [exact Hc|split; [exact Hr|exact HP]]]].
  - symmetry. apply (dec_enc_sc c). unfold scalar. lia.
  - symmetry. apply (dec_enc_sc r). unfold scalar. lia.
Qed.
End T.

(** the toy group with a point of order two added *)
Definition bq (b : bool) : Z := if b then 2 ^ 255 else 0.
Definition toyT : ecops := {|
  pt := (pt toy * bool)%type;
  pt_eqb := fun a b => pt_eqb toy (fst a) (fst b) && Bool.eqb (snd a) (snd b);
  padd := fun a b => (padd toy (fst a) (fst b), xorb (snd a) (snd b));
  pneg := fun a => (pneg toy (fst a), snd a);
  pid := (pid toy, false);
  smul := fun a e => (smul toy (fst a) e, snd a && Z.odd e);
  Gb := (Gb toy, false);
  Hb := (Hb toy, false);
  encp := fun a => le_digits 256 32 (v (fst a) + bq (snd a));
  decp := fun b =>
    let n := le_val 256 b in let h := 2 ^ 255 <=? n in let n := n - bq h in
    if (zlen b =? 32) && inr n then Ok (mk n, h) else Err ValueError;
  hash := toy_hash;
  Hp := fun b => (Hp toy b, false);
|}.
Lemma toyT_laws : ec_laws toyT.
Proof.
  pose proof toy_laws as L. constructor; cbn [toyT pt pt_eqb padd pneg pid smul Gb Hb encp decp hash Hp fst snd]; intros.
  - rewrite andb_true_iff, (law_eqb toy L), Bool.eqb_true_iff. destruct P, Q. cbn [fst snd]. split; [intros [-> ->]; reflexivity|intros H; inversion H; auto].
  - f_equal; [apply (law_assoc toy L)|symmetry; apply xorb_assoc].
  - f_equal; [apply (law_comm toy L)|apply xorb_comm].
  - rewrite (law_id toy L), xorb_false_l. destruct P. reflexivity.
  - rewrite (law_neg toy L), xorb_nilpotent. reflexivity.
  - rewrite (law_smul toy L) by assumption. rewrite <- (Z2Nat.id e) at 2 by assumption.
    generalize (Z.to_nat e). intros n. induction n as [|n IH]; [cbn [nsum]; change (Z.of_nat 0) with 0; rewrite andb_false_r; reflexivity|].
    cbn [nsum]. rewrite <- IH. cbn [fst snd padd toyT]. f_equal. rewrite Nat2Z.inj_succ, Z.odd_succ, <- Z.negb_odd.
    destruct (snd P), (Z.odd (Z.of_nat n)); reflexivity.
  - rewrite (law_G toy L). reflexivity.
  - rewrite (law_H toy L). reflexivity.
  - rewrite (law_Hp toy L). reflexivity.
  - destruct P as [p b]. cbn [fst snd]. pose proof (v_range p) as B.
    assert (Q : l < 2 ^ 255) by reflexivity.
    assert (E : le_val 256 (le_digits 256 32 (v p + bq b)) = v p + bq b).
    { rewrite le_val_digits by reflexivity. apply Z.mod_small. change (256 ^ Z.of_nat 32) with (2 * 2 ^ 255).
      unfold bq. destruct b; lia. }
    rewrite E. assert (H : (2 ^ 255 <=? v p + bq b) = b).
    { unfold bq. destruct b; [apply Z.leb_le; lia|apply Z.leb_gt; lia]. }
    rewrite H. replace (v p + bq b - bq b) with (v p) by ring. unfold zlen. rewrite le_digits_length.
    change (Z.of_nat 32 =? 32) with true. cbn [andb].
    assert (I : inr (v p) = true) by (unfold inr; apply andb_true_intro; split; [apply Z.leb_le|apply Z.ltb_lt]; lia).
    rewrite I, mk_v. reflexivity.
Qed.
Lemma toyT_e32 P : length (encp toyT P) = 32%nat.
Proof. apply le_digits_length. Qed.
