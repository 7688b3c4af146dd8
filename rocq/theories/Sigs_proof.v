From Verif Require Import Py PyLemmas Digits Ints_model Ec_model Ec_spec Ec_proof Sigs_model Sigs_spec.

Lemma l_nz : l <> 0.
Proof. discriminate. Qed.
Lemma mod_scalar v : scalar (v mod l).
Proof. apply Z.mod_pos_bound. reflexivity. Qed.
Lemma scalar_small v : scalar v -> v mod l = v.
Proof. intros H. apply Z.mod_small, H. Qed.
Lemma sc_check_ok v : sc_check v = 0 <-> nz_scalar v.
Proof.
  unfold sc_check, sc_reduce32, nz_scalar. pose proof (mod_scalar v) as B. unfold scalar in B.
  destruct (Z.eqb_spec (v mod l) 0) as [E|E].
  - split; [discriminate|]. intros H. rewrite Z.mod_small in E; lia.
  - destruct (Z.eqb_spec v (v mod l)) as [E'|E']; split; intros H; try reflexivity; try discriminate.
    + lia.
    + exfalso. apply E'. symmetry. apply Z.mod_small. lia.
Qed.
Lemma sc_check_b v : (sc_check v =? 0) = true <-> nz_scalar v.
Proof. rewrite Z.eqb_eq. apply sc_check_ok. Qed.
Lemma sub_zero a b : scalar a -> scalar b -> ((a - b) mod l = 0 <-> a = b).
Proof.
  unfold scalar. intros Ha Hb. split; [|intros ->; rewrite Z.sub_diag; reflexivity].
  intros H. pose proof (Z.div_mod (a - b) l l_nz) as D. rewrite H in D.
  assert (- l < a - b < l) by lia. assert ((a - b) / l = 0) by nia. lia.
Qed.
Lemma sub_mod_zero a b : ((a - b) mod l = 0 <-> a mod l = b mod l).
Proof.
  rewrite Zminus_mod. rewrite sub_zero by apply mod_scalar. reflexivity.
Qed.
Lemma sc_mulsub_val a b c : sc_mulsub a b c = (c - a * b) mod l.
Proof. unfold sc_mulsub. rewrite Zminus_mod_idemp_r. reflexivity. Qed.
Lemma sc_muladd_val a b c : sc_muladd a b c = (c + a * b) mod l.
Proof. unfold sc_muladd. rewrite Zplus_mod_idemp_r. reflexivity. Qed.
Lemma nz_of_scalar v : scalar v -> v <> 0 -> nz_scalar v.
Proof. unfold scalar, nz_scalar. lia. Qed.
Lemma nz_scalar_scalar v : nz_scalar v -> scalar v.
Proof. unfold scalar, nz_scalar. lia. Qed.
Lemma hts_scalar E x : scalar (hash_to_scalar E x).
Proof. apply mod_scalar. Qed.

Section P.
Context (E : ecops) (L : ec_laws E).

Lemma schnorr_iff data c r pub :
  check_signature E data c r pub = Ok true <-> nz_scalar c /\ nz_scalar r /\ schnorr_valid E data c r pub.
Proof.
  unfold check_signature, schnorr_valid.
  destruct (sc_check c =? 0) eqn:Ec.
  2:{ cbn. split; [discriminate|]. intros (H & _). apply sc_check_b in H. congruence. }
  destruct (sc_check r =? 0) eqn:Er.
  2:{ cbn. split; [discriminate|]. intros (_ & H & _). apply sc_check_b in H. congruence. }
  apply sc_check_b in Ec, Er. cbn [andb guard bind].
  unfold point_add, scalarmult, scalarmult_base. fold (hash_to_scalar E (data ++ encp E pub ++ encp E (padd E (smul E pub c) (smul E (Gb E) r)))).
  set (h := hash_to_scalar E _). assert (Hh : scalar h) by apply hts_scalar. clearbody h.
  unfold sc_sub, sc_isnonzero. rewrite negb_involutive.
  destruct (Z.eqb_spec ((h - c) mod l) 0) as [H|H].
  - apply (proj1 (sub_zero h c Hh (nz_scalar_scalar c Ec))) in H. subst. tauto.
  - split; [discriminate|]. intros (_ & _ & ->). exfalso. apply H. rewrite Z.sub_diag. reflexivity.
Qed.

Lemma schnorr_bad_scalar data c r pub : ~ nz_scalar c \/ ~ nz_scalar r -> check_signature E data c r pub = Err ValueError.
Proof.
  unfold check_signature. intros H.
  destruct (sc_check c =? 0) eqn:Ec; [|reflexivity]. destruct (sc_check r =? 0) eqn:Er; [|reflexivity].
  apply sc_check_b in Ec, Er. tauto.
Qed.

Lemma schnorr_complete data priv k c r pub :
  scalar priv -> scalar k -> generate_signature E data priv k = (c, r, pub) ->
  pub = smul E (Gb E) priv /\ scalar c /\ scalar r /\ schnorr_valid E data c r pub.
Proof.
  unfold generate_signature. intros Hp Hk H.
  apply pair_equal_spec in H. destruct H as [H Hpub]. apply pair_equal_spec in H. destruct H as [Hc Hr].
  rewrite Hc in Hr. unfold scalarmult_base in Hpub. split; [symmetry; exact Hpub|].
  assert (Sc : scalar c) by (rewrite <- Hc; apply hts_scalar). split; [exact Sc|].
  rewrite sc_mulsub_val in Hr. split; [rewrite <- Hr; apply mod_scalar|].
  unfold schnorr_valid. rewrite <- Hc at 1. unfold hash_to_scalar, scalarmult_base. rewrite Hpub.
  do 6 f_equal. rewrite <- Hr, <- Hpub. rewrite (smul_mod E L) by apply (sub_G E L).
  rewrite !(smul_zmul E L) by (apply Hp || apply Hk || apply Sc).
  lin E L.
Qed.

(** ** Ring signatures *)
Definition others (rnd : Z -> Z * Z) (i n : Z) : list (Z * Z) := map (fun j => rnd (i + j)) (zrange n).
Lemma others_S rnd i n : 0 <= n -> others rnd i (1 + n) = rnd i :: others rnd (i + 1) n.
Proof.
  intros Hn. unfold others, zrange. replace (Z.to_nat (1 + n)) with (S (Z.to_nat n)) by lia.
  cbn [seq map]. rewrite Z.add_0_r. f_equal. rewrite <- seq_shift, !map_map. apply map_ext. intros a. f_equal. lia.
Qed.

Lemma grs_others image sec rnd : forall pubs i buff sum k sig, (sec < i \/ i + zlen pubs <= sec) ->
  exists sum', grs_loop E image sec rnd pubs i buff sum k sig =
    (buff ++ ring_points E image pubs (others rnd i (zlen pubs)), sum', k, sig ++ others rnd i (zlen pubs)) /\
    sum' mod l = (sum + fold_right Z.add 0 (map fst (others rnd i (zlen pubs)))) mod l.
Proof.
  induction pubs as [|P pubs IH]; intros i buff sum k sig H.
  - exists sum. cbn. rewrite !app_nil_r, Z.add_0_r. auto.
  - assert (ZL : zlen (P :: pubs) = 1 + zlen pubs) by (unfold zlen; cbn [length]; lia).
    assert (0 <= zlen pubs) by (unfold zlen; lia).
    rewrite ZL in *. rewrite others_S by assumption. cbn [grs_loop].
    destruct (Z.eqb_spec i sec); [lia|].
    edestruct (IH (i + 1) (buff ++ encp E (ge_double_scalarmult_base_vartime E (fst (rnd i)) P (snd (rnd i))) ++
      encp E (ge_double_scalarmult_precomp_vartime E (snd (rnd i)) (Hp E (encp E P)) (fst (rnd i)) image))
      (sc_add sum (fst (rnd i))) k (sig ++ [(fst (rnd i), snd (rnd i))])) as (s' & -> & Hs); [lia|].
    exists s'. rewrite <- surjective_pairing, <- !app_assoc. split.
    + cbn [ring_points]. destruct (rnd i) as [c r]. reflexivity.
    + rewrite Hs. unfold sc_add. cbn [map fold_right]. rewrite Zplus_mod_idemp_l. f_equal. lia.
Qed.

Lemma ring_points_app image a b sa sb : length sa = length a ->
  ring_points E image (a ++ b) (sa ++ sb) = ring_points E image a sa ++ ring_points E image b sb.
Proof.
  revert sa. induction a as [|P a IH]; intros [|[c r] sa] H; try discriminate; [reflexivity|].
  cbn [ring_points app]. rewrite IH, <- !app_assoc by (cbn in H; lia). reflexivity.
Qed.
Lemma others_length rnd i n : length (others rnd i n) = Z.to_nat n.
Proof. unfold others, zrange. rewrite !map_length, seq_length. reflexivity. Qed.
Lemma grs_app image sec rnd b : forall a i buff sum k sig,
  grs_loop E image sec rnd (a ++ b) i buff sum k sig =
  let '(buff, sum, k, sig) := grs_loop E image sec rnd a i buff sum k sig in
  grs_loop E image sec rnd b (i + zlen a) buff sum k sig.
Proof.
  induction a as [|P a IH]; intros i buff sum k sig; cbn [app grs_loop]; [rewrite Z.add_0_r; reflexivity|].
  assert (ZL : i + zlen (P :: a) = i + 1 + zlen a) by (unfold zlen; cbn [length]; lia). rewrite ZL.
  destruct (i =? sec); apply IH.
Qed.
Lemma py_get_mid {A} (a : list A) x b : py_get (a ++ x :: b) (zlen a) = Ok x.
Proof.
  unfold py_get, py_idx, zlen. rewrite app_length. cbn [length].
  rewrite (proj2 (Z.leb_le 0 (Z.of_nat (length a)))) by lia.
  rewrite (proj2 (Z.ltb_lt (Z.of_nat (length a)) (Z.of_nat (length a + S (length b))))) by lia. cbn [andb].
  rewrite Nat2Z.id, nth_error_app2, Nat.sub_diag by lia. reflexivity.
Qed.
Lemma upd_mid {A} (a : list A) x y b : upd (a ++ x :: b) (length a) y = a ++ y :: b.
Proof. induction a as [|z a IH]; cbn; [reflexivity|]. rewrite IH. reflexivity. Qed.
Lemma py_set_mid {A} (a : list A) x y b : py_set (a ++ x :: b) (zlen a) y = Ok (a ++ y :: b).
Proof.
  unfold py_set, py_idx, zlen. rewrite app_length. cbn [length].
  rewrite (proj2 (Z.leb_le 0 (Z.of_nat (length a)))) by lia.
  rewrite (proj2 (Z.ltb_lt (Z.of_nat (length a)) (Z.of_nat (length a + S (length b))))) by lia. cbn [andb].
  rewrite Nat2Z.id, upd_mid. reflexivity.
Qed.

Lemma py_get_at {A} (a : list A) x b n : zlen a = n -> py_get (a ++ x :: b) n = Ok x.
Proof. intros <-. apply py_get_mid. Qed.
Lemma py_set_at {A} (a : list A) x y b n : zlen a = n -> py_set (a ++ x :: b) n y = Ok (a ++ y :: b).
Proof. intros <-. apply py_set_mid. Qed.
Lemma fsum_app a b : fold_right Z.add 0 (a ++ b) = fold_right Z.add 0 a + fold_right Z.add 0 b.
Proof. induction a as [|x a IH]; cbn [app fold_right]; [reflexivity|]. rewrite IH. lia. Qed.

Lemma ring_complete prefix pre post sec test rnd :
  scalar sec -> scalar (fst (rnd (zlen pre))) ->
  let P := smul E (Gb E) sec in
  let image := smul E (Hp E (encp E P)) sec in
  exists c r,
    let sig := others rnd 0 (zlen pre) ++ (c, r) :: others rnd (zlen pre + 1) (zlen post) in
    generate_ring_signature E prefix image (pre ++ P :: post) sec (zlen pre) test rnd = Ok sig /\
    scalar c /\ scalar r /\
    (fold_right Z.add 0 (map fst sig)) mod l =
    le_val 256 (hash E (prefix ++ ring_points E image (pre ++ P :: post) sig)) mod l.
Proof.
  intros Hsec Hk P image. set (k := fst (rnd (zlen pre))) in *.
  unfold generate_ring_signature.
  assert (G : (if test then
      let* P := py_get (pre ++ P :: post) (zlen pre) in
      let* _ := guard (pt_eqb E (scalarmult_base E sec) P) ValueError in
      guard (pt_eqb E (generate_key_image E (encp E P) sec) image) ValueError
    else Ok tt) = Ok tt).
  { destruct test; [|reflexivity]. rewrite py_get_mid. cbn [bind].
    unfold generate_key_image, scalarmult, scalarmult_base. fold P. fold image.
    rewrite (proj2 (law_eqb E L P P) eq_refl), (proj2 (law_eqb E L image image) eq_refl). reflexivity. }
  rewrite G. cbn [bind]. clear G.
  rewrite grs_app.
  destruct (grs_others image (zlen pre) rnd pre 0 prefix 0 0 []) as (s1 & E1 & H1); [right; lia|].
  rewrite E1. cbn [app]. rewrite Z.add_0_l. cbn [grs_loop]. rewrite Z.eqb_refl. fold k.
  set (b := encp E (scalarmult_base E k) ++ encp E (scalarmult E (Hp E (encp E P)) k)).
  edestruct (grs_others image (zlen pre) rnd post (zlen pre + 1)) as (s2 & E2 & H2); [left; lia|].
  rewrite E2. clear E1 E2.
  rewrite <- !app_assoc. cbn [app].
  assert (ZL : zlen (others rnd 0 (zlen pre)) = zlen pre).
  { unfold zlen at 1. rewrite others_length. rewrite Z2Nat.id by (unfold zlen; lia). reflexivity. }
  assert (OL : length (others rnd 0 (zlen pre)) = length pre) by (rewrite others_length; unfold zlen; apply Nat2Z.id).
  set (h := hash_to_scalar E _).
  set (c := sc_sub h s2). set (r := sc_mulsub c sec k).
  assert (Sc : scalar c) by apply mod_scalar.
  assert (Er : r = (k - c * sec) mod l) by apply sc_mulsub_val.
  assert (Eb : ring_points E image [P] [(c, r)] = b).
  { cbn [ring_points]. rewrite app_nil_r. unfold b, scalarmult_base, scalarmult. f_equal; f_equal.
    - rewrite Er. rewrite (smul_mod E L) by apply (sub_G E L). unfold P.
      rewrite !(smul_zmul E L) by (apply Hsec || apply Hk || apply Sc). lin E L.
    - rewrite Er. rewrite (smul_mod E L) by apply (sub_Hp E L). unfold image.
      rewrite !(smul_zmul E L) by (apply Hsec || apply Hk || apply Sc). lin E L. }
  exists c, r.
  split; [|split; [exact Sc|split; [rewrite Er; apply mod_scalar|]]].
  - rewrite (py_get_at _ _ _ _ ZL). cbn [bind]. rewrite (py_set_at _ _ _ _ _ ZL). reflexivity.
  - assert (RP : ring_points E image (pre ++ P :: post) (others rnd 0 (zlen pre) ++ (c, r) :: others rnd (zlen pre + 1) (zlen post)) =
      ring_points E image pre (others rnd 0 (zlen pre)) ++ b ++ ring_points E image post (others rnd (zlen pre + 1) (zlen post))).
    { rewrite (ring_points_app image pre (P :: post) _ _ OL). f_equal.
      rewrite <- Eb.
      exact (ring_points_app image [P] post [(c, r)] _ eq_refl). }
    rewrite RP.
    assert (Hh : h = hash_to_scalar E (prefix ++ ring_points E image pre (others rnd 0 (zlen pre)) ++ b ++
      ring_points E image post (others rnd (zlen pre + 1) (zlen post)))).
    { unfold h, b. rewrite <- !app_assoc. reflexivity. }
    fold (hash_to_scalar E (prefix ++ ring_points E image pre (others rnd 0 (zlen pre)) ++ b ++
      ring_points E image post (others rnd (zlen pre + 1) (zlen post)))).
    rewrite <- Hh. rewrite <- (scalar_small h) by apply mod_scalar.
    rewrite map_app, fsum_app. cbn [map fold_right fst].
    unfold c, sc_sub. clearbody h. clear - H1 H2.
    set (A := fold_right Z.add 0 (map fst (others rnd 0 (zlen pre)))) in *.
    set (B := fold_right Z.add 0 (map fst (others rnd (zlen pre + 1) (zlen post)))) in *.
    clearbody A B.
    rewrite Z.add_assoc, (Z.add_comm A), <- Z.add_assoc, Zplus_mod_idemp_l.
    apply sub_mod_zero.
    replace (h - s2 + (A + B) - h) with ((A + B) - s2) by ring. apply sub_mod_zero.
    rewrite H2, (Zplus_mod A), (Zplus_mod s1), H1. reflexivity.
Qed.

Lemma crs_spec image : forall pubs sig buff sum,
  (length sig = length pubs -> Forall (fun cr => nz_scalar (fst cr) /\ nz_scalar (snd cr)) sig ->
   exists s, crs_loop E image pubs sig buff sum = Ok (Some (buff ++ ring_points E image pubs sig, s)) /\
             s mod l = (sum + fold_right Z.add 0 (map fst sig)) mod l) /\
  (forall x, crs_loop E image pubs sig buff sum = Ok (Some x) -> length sig = length pubs ->
   Forall (fun cr => nz_scalar (fst cr) /\ nz_scalar (snd cr)) sig).
Proof.
  induction pubs as [|P pubs IH]; intros sig buff sum.
  - split.
    + intros H _. destruct sig; [|discriminate]. exists sum. cbn. rewrite app_nil_r, Z.add_0_r. auto.
    + intros x _ H. destruct sig; [constructor|discriminate].
  - destruct sig as [|[c r] sig]; [split; [discriminate|intros; discriminate]|]. cbn [crs_loop]. split.
    + intros H F. inversion F as [|? ? [F1 F2] F3]; subst. cbn [fst snd] in *.
      apply sc_check_b in F1, F2. rewrite F1, F2. cbn [negb orb].
      destruct (proj1 (IH sig (buff ++ encp E (ge_double_scalarmult_base_vartime E c P r) ++
        encp E (ge_double_scalarmult_precomp_vartime E r (Hp E (encp E P)) c image)) (sc_add sum c))) as (s & -> & Hs);
        [cbn in H; lia|exact F3|].
      exists s. rewrite <- !app_assoc. split; [reflexivity|]. rewrite Hs. unfold sc_add. rewrite Zplus_mod_idemp_l.
      cbn [map fold_right fst]. f_equal. lia.
    + intros x H Hl. destruct (sc_check c =? 0) eqn:E1; [|discriminate]. destruct (sc_check r =? 0) eqn:E2; [|discriminate].
      cbn [negb orb] in H. apply sc_check_b in E1, E2. constructor; [auto|].
      apply (proj2 (IH sig _ _) x H). cbn in Hl. lia.
Qed.

Lemma ring_iff prefix image pubs sig : length sig = length pubs ->
  (check_ring_signature E prefix image pubs sig = Ok true <-> ring_valid E prefix image pubs sig).
Proof.
  intros Hl. unfold check_ring_signature, ring_valid. destruct (crs_spec image pubs sig prefix 0) as [H1 H2]. split.
  - destruct (crs_loop E image pubs sig prefix 0) as [[[b s]|]|] eqn:El; cbn [bind]; try discriminate.
    pose proof (H2 (b, s) eq_refl Hl) as F. destruct (H1 Hl F) as (s' & Eq & Hs).
    assert (Eb : b = prefix ++ ring_points E image pubs sig) by congruence. assert (Es : s = s') by congruence.
    intros H. split; [exact Hl|]. split; [exact F|]. subst.
    unfold sc_sub, sc_isnonzero in H. rewrite negb_involutive in H.
    assert (H' : ((hash_to_scalar E (prefix ++ ring_points E image pubs sig) - s') mod l =? 0) = true) by congruence.
    apply Z.eqb_eq, sub_mod_zero in H'. rewrite Hs, Z.add_0_l in H'. rewrite <- H'. apply scalar_small, hts_scalar.
  - intros (_ & F & Hs). destruct (H1 Hl F) as (s' & -> & Hs'). cbn [bind].
    unfold sc_sub, sc_isnonzero. rewrite negb_involutive. do 2 f_equal. apply Z.eqb_eq, sub_mod_zero.
    rewrite Hs', Z.add_0_l, Hs. apply scalar_small, hts_scalar.
Qed.
End P.
