From Coq Require Import Znumtheory.
From Verif Require Import Py PyLemmas Digits Ints_model Protobuf_spec Primes Ec_model Ec_spec Ec_proof Sigs_model Sigs_spec Sigs_proof Mlsag_model Mlsag_spec Borromean_model Bp_model Bp_proof1 Accept_spec Accept_proof2.

Section A.
Context (E : ecops) (L : ec_laws E).
Local Notation hts := (hash_to_scalar E).
Local Notation zmul := (zmul E).
Local Notation sub := (sub E).

Definition x_of (s s' c c' : Z) : Z := ((s - s') * sc_inv (c' - c)) mod l.
Lemma x_of_spec s s' c c' : c mod l <> c' mod l -> revealed (x_of s s' c c') s s' c c'.
Proof.
  intros N. split; [apply mod_scalar|]. unfold x_of. rewrite Zmult_mod_idemp_l.
  assert (I : (c' - c) * sc_inv (c' - c) == 1). { apply c_inv. intros H. apply sub_mod_zero in H. congruence. }
  change ((s - s') * sc_inv (c' - c) * (c' - c) == s - s').
  transitivity ((s - s') * ((c' - c) * sc_inv (c' - c))); [apply cg_eq; ring|]. rewrite I. apply cg_eq. ring.
Qed.
Lemma revealed_unique x y s s' c c' : c mod l <> c' mod l -> revealed x s s' c c' -> revealed y s s' c c' -> x = y.
Proof.
  intros N [Sx Hx] [Sy Hy]. apply sub_zero; try assumption.
  assert (D : (l | (x - y) * (c' - c))).
  { apply Z.mod_divide; [discriminate|]. replace ((x - y) * (c' - c)) with (x * (c' - c) - y * (c' - c)) by ring.
    apply sub_mod_zero. congruence. }
  apply (prime_mult l l_prime') in D. destruct D as [D|D].
  - apply Z.mod_divide; [discriminate|exact D].
  - exfalso. apply N. symmetry. apply sub_mod_zero. apply Z.mod_divide; [discriminate|exact D].
Qed.
Lemma revealed_mod x s s' c c' : revealed x s s' c c' -> revealed x s s' (c mod l) (c' mod l).
Proof.
  intros [A1 A2]. split; [exact A1|]. rewrite <- A2, <- (Zmult_mod_idemp_r (c' - c)), <- (Zmult_mod_idemp_r (c' mod l - c mod l)).
  rewrite <- (Zminus_mod c' c l). reflexivity.
Qed.
(** (c' - c) P = (s - s') B gives P = x B *)
Lemma extract B P s s' c c' x : 0 <= s -> 0 <= s' -> 0 <= c -> 0 <= c' -> sub P -> sub B -> c mod l <> c' mod l ->
  revealed x s s' c c' ->
  padd E (smul E B s) (smul E P c) = padd E (smul E B s') (smul E P c') -> P = smul E B x.
Proof.
  intros Hs Hs' Hc Hc' SP SB N RV H. rewrite (revealed_unique _ _ _ _ _ _ N RV (x_of_spec s s' c c' N)). unfold x_of.
  rewrite (smul_mod E L) by exact SB. rewrite !(smul_zmul E L) in H by assumption.
  assert (K : zmul (c' - c) P = zmul (s - s') B).
  { apply (cancel_l E L (padd E (zmul c P) (zmul s' B))).
    transitivity (padd E (zmul s' B) (zmul c' P)); [lin E L|]. rewrite <- H. lin E L. }
  assert (I : sc_inv (c' - c) * (c' - c) == 1).
  { rewrite Z.mul_comm. apply c_inv. intros X. apply sub_mod_zero in X. congruence. }
  rewrite Z.mul_comm, (zmul_mul E L), <- K, <- (zmul_mul E L).
  rewrite (zc E L _ 1 P SP I). symmetry. apply (zmul_1 E L).
Qed.

Lemma nonce_reuse data data' priv k c r pub c' r' pub' : scalar priv ->
  generate_signature E data priv k = (c, r, pub) -> generate_signature E data' priv k = (c', r', pub') -> c <> c' ->
  revealed priv r r' c c'.
Proof.
  unfold generate_signature. intros Sp H H' N.
  assert (c = hts (data ++ encp E (scalarmult_base E priv) ++ encp E (scalarmult_base E k)) /\ r = sc_mulsub priv c k) as [Ec Er] by (split; congruence).
  assert (c' = hts (data' ++ encp E (scalarmult_base E priv) ++ encp E (scalarmult_base E k)) /\ r' = sc_mulsub priv c' k) as [Ec' Er'] by (split; congruence).
  split; [exact Sp|]. rewrite Er, Er', !sc_mulsub_val. rewrite <- Zminus_mod. f_equal. ring.
Qed.
Lemma schnorr_extract data data' c r c' r' pub : in_group E pub ->
  check_signature E data c r pub = Ok true -> check_signature E data' c' r' pub = Ok true -> c <> c' ->
  padd E (smul E (Gb E) r) (smul E pub c) = padd E (smul E (Gb E) r') (smul E pub c') ->
  exists x, revealed x r r' c c' /\ pub = smul E (Gb E) x.
Proof.
  intros G H H' N Q. apply schnorr_iff in H, H'. destruct H as (H1 & H2 & _), H' as (H1' & H2' & _).
  unfold nz_scalar in *. exists (x_of r r' c c').
  assert (N' : c mod l <> c' mod l) by (rewrite !Z.mod_small by lia; exact N).
  split; [apply x_of_spec, N'|]. apply (extract (Gb E) pub r r' c c'); try lia; auto.
  - apply (in_group_sub E L), G.
  - apply (sub_G E L).
  - apply x_of_spec, N'.
Qed.

(** ** MLSAG *)
Context (enc32 : forall P, length (encp E P) = 32%nat).
Lemma enc_inj P Q : encp E P = encp E Q -> P = Q.
Proof. intros H. assert (X := law_dec E L P). rewrite H, (law_dec E L Q) in X. congruence. Qed.
Lemma cut32 (a b x y : list Z) : length a = 32%nat -> length b = 32%nat -> a ++ x = b ++ y -> a = b /\ x = y.
Proof.
  intros Ha Hb H. apply (f_equal (fun v => (firstn 32 v, skipn 32 v))) in H.
  rewrite <- Ha in H at 1 2. rewrite <- Hb in H. rewrite !firstn_app, !skipn_app, !Nat.sub_diag, !firstn_all, !skipn_all in H.
  cbn [firstn skipn app] in H. rewrite !app_nil_r in H. split; congruence.
Qed.
Lemma column_extract c c' : 0 <= c -> 0 <= c' -> c mod l <> c' mod l -> forall col ss ss' II,
  length ss = length col -> length ss' = length col -> (length II <= length col)%nat ->
  Forall (fun s => 0 <= s) ss -> Forall (fun s => 0 <= s) ss' -> Forall (in_group E) col -> Forall (in_group E) II ->
  mlsag_column E col ss II c = mlsag_column E col ss' II c' ->
  exists xx, column_keys E col xx /\ II = key_images E (length II) col xx /\
    forall j x, nth_error xx j = Some x -> revealed x (nth j ss 0) (nth j ss' 0) c c'.
Proof.
  intros Hc Hc' N. unfold mlsag_column. induction col as [|P col IH]; intros ss ss' II Ls Ls' Li Ps Ps' GP GI H.
  - destruct II; [|cbn in Li; lia]. exists []. split; [constructor|]. split; [reflexivity|]. intros [|j] x; discriminate.
  - destruct ss as [|s ss], ss' as [|s' ss']; try discriminate. cbn [length] in *.
    inversion Ps as [|? ? Ps1 Ps2]; subst. inversion Ps' as [|? ? Ps1' Ps2']; subst. inversion GP as [|? ? GP1 GP2]; subst.
    cbn [seq map concat] in H. rewrite <- seq_shift, !map_map in H. unfold mlsag_row at 1 3 in H. cbn [nth] in H. rewrite <- !app_assoc in H.
    apply app_inv_head in H. apply cut32 in H; [|apply enc32..]. destruct H as [H1 H]. apply enc_inj in H1.
    assert (EP : P = smul E (Gb E) (x_of s s' c c')).
    { apply (extract (Gb E) P s s' c c'); auto; [apply (in_group_sub E L), GP1|apply (sub_G E L)|apply x_of_spec, N]. }
    assert (SX : scalar (x_of s s' c c')) by apply mod_scalar.
    destruct II as [|Im II]; cbn [nth_error length] in H, Li.
    + cbn [app] in H. destruct (IH ss ss' []) as (xx & K & _ & RV); auto; [cbn; lia| |].
      { assert (SH : forall t tt e j, mlsag_row E (P :: col) (t :: tt) [] e (S j) = mlsag_row E col tt [] e j) by (intros; unfold mlsag_row; cbn [nth]; destruct j; reflexivity).
        rewrite <- (map_ext _ _ (SH s ss c)), <- (map_ext _ _ (SH s' ss' c')). exact H. }
      exists (x_of s s' c c' :: xx). split; [constructor; auto|]. split; [reflexivity|].
      intros [|j] x; cbn [nth_error nth]; [|apply RV]. intros X. assert (x = x_of s s' c c') by congruence. subst x. apply x_of_spec, N.
    + apply cut32 in H; [|apply enc32..]. destruct H as [H2 H]. apply enc_inj in H2. pose proof (Forall_inv GI) as GI1. pose proof (Forall_inv_tail GI) as GI2.
      destruct (IH ss ss' II) as (xx & K & KI & RV); auto; [lia|].
      exists (x_of s s' c c' :: xx). split; [constructor; auto|]. split.
      * unfold key_images. cbn [length combine firstn map fst snd]. f_equal.
        { apply (extract (Hp E (encp E P)) Im s s' c c'); auto; [apply (in_group_sub E L), GI1|apply (sub_Hp E L)|apply x_of_spec, N]. }
        { rewrite KI at 1. reflexivity. }
      * intros [|j] x; cbn [nth_error nth]; [|apply RV]. intros X. assert (x = x_of s s' c c') by congruence. subst x. apply x_of_spec, N.
Qed.

End A.
Section B.
Context (E : ecops) (L : ec_laws E).
Local Notation hts := (hash_to_scalar E).
Local Notation zmul := (zmul E).
Local Notation sub := (sub E).
(** ** key images are unique *)
Lemma base_inj x y : Gb E <> pid E -> scalar x -> scalar y -> smul E (Gb E) x = smul E (Gb E) y -> x = y.
Proof.
  intros NG Sx Sy H. apply sub_zero; try assumption. apply Z.mod_divide; [discriminate|].
  destruct (Zdivide_dec l (x - y)) as [D|D]; [exact D|exfalso]. apply NG.
  rewrite !(smul_zmul E L) in H by (apply Sx || apply Sy).
  assert (Z0 : zmul (x - y) (Gb E) = pid E).
  { apply (cancel_l E L (zmul y (Gb E))). transitivity (zmul x (Gb E)); [lin E L|]. rewrite H. lin E L. }
  pose proof (prime_rel_prime l l_prime' (x - y) D) as R. apply rel_prime_bezout in R. destruct R as [u v B].
  rewrite <- (zmul_1 E L (Gb E)), <- B, (zmul_add E L), !(zmul_mul E L), Z0.
  pose proof (sub_G E L) as S. Local Transparent Ec_proof.sub. unfold Ec_proof.sub in S. Local Opaque Ec_proof.sub.
  rewrite S, !(zmul_id E L). apply (law_id E L).
Qed.

(** ** CLSAG *)
Lemma clsag_extract mu_P mu_C P C offset HP Im D s s' c c' : 0 <= s -> 0 <= s' -> c mod l <> c' mod l ->
  in_group E P -> in_group E C -> in_group E offset -> in_group E HP -> in_group E Im -> in_group E D ->
  clsag_L E mu_P mu_C P C offset s c = clsag_L E mu_P mu_C P C offset s' c' ->
  clsag_R E mu_P mu_C HP Im D s c = clsag_R E mu_P mu_C HP Im D s' c' ->
  exists w, revealed w s s' c c' /\
    smul E (Gb E) w = padd E (smul E P (mu_P mod l)) (smul E (padd E C (pneg E offset)) (mu_C mod l)) /\
    smul E HP w = padd E (smul E Im (mu_P mod l)) (smul E (smul E D 8) (mu_C mod l)).
Proof.
  intros Hs Hs' N GP GC GO GH GI GD. pose proof (in_group_sub E L) as GS. apply GS in GP, GC, GO, GH, GI, GD.
  assert (SQ : sub (padd E C (pneg E offset))) by (apply (sub_add E L); [exact GC|apply (sub_neg E L), GO]).
  assert (S8 : sub (smul E D 8)) by (rewrite (smul_zmul E L) by lia; apply (sub_zmul E L), GD).
  unfold clsag_L, clsag_R. rewrite !(smul_mod E L) by assumption.
  set (Q := padd E C (pneg E offset)) in *. set (D8 := smul E D 8) in *. clearbody Q D8.
  intros HL HR.
  assert (Com : forall B U V, sub U -> sub V -> sub B ->
     padd E (padd E (smul E B s) (zmul (mu_P * c) U)) (zmul (mu_C * c) V) = padd E (padd E (smul E B s') (zmul (mu_P * c') U)) (zmul (mu_C * c') V) ->
     smul E B (x_of s s' c c') = padd E (zmul mu_P U) (zmul mu_C V)).
  { intros B U V SU SV SB H. symmetry. apply (extract E L B _ s s' (c mod l) (c' mod l)).
    - exact Hs.
    - exact Hs'.
    - apply Z.mod_pos_bound. reflexivity.
    - apply Z.mod_pos_bound. reflexivity.
    - apply (sub_add E L); apply (sub_zmul E L); assumption.
    - exact SB.
    - rewrite !Zmod_mod. exact N.
    - apply revealed_mod, x_of_spec, N.
    - rewrite !(smul_mod E L) by (apply (sub_add E L); apply (sub_zmul E L); assumption).
      etransitivity; [|etransitivity; [exact H|]]; rewrite ?(smul_zmul E L) by assumption; lin E L. }
  exists (x_of s s' c c'). split; [apply x_of_spec, N|]. split.
  - apply Com; [assumption..|apply (sub_G E L)|exact HL].
  - apply Com; [assumption..|exact HR].
Qed.

(** ** range proofs *)
Lemma bit_extract C h s0 s1 ee s0' s1' ee' Hi : 0 <= s0 -> 0 <= s0' -> 0 <= s1 -> 0 <= s1' -> scalar ee -> scalar ee' -> ee <> ee' ->
  h = (fun s ee => hs E (encp E (padd E (smul E (Gb E) s) (smul E C ee)))) ->
  sub C -> sub Hi ->
  padd E (smul E (Gb E) s1) (smul E (padd E C (pneg E Hi)) (h s0 ee)) = padd E (smul E (Gb E) s1') (smul E (padd E C (pneg E Hi)) (h s0' ee')) ->
  collision E \/ exists x, scalar x /\ (C = smul E (Gb E) x \/ C = padd E (smul E (Gb E) x) Hi).
Proof.
  intros P0 P0' P1 P1' Se Se' N -> SC SH H. set (h := fun s ee => hs E (encp E (padd E (smul E (Gb E) s) (smul E C ee)))) in *.
  change (padd E (smul E (Gb E) s1) (smul E (padd E C (pneg E Hi)) (h s0 ee)) = padd E (smul E (Gb E) s1') (smul E (padd E C (pneg E Hi)) (h s0' ee'))) in H.
  assert (Sh : forall a b, scalar (h a b)) by (intros; apply mod_scalar).
  destruct (Z.eq_dec (h s0 ee) (h s0' ee')) as [Eh|Nh].
  - destruct (list_eq_dec Z.eq_dec (encp E (padd E (smul E (Gb E) s0) (smul E C ee))) (encp E (padd E (smul E (Gb E) s0') (smul E C ee')))) as [Q|Q].
    + right. apply (enc_inj E L) in Q. exists (x_of s0 s0' ee ee'). split; [apply mod_scalar|]. left.
      assert (N' : ee mod l <> ee' mod l) by (rewrite !scalar_small by assumption; exact N).
      apply (extract E L (Gb E) C s0 s0' ee ee'); [assumption..|apply Se|apply Se'|exact SC|apply (sub_G E L)|exact N'|apply x_of_spec, N'|exact Q].
    + left. eexists _, _. split; [exact Q|exact Eh].
  - right. exists (x_of s1 s1' (h s0 ee) (h s0' ee')). split; [apply mod_scalar|]. right.
    assert (N' : h s0 ee mod l <> h s0' ee' mod l) by (rewrite !scalar_small by apply Sh; exact Nh).
    assert (X : padd E C (pneg E Hi) = smul E (Gb E) (x_of s1 s1' (h s0 ee) (h s0' ee'))).
    { apply (extract E L (Gb E) _ s1 s1' (h s0 ee) (h s0' ee')); [assumption..|apply Sh|apply Sh| | |exact N'| |exact H].
      - apply (sub_add E L); [exact SC|apply (sub_neg E L), SH].
      - apply (sub_G E L).
      - apply x_of_spec, N'. }
    rewrite <- X. lin E L.
Qed.
Lemma bits_extract : forall Ci r, 
  (forall i C, nth_error Ci i = Some C -> collision E \/ exists x, scalar x /\ (C = smul E (Gb E) x \/ C = padd E (smul E (Gb E) x) (smul E (Hb E) (2 ^ Z.of_nat (r + i))))) ->
  collision E \/ exists m a, 0 <= a < 2 ^ Z.of_nat (length Ci) /\ scalar m /\ psum E Ci = padd E (smul E (Gb E) m) (smul E (Hb E) (a * 2 ^ Z.of_nat r)).
Proof.
  induction Ci as [|C Ci IH]; intros r H.
  - right. exists 0, 0. split; [cbn; lia|]. split; [apply scalar_0|]. cbn [psum fold_right]. rewrite Z.mul_0_l, !(smul_zmul E L), !(zmul_0 E) by lia. symmetry. apply (law_id E L).
  - destruct (IH (S r)) as [K|(m & a & Ha & Sm & HS)].
    { intros i C0 Hn. destruct (H (S i) C0 Hn) as [K|K]; [left; exact K|right]. rewrite Nat.add_succ_comm. exact K. }
    { left. exact K. }
    destruct (H O C eq_refl) as [K|(x & Sx & HC)]; [left; exact K|right]. rewrite Nat.add_0_r in HC.
    assert (E2 : 2 ^ Z.of_nat (S r) = 2 * 2 ^ Z.of_nat r) by (rewrite Nat2Z.inj_succ, Z.pow_succ_r by lia; reflexivity).
    assert (EL : 2 ^ Z.of_nat (length (C :: Ci)) = 2 * 2 ^ Z.of_nat (length Ci)) by (cbn [length]; rewrite Nat2Z.inj_succ, Z.pow_succ_r by lia; reflexivity).
    assert (PR : 0 <= 2 ^ Z.of_nat r) by (apply Z.pow_nonneg; lia).
    assert (T : forall b, b = 0 \/ b = 1 -> C = padd E (zmul x (Gb E)) (zmul (b * 2 ^ Z.of_nat r) (Hb E)) ->
       exists m a, 0 <= a < 2 ^ Z.of_nat (length (C :: Ci)) /\ scalar m /\ psum E (C :: Ci) = padd E (smul E (Gb E) m) (smul E (Hb E) (a * 2 ^ Z.of_nat r))).
    { intros b Hb HC'. exists ((x + m) mod l), (b + 2 * a). split; [rewrite EL; lia|]. split; [apply mod_scalar|].
      cbn [psum fold_right]. fold (psum E Ci). rewrite HS, HC' at 1. rewrite E2.
      rewrite (smul_mod E L) by apply (sub_G E L). rewrite !(smul_zmul E L); [|first [nia|apply Sm]..]. lin E L. }
    destruct HC as [HC|HC]; rewrite !(smul_zmul E L) in HC by (apply Sx || assumption).
    + apply (T 0); [auto|]. rewrite HC. rewrite Z.mul_0_l, (zmul_0 E), (id_r E L). reflexivity.
    + apply (T 1); [auto|]. rewrite HC, Z.mul_1_l. reflexivity.
Qed.
Lemma range_extract R R' : rs_Ci E R = rs_Ci E R' -> length (rs_Ci E R) = 64%nat -> Forall (in_group E) (rs_Ci E R) ->
  scalar (rs_ee E R) -> scalar (rs_ee E R') -> rs_ee E R <> rs_ee E R' ->
  Forall (fun s => 0 <= s) (rs_s0 E R ++ rs_s1 E R ++ rs_s0 E R' ++ rs_s1 E R') ->
  (forall i, (i < 64)%nat -> range_point E R i = range_point E R' i) ->
  collision E \/ exists m a, 0 <= a < 2 ^ 64 /\ scalar m /\ psum E (rs_Ci E R) = commit E m a.
Proof.
  intros EC Len G Se Se' N P H.
  assert (NN : forall (xs : list Z) i, Forall (fun s => 0 <= s) xs -> 0 <= nth i xs 0).
  { intros xs i F. destruct (nth_in_or_default i xs 0) as [X|X]; [|lia]. rewrite Forall_forall in F. apply F, X. }
  apply Forall_app in P. destruct P as [P0 P]. apply Forall_app in P. destruct P as [P1 P]. apply Forall_app in P. destruct P as [P0' P1'].
  destruct (bits_extract (rs_Ci E R) 0) as [K|(m & a & Ha & Sm & HS)].
  - intros i C Hn. assert (Hi : (i < 64)%nat) by (rewrite <- Len; apply nth_error_Some; congruence).
    specialize (H i Hi). unfold range_point in H. cbv zeta in H. rewrite <- EC in H. rewrite (nth_error_nth _ _ (pid E) Hn) in H.
    assert (GC : in_group E C) by (rewrite Forall_forall in G; apply G; eapply nth_error_In; exact Hn).
    eapply bit_extract with (s0 := nth i (rs_s0 E R) 0) (s0' := nth i (rs_s0 E R') 0) (s1 := nth i (rs_s1 E R) 0) (s1' := nth i (rs_s1 E R') 0) (ee := rs_ee E R) (ee' := rs_ee E R');
      try reflexivity; try apply NN; try assumption.
    + apply (in_group_sub E L), GC.
    + rewrite (smul_zmul E L) by (apply Z.pow_nonneg; lia). apply (sub_zmul E L), (sub_H E L).
  - left. exact K.
  - right. exists m, a. rewrite Len in Ha. split; [exact Ha|]. split; [exact Sm|]. rewrite HS. cbn [Z.of_nat]. rewrite Z.pow_0_r, Z.mul_1_r. reflexivity.
Qed.
End B.
