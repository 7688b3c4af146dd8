(** The code's coordinate arithmetic against the affine curve over F_q. *)
From Verif Require Import Py PyLemmas Digits Ints_model Ints_proof Ints_proof2 Primes Fq Curve0 Curve Ed25519_model.
From Coq Require Import Znumtheory Zpow_facts Field Ring.
Add Field Ffield : F_field.
Local Open Scope F_scope.
Ltac Zify.zify_post_hook ::= idtac.

Lemma q_eq : q = q255.
Proof. reflexivity. Qed.
Lemma fzq x : fz (x mod q) = fz x.
Proof. rewrite q_eq. apply fz_mod. Qed.

(** ** powers *)
Lemma powm_mod n b : (0 < n)%Z -> forall e, powm (fun x => (x mod n)%Z) b e = (b ^ Z.pos e mod n)%Z.
Proof. intros Hn. apply powm_spec. reflexivity. Qed.
Lemma pypow_F b e : (0 <= e)%Z -> fz (pypow b e q) = fpow (fz b) e.
Proof.
  intros He. rewrite <- fz_pow. destruct e as [|e|e]; [apply fzq| |lia]. cbn [pypow]. rewrite powm_mod by reflexivity. apply fzq.
Qed.
Lemma pypow_range b e : (0 <= e)%Z -> (0 <= pypow b e q < q)%Z.
Proof.
  intros He. destruct e as [|e|e]; [apply Z.mod_pos_bound; reflexivity| |lia]. cbn [pypow]. rewrite powm_mod by reflexivity. apply Z.mod_pos_bound. reflexivity.
Qed.
Lemma expmod_pos_spec b m : (1 < m)%Z -> forall e, expmod_pos b e m = (b ^ Z.pos e mod m)%Z.
Proof.
  intros Hm. assert (K : forall x, (x ^ 2 = x * x)%Z) by (intros; ring).
  induction e as [e IH|e IH|]; cbn [expmod_pos].
  - rewrite IH, K, <- Zmult_mod, Zmult_mod_idemp_l. f_equal.
    rewrite (Pos2Z.inj_xI e). replace (2 * Z.pos e + 1)%Z with (Z.succ (Z.pos e + Z.pos e)) by lia. rewrite Z.pow_succ_r, Z.pow_add_r by lia. ring.
  - rewrite IH, K, <- Zmult_mod. f_equal. rewrite (Pos2Z.inj_xO e). replace (2 * Z.pos e)%Z with (Z.pos e + Z.pos e)%Z by lia. rewrite Z.pow_add_r by lia. reflexivity.
  - rewrite Zmult_mod_idemp_l. f_equal. ring.
Qed.
Lemma expmod_F b e : (0 <= e)%Z -> fz (expmod b e q) = fpow (fz b) e.
Proof.
  intros He. rewrite <- fz_pow. destruct e as [|e|e]; [reflexivity| |lia]. unfold expmod. rewrite expmod_pos_spec by reflexivity. apply fzq.
Qed.
Lemma pow2_F x p : fz (pow2 x p) = fpow (fz x) (2 ^ Z.of_nat p).
Proof.
  revert x. induction p as [|p IH]; intros x; cbn [pow2]; [symmetry; apply fpow_1|].
  rewrite IH, fzq, fz_mul, <- fpow_2, <- fpow_mul by lia. f_equal. rewrite Nat2Z.inj_succ, Z.pow_succ_r by lia. reflexivity.
Qed.
Section Chain.
Context (z : F).
Lemma ch_mul a b m n : fz a = fpow z m -> fz b = fpow z n -> (0 <= m)%Z -> (0 <= n)%Z -> fz (a * b mod q) = fpow z (m + n).
Proof. intros Ha Hb Hm Hn. rewrite fzq, fz_mul, Ha, Hb, fpow_add by assumption. reflexivity. Qed.
Lemma ch_pow a m p : fz a = fpow z m -> (0 <= m)%Z -> fz (pow2 a p) = fpow z (m * 2 ^ Z.of_nat p).
Proof. intros Ha Hm. rewrite pow2_F, Ha, <- fpow_mul by lia. reflexivity. Qed.
End Chain.
Lemma nn m : (0 <=? m)%Z = true -> (0 <= m)%Z. Proof. apply Z.leb_le. Qed.
Lemma inv_F z : fz (inv z) = finv (fz z).
Proof.
  set (w := fz z). pose proof (fpow_1 w) as H1. symmetry in H1.
  unfold inv. cbv zeta.
  set (z2 := (z * z mod q)%Z). pose proof (ch_mul w z z 1 1 H1 H1 ltac:(vm_compute; discriminate) ltac:(vm_compute; discriminate)) as H2. fold z2 in H2.
  set (z9 := (pow2 z2 2 * z mod q)%Z). pose proof (ch_mul w _ _ _ _ (ch_pow w _ _ 2 H2 ltac:(vm_compute; discriminate)) H1 ltac:(vm_compute; discriminate) ltac:(vm_compute; discriminate)) as H9. fold z9 in H9.
  set (z11 := (z9 * z2 mod q)%Z). pose proof (ch_mul w _ _ _ _ H9 H2 ltac:(vm_compute; discriminate) ltac:(vm_compute; discriminate)) as H11. fold z11 in H11.
  set (z5 := ((z11 * z11) mod q * z9 mod q)%Z). pose proof (ch_mul w _ _ _ _ (ch_mul w _ _ _ _ H11 H11 ltac:(vm_compute; discriminate) ltac:(vm_compute; discriminate)) H9 ltac:(vm_compute; discriminate) ltac:(vm_compute; discriminate)) as H5. fold z5 in H5.
  set (z10 := (pow2 z5 5 * z5 mod q)%Z). pose proof (ch_mul w _ _ _ _ (ch_pow w _ _ 5 H5 ltac:(vm_compute; discriminate)) H5 ltac:(vm_compute; discriminate) ltac:(vm_compute; discriminate)) as H10. fold z10 in H10.
  set (z20 := (pow2 z10 10 * z10 mod q)%Z). pose proof (ch_mul w _ _ _ _ (ch_pow w _ _ 10 H10 ltac:(vm_compute; discriminate)) H10 ltac:(vm_compute; discriminate) ltac:(vm_compute; discriminate)) as H20. fold z20 in H20.
  set (z40 := (pow2 z20 20 * z20 mod q)%Z). pose proof (ch_mul w _ _ _ _ (ch_pow w _ _ 20 H20 ltac:(vm_compute; discriminate)) H20 ltac:(vm_compute; discriminate) ltac:(vm_compute; discriminate)) as H40. fold z40 in H40.
  set (z50 := (pow2 z40 10 * z10 mod q)%Z). pose proof (ch_mul w _ _ _ _ (ch_pow w _ _ 10 H40 ltac:(vm_compute; discriminate)) H10 ltac:(vm_compute; discriminate) ltac:(vm_compute; discriminate)) as H50. fold z50 in H50.
  set (z100 := (pow2 z50 50 * z50 mod q)%Z). pose proof (ch_mul w _ _ _ _ (ch_pow w _ _ 50 H50 ltac:(vm_compute; discriminate)) H50 ltac:(vm_compute; discriminate) ltac:(vm_compute; discriminate)) as H100. fold z100 in H100.
  set (z200 := (pow2 z100 100 * z100 mod q)%Z). pose proof (ch_mul w _ _ _ _ (ch_pow w _ _ 100 H100 ltac:(vm_compute; discriminate)) H100 ltac:(vm_compute; discriminate) ltac:(vm_compute; discriminate)) as H200. fold z200 in H200.
  set (z250 := (pow2 z200 50 * z50 mod q)%Z). pose proof (ch_mul w _ _ _ _ (ch_pow w _ _ 50 H200 ltac:(vm_compute; discriminate)) H50 ltac:(vm_compute; discriminate) ltac:(vm_compute; discriminate)) as H250. fold z250 in H250.
  pose proof (ch_mul w _ _ _ _ (ch_pow w _ _ 5 H250 ltac:(vm_compute; discriminate)) H11 ltac:(vm_compute; discriminate) ltac:(vm_compute; discriminate)) as H. rewrite H. Transparent finv. unfold finv. Opaque finv. f_equal.
Qed.

Lemma pow2F_2 : fz 2 = 1 + 1. Proof. change 2%Z with (1 + 1)%Z. apply fz_add. Qed.
Ltac fzs := repeat (rewrite fzq || rewrite fz_mul || rewrite fz_add || rewrite fz_sub || rewrite fz_opp).

(** ** constants *)
Lemma solve_mul a b c : c <> 0 -> a * c = b * c -> a = b.
Proof. intros Hc H. destruct (inv_rw c Hc) as [K _]. transitivity (a * c * finv c); [transitivity (a * (c * finv c)); [rewrite K; ring|ring]|rewrite H; transitivity (b * (c * finv c)); [ring|rewrite K; ring]]. Qed.
Lemma d_from_inv x : fz x = finv (fz 121666) -> fz (-121665 * x) = dF.
Proof.
  intros H. apply (solve_mul _ _ (fz 121666) n121666). rewrite d_eq, fz_mul, H. destruct (inv_rw _ n121666) as [K _].
  transitivity (fz (-121665) * (fz 121666 * finv (fz 121666))); [ring|rewrite K; ring].
Qed.
Lemma d_F : fz d = dF.
Proof. unfold d. rewrite fzq. apply d_from_inv, inv_F. Qed.
Lemma modp_inv_F x : fz (modp_inv x) = finv (fz x).
Proof. unfold modp_inv. rewrite pypow_F by discriminate. reflexivity. Qed.
Lemma aff_inv_F x : fz (aff_inv x) = finv (fz x).
Proof. unfold aff_inv. rewrite expmod_F by discriminate. reflexivity. Qed.
Lemma ietf_d_F : fz ietf_d = dF.
Proof. unfold ietf_d. rewrite fzq. apply d_from_inv, modp_inv_F. Qed.
Lemma aff_d_F : fz aff_d = dF.
Proof. apply d_from_inv, aff_inv_F. Qed.

Opaque Ints_model.q d ietf_d aff_d inv modp_inv aff_inv Z.modulo Z.mul Z.add Z.sub Z.opp.

(** ** what a tuple of the code stands for *)
Definition rep (P : quad) (x y : F) : Prop :=
  let '(X, Y, Z, T) := P in fz Z <> 0 /\ fz X = x * fz Z /\ fz Y = y * fz Z /\ fz T = x * y * fz Z.

Lemma rep_ident : rep ident 0 1.
Proof. cbn [rep ident]. split; [apply one_neq_zero|]. split; [ring|]. split; ring. Qed.
Lemma oncurve_id : oncurve 0 1.
Proof. unfold oncurve. ring. Qed.

Lemma add_alg x1 y1 x2 y2 k : oncurve x1 y1 -> oncurve x2 y2 -> k <> 0 ->
  let e := dF * (x1 * x2 * (y1 * y2)) in
  let E := k * (x1 * y2 + x2 * y1) in let G := k * (1 + e) in let Ff := k * (1 - e) in let H := k * (y1 * y2 + x1 * x2) in
  Ff * G <> 0 /\ E * Ff = addx x1 y1 x2 y2 * (Ff * G) /\ G * H = addy x1 y1 x2 y2 * (Ff * G) /\ E * H = addx x1 y1 x2 y2 * addy x1 y1 x2 y2 * (Ff * G).
Proof.
  intros C1 C2 Hk e E G Ff H. pose proof (complete_plus _ _ _ _ C1 C2) as N1. pose proof (complete_minus _ _ _ _ C1 C2) as N2. fold e in N1, N2.
  split; [unfold Ff, G; repeat apply fmul_nz; assumption|].
  unfold addx, addy. fold e. rewrite !fdiv_mul. destruct (inv_rw _ N1) as [P1 _]. destruct (inv_rw _ N2) as [M1 _].
  unfold E, Ff, G, H. clearbody e. set (p := finv (1 + e)) in *. set (m := finv (1 - e)) in *. set (A := x1 * y2 + x2 * y1). set (Bb := y1 * y2 + x1 * x2). clearbody p m A Bb.
  split; [|split].
  - transitivity (A * k * (k * (1 - e)) * ((1 + e) * p)); [rewrite P1; ring|ring].
  - transitivity (Bb * k * (k * (1 + e)) * ((1 - e) * m)); [rewrite M1; ring|ring].
  - transitivity (A * Bb * k * k * ((1 + e) * p) * ((1 - e) * m)); [rewrite P1, M1; ring|ring].
Qed.
Lemma two_nz : 1 + 1 <> 0. Proof. rewrite <- pow2F_2. exact n2. Qed.
Lemma edwards_add_rep P Q x1 y1 x2 y2 : rep P x1 y1 -> rep Q x2 y2 -> oncurve x1 y1 -> oncurve x2 y2 ->
  rep (edwards_add P Q) (addx x1 y1 x2 y2) (addy x1 y1 x2 y2).
Proof.
  destruct P as [[[X1 Y1] Z1] T1]. destruct Q as [[[X2 Y2] Z2] T2]. cbn [rep]. intros (N1 & HX1 & HY1 & HT1) (N2 & HX2 & HY2 & HT2) C1 C2.
  unfold edwards_add. cbv zeta. cbn [rep]. fzs. rewrite d_F, pow2F_2, HX1, HY1, HT1, HX2, HY2, HT2.
  set (z1 := fz Z1) in *. set (z2 := fz Z2) in *. clearbody z1 z2.
  destruct (add_alg x1 y1 x2 y2 ((1 + 1) * (z1 * z2)) C1 C2) as (K0 & K1 & K2 & K3).
  { repeat apply fmul_nz; try assumption. exact two_nz. }
  set (e := dF * (x1 * x2 * (y1 * y2))) in *.
  assert (EE : (y1 * z1 + x1 * z1) * (y2 * z2 + x2 * z2) - (y1 * z1 - x1 * z1) * (y2 * z2 - x2 * z2) = (1 + 1) * (z1 * z2) * (x1 * y2 + x2 * y1)) by ring.
  assert (EH : (y1 * z1 + x1 * z1) * (y2 * z2 + x2 * z2) + (y1 * z1 - x1 * z1) * (y2 * z2 - x2 * z2) = (1 + 1) * (z1 * z2) * (y1 * y2 + x1 * x2)) by ring.
  assert (EF : z1 * (1 + 1) * z2 - x1 * y1 * z1 * (1 + 1) * dF * (x2 * y2 * z2) = (1 + 1) * (z1 * z2) * (1 - e)) by (unfold e; ring).
  assert (EG : z1 * (1 + 1) * z2 + x1 * y1 * z1 * (1 + 1) * dF * (x2 * y2 * z2) = (1 + 1) * (z1 * z2) * (1 + e)) by (unfold e; ring).
  rewrite EE, EH, EF, EG. split; [exact K0|]. split; [exact K1|]. split; [exact K2|exact K3].
Qed.
Lemma edwards_double_rep P x y : rep P x y -> oncurve x y -> rep (edwards_double P) (addx x y x y) (addy x y x y).
Proof.
  destruct P as [[[X1 Y1] Z1] T1]. cbn [rep]. intros (N1 & HX1 & HY1 & HT1) C1.
  unfold edwards_double. cbv zeta. cbn [rep]. fzs. rewrite pow2F_2, HX1, HY1. set (z := fz Z1) in *. clearbody z. clear HX1 HY1 HT1.
  destruct (add_alg x y x y (z * z) C1 C1) as (K0 & K1 & K2 & K3); [apply fmul_nz; assumption|].
  unfold oncurve in C1. set (e := dF * (x * x * (y * y))) in *.
  assert (EE : (x * z + y * z) * (x * z + y * z) - x * z * (x * z) - y * z * (y * z) = z * z * (x * y + x * y)) by ring.
  assert (EG : - (x * z * (x * z)) + y * z * (y * z) = z * z * (1 + e)) by (rewrite <- C1; ring).
  assert (EF : - (x * z * (x * z)) + y * z * (y * z) - (1 + 1) * z * z = - (z * z * (1 - e))) by (rewrite EG; ring).
  assert (EH : - (x * z * (x * z)) - y * z * (y * z) = - (z * z * (y * y + x * x))) by ring.
  rewrite EE, EF, EG, EH.
  split; [|split; [|split]].
  - intros K. apply K0. transitivity (- (- (z * z * (1 - e)) * (z * z * (1 + e)))); [ring|rewrite K; ring].
  - transitivity (- (z * z * (x * y + x * y) * (z * z * (1 - e)))); [ring|]. rewrite K1. ring.
  - transitivity (- (z * z * (1 + e) * (z * z * (y * y + x * x)))); [ring|]. rewrite K2. ring.
  - transitivity (- (z * z * (x * y + x * y) * (z * z * (y * y + x * x)))); [ring|]. rewrite K3. ring.
Qed.
Lemma ietf_add_rep P Q x1 y1 x2 y2 : rep P x1 y1 -> rep Q x2 y2 -> oncurve x1 y1 -> oncurve x2 y2 ->
  rep (ietf_point_add P Q) (addx x1 y1 x2 y2) (addy x1 y1 x2 y2).
Proof.
  destruct P as [[[X1 Y1] Z1] T1]. destruct Q as [[[X2 Y2] Z2] T2]. cbn [rep]. intros (N1 & HX1 & HY1 & HT1) (N2 & HX2 & HY2 & HT2) C1 C2.
  unfold ietf_point_add. cbv zeta. cbn [rep]. fzs. rewrite ietf_d_F, pow2F_2, HX1, HY1, HT1, HX2, HY2, HT2.
  set (z1 := fz Z1) in *. set (z2 := fz Z2) in *. clearbody z1 z2.
  destruct (add_alg x1 y1 x2 y2 ((1 + 1) * (z1 * z2)) C1 C2) as (K0 & K1 & K2 & K3).
  { repeat apply fmul_nz; try assumption. exact two_nz. }
  set (e := dF * (x1 * x2 * (y1 * y2))) in *.
  assert (EE : (y1 * z1 + x1 * z1) * (y2 * z2 + x2 * z2) - (y1 * z1 - x1 * z1) * (y2 * z2 - x2 * z2) = (1 + 1) * (z1 * z2) * (x1 * y2 + x2 * y1)) by ring.
  assert (EH : (y1 * z1 + x1 * z1) * (y2 * z2 + x2 * z2) + (y1 * z1 - x1 * z1) * (y2 * z2 - x2 * z2) = (1 + 1) * (z1 * z2) * (y1 * y2 + x1 * x2)) by ring.
  assert (EF : (1 + 1) * z1 * z2 - (1 + 1) * (x1 * y1 * z1) * (x2 * y2 * z2) * dF = (1 + 1) * (z1 * z2) * (1 - e)) by (unfold e; ring).
  assert (EG : (1 + 1) * z1 * z2 + (1 + 1) * (x1 * y1 * z1) * (x2 * y2 * z2) * dF = (1 + 1) * (z1 * z2) * (1 + e)) by (unfold e; ring).
  rewrite EE, EH, EF, EG. split; [exact K0|]. split; [exact K1|]. split; [exact K2|exact K3].
Qed.

(** the representation determines the point *)
Lemma rep_inj P x1 y1 x2 y2 : rep P x1 y1 -> rep P x2 y2 -> x1 = x2 /\ y1 = y2.
Proof.
  destruct P as [[[X Y] Z] T]. cbn [rep]. intros (N & HX & HY & _) (_ & HX' & HY' & _).
  split; apply (solve_mul _ _ (fz Z) N); congruence.
Qed.
(** every tuple the membership test accepts stands for a curve point, and conversely *)
Lemma fz_zero x : fz x = 0 <-> (x mod q = 0)%Z.
Proof. rewrite fz_eq, q_eq. rewrite (Z.mod_small 0) by (pose proof q_pos; lia). reflexivity. Qed.
Lemma fz_eqb x y : (x mod q =? y mod q)%Z = true <-> fz x = fz y.
Proof. rewrite Z.eqb_eq, q_eq. symmetry. apply fz_eq. Qed.
Lemma isoncurve_rep P : isoncurve P = true <-> exists x y, rep P x y /\ oncurve x y.
Proof.
  destruct P as [[[X Y] Zz] T]. cbn [isoncurve rep].
  assert (E1 : (Zz mod q =? 0)%Z = true <-> fz Zz = 0) by (rewrite Z.eqb_eq; symmetry; apply fz_zero).
  assert (E2 : (X * Y mod q =? Zz * T mod q)%Z = true <-> fz X * fz Y = fz Zz * fz T) by (rewrite <- !fz_mul; apply fz_eqb).
  assert (E3 : ((Y * Y - X * X - Zz * Zz - d * T * T) mod q =? 0)%Z = true <-> fz Y * fz Y - fz X * fz X - fz Zz * fz Zz - dF * fz T * fz T = 0).
  { rewrite Z.eqb_eq, <- d_F, <- !fz_mul, <- !fz_sub. symmetry. apply fz_zero. }
  revert E1 E2 E3. generalize (Zz mod q =? 0)%Z, (X * Y mod q =? Zz * T mod q)%Z, ((Y * Y - X * X - Zz * Zz - d * T * T) mod q =? 0)%Z.
  intros b1 b2 b3 E1 E2 E3. rewrite !andb_true_iff, negb_true_iff, E2, E3, <- not_true_iff_false, E1. clear E1 E2 E3 b1 b2 b3. split.
  - intros ((N & Ht) & Hc). destruct (inv_rw _ N) as [K _]. exists (fz X * finv (fz Zz)), (fz Y * finv (fz Zz)).
    set (z := fz Zz) in *. set (w := finv z) in *. clearbody w z. set (xx := fz X) in *. set (yy := fz Y) in *. set (t := fz T) in *. clearbody xx yy t.
    assert (Et : t = xx * yy * w) by (rewrite Ht; transitivity (t * (z * w)); [rewrite K; ring|ring]).
    split; [split; [exact N|]; split; [|split]|].
    + transitivity (xx * (z * w)); [rewrite K; ring|ring].
    + transitivity (yy * (z * w)); [rewrite K; ring|ring].
    + rewrite Et. transitivity (xx * yy * w * (z * w)); [rewrite K; ring|ring].
    + unfold oncurve. apply fsub_eq. transitivity ((yy * yy - xx * xx - z * z - dF * t * t) * (w * w)); [|rewrite Hc; ring].
      rewrite Et. transitivity (yy * w * (yy * w) - xx * w * (xx * w) - (z * w) * (z * w) - dF * (xx * w * (xx * w) * (yy * w * (yy * w)))); [rewrite K; ring|ring].
  - intros (x & y & (N & HX & HY & HT) & C). split; [split; [exact N|]|].
    + rewrite HX, HY, HT. ring.
    + rewrite HX, HY, HT. unfold oncurve in C. set (z := fz Zz) in *. clearbody z.
      transitivity (z * z * (y * y - x * x - (1 + dF * (x * x * (y * y))))); [ring|]. rewrite C. ring.
Qed.
(** comparison *)
Lemma point_equal_rep P Q x1 y1 x2 y2 : rep P x1 y1 -> rep Q x2 y2 -> (point_equal P Q = true <-> x1 = x2 /\ y1 = y2).
Proof.
  destruct P as [[[X1 Y1] Z1] T1]. destruct Q as [[[X2 Y2] Z2] T2]. cbn [rep point_equal]. intros (N1 & HX1 & HY1 & _) (N2 & HX2 & HY2 & _).
  assert (N : fz Z1 * fz Z2 <> 0) by (apply fmul_nz; assumption).
  assert (KX : ((X1 * Z2 - X2 * Z1) mod q =? 0)%Z = true <-> x1 = x2).
  { rewrite Z.eqb_eq, <- fz_zero. fzs. rewrite HX1, HX2. split.
    - intros H. apply (solve_mul _ _ _ N). apply fsub_eq. rewrite <- H. ring.
    - intros ->. ring. }
  assert (KY : ((Y1 * Z2 - Y2 * Z1) mod q =? 0)%Z = true <-> y1 = y2).
  { rewrite Z.eqb_eq, <- fz_zero. fzs. rewrite HY1, HY2. split.
    - intros H. apply (solve_mul _ _ _ N). apply fsub_eq. rewrite <- H. ring.
    - intros ->. ring. }
  rewrite <- KX, <- KY. destruct ((X1 * Z2 - X2 * Z1) mod q =? 0)%Z; cbn [negb]; destruct ((Y1 * Z2 - Y2 * Z1) mod q =? 0)%Z; cbn [negb]; intuition congruence.
Qed.
(** negation *)
Lemma oncurve_neg x y : oncurve x y -> oncurve (- x) y.
Proof. unfold oncurve. intros H. replace (- x * - x) with (x * x) by ring. exact H. Qed.
Lemma invert_rep P x y : rep P x y -> rep (invert_v P) (- x) y.
Proof.
  destruct P as [[[X Y] Z] T]. cbn [rep invert_v]. intros (N & HX & HY & HT). rewrite !fzq, !fz_mul, HX, HT. change (-1)%Z with (- (1))%Z. rewrite fz_opp.
  split; [exact N|]. split; [ring|]. split; [exact HY|ring].
Qed.
