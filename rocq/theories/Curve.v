(** The curve -x^2 + y^2 = 1 + d x^2 y^2 over F_q: completeness of the addition law and
    group laws. *)
From Verif Require Import Primes Fq Curve0.
From Coq Require Import List ZArith Lia Bool Field Ring.
Add Field Ffield : F_field.
Local Open Scope F_scope.
Global Opaque dF im fz fadd fmul fsub fopp finv fdiv fpow.

(** ** the curve *)
Definition oncurve (x y : F) : Prop := y * y - x * x = 1 + dF * (x * x * (y * y)).
Lemma fmul_nz a b : a <> 0 -> b <> 0 -> a * b <> 0.
Proof. intros Ha Hb H. apply F_domain in H. tauto. Qed.
Lemma fsub_eq a b : a - b = 0 -> a = b.
Proof. intros H. replace a with (a - b + b) by ring. rewrite H. ring. Qed.

(** completeness *)
Lemma complete_aux x1 y1 x2 y2 e : oncurve x1 y1 -> oncurve x2 y2 -> e * e = 1 -> dF * (x1 * x2 * (y1 * y2)) <> e.
Proof.
  intros C1 C2 He E. unfold oncurve in *.
  assert (K : forall s, s * s = - (1) -> dF * ((x1 * y1 * (y2 + s * x2)) * (x1 * y1 * (y2 + s * x2))) = (y1 + s * (e * x1)) * (y1 + s * (e * x1))).
  { intros s Hs.
    replace (dF * ((x1 * y1 * (y2 + s * x2)) * (x1 * y1 * (y2 + s * x2)))) with
      (dF * (x1 * x1 * (y1 * y1)) * (y2 * y2 + s * s * (x2 * x2)) + (1 + 1) * s * (dF * (x1 * x2 * (y1 * y2))) * (x1 * y1)) by ring.
    replace ((y1 + s * (e * x1)) * (y1 + s * (e * x1))) with (y1 * y1 + s * s * (e * e) * (x1 * x1) + (1 + 1) * s * e * (x1 * y1)) by ring.
    rewrite E, Hs, He. replace (y2 * y2 + - (1) * (x2 * x2)) with (1 + dF * (x2 * x2 * (y2 * y2))) by (rewrite <- C2; ring).
    replace (dF * (x1 * x1 * (y1 * y1)) * (1 + dF * (x2 * x2 * (y2 * y2)))) with
      (dF * (x1 * x1 * (y1 * y1)) + (dF * (x1 * x2 * (y1 * y2))) * (dF * (x1 * x2 * (y1 * y2)))) by ring.
    rewrite E, He. replace (dF * (x1 * x1 * (y1 * y1))) with (y1 * y1 - x1 * x1 - 1) by (rewrite C1; ring). ring. }
  assert (Nz : e <> 0) by (intros ->; apply one_neq_zero; rewrite <- He; ring).
  assert (Zs : forall s, s * s = - (1) -> y2 + s * x2 = 0).
  { intros s Hs. destruct (F_eq_dec (y2 + s * x2) 0) as [Z|Z]; [exact Z|exfalso].
    assert (N1 : x1 * y1 * (y2 + s * x2) <> 0).
    { apply fmul_nz; [|exact Z]. intros W. apply Nz. rewrite <- E. replace (dF * (x1 * x2 * (y1 * y2))) with (dF * (x1 * y1) * (x2 * y2)) by ring. rewrite W. ring. }
    pose proof (K s Hs) as K'. set (u := x1 * y1 * (y2 + s * x2)) in *. apply (nonsquare_d ((y1 + s * (e * x1)) / u)).
    transitivity (dF * (u * u) / (u * u)); [field; exact N1|]. rewrite K'. field. exact N1. }
  pose proof (Zs im im_sq) as Z1. assert (Hm : (- im) * (- im) = - (1)) by (rewrite <- im_sq; ring). pose proof (Zs (- im) Hm) as Z2.
  assert (Y : y2 * fz 2 = 0) by (change (fz 2) with (fz (1 + 1)); rewrite fz_add; transitivity ((y2 + im * x2) + (y2 + - im * x2)); [ring|rewrite Z1, Z2; ring]).
  apply F_domain in Y. destruct Y as [Y|Y]; [|exact (n2 Y)]. apply Nz. rewrite <- E, Y. ring.
Qed.
Lemma complete_plus x1 y1 x2 y2 : oncurve x1 y1 -> oncurve x2 y2 -> 1 + dF * (x1 * x2 * (y1 * y2)) <> 0.
Proof.
  intros C1 C2 H. apply (complete_aux x1 y1 x2 y2 (- (1)) C1 C2); [ring|].
  transitivity (1 + dF * (x1 * x2 * (y1 * y2)) - 1); [ring|rewrite H; ring].
Qed.
Lemma complete_minus x1 y1 x2 y2 : oncurve x1 y1 -> oncurve x2 y2 -> 1 - dF * (x1 * x2 * (y1 * y2)) <> 0.
Proof.
  intros C1 C2 H. apply (complete_aux x1 y1 x2 y2 1 C1 C2); [ring|]. apply fsub_eq in H. symmetry. exact H.
Qed.

(** affine law *)
Definition addx (x1 y1 x2 y2 : F) : F := (x1 * y2 + x2 * y1) / (1 + dF * (x1 * x2 * (y1 * y2))).
Definition addy (x1 y1 x2 y2 : F) : F := (y1 * y2 + x1 * x2) / (1 - dF * (x1 * x2 * (y1 * y2))).

Lemma di_ex : exists di, dF * di = 1.
Proof. exists (finv dF). rewrite <- (finv_l dF d_nz). ring. Qed.
Lemma curve_rw di x y : dF * di = 1 -> oncurve x y -> x * x * y * y = di * (y * y - x * x - 1).
Proof. intros Hd C. unfold oncurve in C. rewrite C. transitivity (dF * di * (x * x * (y * y))); [rewrite Hd; ring|ring]. Qed.

Lemma fdiv_mul a b : a / b = a * finv b.
Proof. Transparent fdiv. reflexivity. Opaque fdiv. Qed.
Lemma inv_rw a : a <> 0 -> a * finv a = 1 /\ finv a <> 0.
Proof.
  intros H. assert (K : a * finv a = 1) by (rewrite <- (finv_l a H); ring). split; [exact K|]. intros Z. rewrite Z in K.
  apply one_neq_zero. rewrite <- K. ring.
Qed.
Lemma closure x1 y1 x2 y2 : oncurve x1 y1 -> oncurve x2 y2 -> oncurve (addx x1 y1 x2 y2) (addy x1 y1 x2 y2).
Proof.
  intros C1 C2. pose proof (complete_plus _ _ _ _ C1 C2) as N1. pose proof (complete_minus _ _ _ _ C1 C2) as N2.
  destruct di_ex as [di Hd]. pose proof (curve_rw di _ _ Hd C1) as R1. pose proof (curve_rw di _ _ Hd C2) as R2.
  unfold oncurve, addx, addy. set (e := dF * (x1 * x2 * (y1 * y2))) in *. set (A := x1 * y2 + x2 * y1). set (B := y1 * y2 + x1 * x2).
  assert (K : B * B * ((1 + e) * (1 + e)) - A * A * ((1 - e) * (1 - e)) = (1 - e) * (1 + e) * ((1 - e) * (1 + e)) + dF * (A * A * (B * B))).
  { unfold A, B, e. ring [R1 R2 Hd]. }
  clearbody e A B. clear R1 R2 Hd C1 C2. rewrite !fdiv_mul. destruct (inv_rw (1 + e) N1) as [P1 _]. destruct (inv_rw (1 - e) N2) as [M1 _].
  set (p := finv (1 + e)) in *. set (m := finv (1 - e)) in *. clearbody p m. clear N1 N2.
  transitivity (B * B * (m * m) * (((1 + e) * p) * ((1 + e) * p)) - A * A * (p * p) * (((1 - e) * m) * ((1 - e) * m))); [rewrite P1, M1; ring|].
  transitivity ((B * B * ((1 + e) * (1 + e)) - A * A * ((1 - e) * (1 - e))) * (p * p * (m * m))); [ring|].
  rewrite K. transitivity (((1 - e) * m) * ((1 + e) * p) * (((1 - e) * m) * ((1 + e) * p)) + dF * (A * A * (B * B)) * (p * p * (m * m))); [ring|].
  rewrite P1, M1. ring.
Qed.

Lemma div_eq a b c e : b <> 0 -> e <> 0 -> a * e = c * b -> a / b = c / e.
Proof. intros Hb He H. rewrite !fdiv_mul. destruct (inv_rw b Hb) as [B _], (inv_rw e He) as [E _]. transitivity (a * e * (finv b * finv e)); [ring [E]|]. rewrite H. ring [B]. Qed.
Lemma assoc_x x1 y1 x2 y2 x3 y3 : oncurve x1 y1 -> oncurve x2 y2 -> oncurve x3 y3 ->
  addx (addx x1 y1 x2 y2) (addy x1 y1 x2 y2) x3 y3 = addx x1 y1 (addx x2 y2 x3 y3) (addy x2 y2 x3 y3).
Proof.
  intros C1 C2 C3. pose proof (closure _ _ _ _ C1 C2) as C12. pose proof (closure _ _ _ _ C2 C3) as C23.
  pose proof (complete_plus _ _ _ _ C1 C2) as N1. pose proof (complete_minus _ _ _ _ C1 C2) as N2.
  pose proof (complete_plus _ _ _ _ C2 C3) as N3. pose proof (complete_minus _ _ _ _ C2 C3) as N4.
  pose proof (complete_plus _ _ _ _ C12 C3) as N5. pose proof (complete_plus _ _ _ _ C1 C23) as N6.
  destruct di_ex as [di Hd]. pose proof (curve_rw di _ _ Hd C1) as R1. pose proof (curve_rw di _ _ Hd C2) as R2. pose proof (curve_rw di _ _ Hd C3) as R3.
  unfold addx at 1 4. apply div_eq; [exact N5|exact N6|]. clear N5 N6 C12 C23 C1 C2 C3. unfold addx, addy.
  set (e := dF * (x1 * x2 * (y1 * y2))) in *. set (e' := dF * (x2 * x3 * (y2 * y3))) in *.
  set (A := x1 * y2 + x2 * y1). set (B := y1 * y2 + x1 * x2). set (A' := x2 * y3 + x3 * y2). set (B' := y2 * y3 + x2 * x3).
  assert (K : (A * y3 * (1 - e) + x3 * B * (1 + e)) * ((1 + e') * (1 - e') + dF * (x1 * y1 * (A' * B'))) =
              (x1 * B' * (1 + e') + A' * y1 * (1 - e')) * ((1 + e) * (1 - e) + dF * (A * B * (x3 * y3)))).
  { unfold A, B, e, A', B', e'. ring [R1 R2 R3 Hd]. }
  clearbody e e' A B A' B'. clear R1 R2 R3 Hd. rewrite !fdiv_mul. destruct (inv_rw (1 + e) N1) as [P1 _]. destruct (inv_rw (1 - e) N2) as [M1 _].
  destruct (inv_rw (1 + e') N3) as [P1' _]. destruct (inv_rw (1 - e') N4) as [M1' _].
  set (p := finv (1 + e)) in *. set (m := finv (1 - e)) in *. set (p' := finv (1 + e')) in *. set (m' := finv (1 - e')) in *. clearbody p m p' m'. clear N1 N2 N3 N4.
  transitivity ((A * p * y3 * ((1 - e) * m) + x3 * (B * m) * ((1 + e) * p)) * ((1 + e') * p' * ((1 - e') * m') + dF * (x1 * (A' * p') * (y1 * (B' * m'))))); [rewrite P1, M1, P1', M1'; ring|].
  transitivity ((A * y3 * (1 - e) + x3 * B * (1 + e)) * ((1 + e') * (1 - e') + dF * (x1 * y1 * (A' * B'))) * (p * m * (p' * m'))); [ring|].
  rewrite K.
  transitivity ((x1 * (B' * m') * ((1 + e') * p') + A' * p' * y1 * ((1 - e') * m')) * ((1 + e) * p * ((1 - e) * m) + dF * (A * p * x3 * (B * m * y3)))); [ring|].
  rewrite P1, M1, P1', M1'. ring.
Qed.
Lemma assoc_y x1 y1 x2 y2 x3 y3 : oncurve x1 y1 -> oncurve x2 y2 -> oncurve x3 y3 ->
  addy (addx x1 y1 x2 y2) (addy x1 y1 x2 y2) x3 y3 = addy x1 y1 (addx x2 y2 x3 y3) (addy x2 y2 x3 y3).
Proof.
  intros C1 C2 C3. pose proof (closure _ _ _ _ C1 C2) as C12. pose proof (closure _ _ _ _ C2 C3) as C23.
  pose proof (complete_plus _ _ _ _ C1 C2) as N1. pose proof (complete_minus _ _ _ _ C1 C2) as N2.
  pose proof (complete_plus _ _ _ _ C2 C3) as N3. pose proof (complete_minus _ _ _ _ C2 C3) as N4.
  pose proof (complete_minus _ _ _ _ C12 C3) as N5. pose proof (complete_minus _ _ _ _ C1 C23) as N6.
  destruct di_ex as [di Hd]. pose proof (curve_rw di _ _ Hd C1) as R1. pose proof (curve_rw di _ _ Hd C2) as R2. pose proof (curve_rw di _ _ Hd C3) as R3.
  unfold addy at 1 4. apply div_eq; [exact N5|exact N6|]. clear N5 N6 C12 C23 C1 C2 C3. unfold addx, addy.
  set (e := dF * (x1 * x2 * (y1 * y2))) in *. set (e' := dF * (x2 * x3 * (y2 * y3))) in *.
  set (A := x1 * y2 + x2 * y1). set (B := y1 * y2 + x1 * x2). set (A' := x2 * y3 + x3 * y2). set (B' := y2 * y3 + x2 * x3).
  assert (K : (B * y3 * (1 + e) + A * x3 * (1 - e)) * ((1 + e') * (1 - e') - dF * (x1 * y1 * (A' * B'))) =
              (y1 * B' * (1 + e') + x1 * A' * (1 - e')) * ((1 + e) * (1 - e) - dF * (A * B * (x3 * y3)))).
  { unfold A, B, e, A', B', e'. ring [R1 R2 R3 Hd]. }
  clearbody e e' A B A' B'. clear R1 R2 R3 Hd. rewrite !fdiv_mul. destruct (inv_rw (1 + e) N1) as [P1 _]. destruct (inv_rw (1 - e) N2) as [M1 _].
  destruct (inv_rw (1 + e') N3) as [P1' _]. destruct (inv_rw (1 - e') N4) as [M1' _].
  set (p := finv (1 + e)) in *. set (m := finv (1 - e)) in *. set (p' := finv (1 + e')) in *. set (m' := finv (1 - e')) in *. clearbody p m p' m'. clear N1 N2 N3 N4.
  transitivity ((B * m * y3 * ((1 + e) * p) + A * p * x3 * ((1 - e) * m)) * ((1 + e') * p' * ((1 - e') * m') - dF * (x1 * (A' * p') * (y1 * (B' * m'))))); [rewrite P1, M1, P1', M1'; ring|].
  transitivity ((B * y3 * (1 + e) + A * x3 * (1 - e)) * ((1 + e') * (1 - e') - dF * (x1 * y1 * (A' * B'))) * (p * m * (p' * m'))); [ring|].
  rewrite K.
  transitivity ((y1 * (B' * m') * ((1 + e') * p') + x1 * (A' * p') * ((1 - e') * m')) * ((1 + e) * p * ((1 - e) * m) - dF * (A * p * x3 * (B * m * y3)))); [ring|].
  rewrite P1, M1, P1', M1'. ring.
Qed.
