(** The points of the curve as an abelian group, and the code's routines on it. *)
From Verif Require Import Py PyLemmas Ints_model Primes Fq Curve0 Curve Agroup Ed25519_model Ed25519_proof.
From Coq Require Import Eqdep_dec Field Ring.
Add Field Ffield : F_field.
Local Open Scope F_scope.
Ltac Zify.zify_post_hook ::= idtac.

(** the specification: points of -x^2 + y^2 = 1 + d x^2 y^2 with the affine addition law *)
Definition onb (x y : F) : bool := if F_eq_dec (y * y - x * x) (1 + dF * (x * x * (y * y))) then true else false.
Lemma onb_spec x y : onb x y = true <-> oncurve x y.
Proof. unfold onb, oncurve. destruct (F_eq_dec _ _); intuition congruence. Qed.
Definition cpt : Type := { p : F * F | onb (fst p) (snd p) = true }.
Definition px (p : cpt) : F := fst (proj1_sig p).
Definition py (p : cpt) : F := snd (proj1_sig p).
Definition mkpt (x y : F) (H : oncurve x y) : cpt := exist (fun p => onb (fst p) (snd p) = true) (x, y) (proj2 (onb_spec x y) H).
Lemma pt_on (p : cpt) : oncurve (px p) (py p).
Proof. apply onb_spec. exact (proj2_sig p). Qed.
Lemma pt_ext (p r : cpt) : px p = px r -> py p = py r -> p = r.
Proof.
  destruct p as [[x y] H], r as [[x' y'] H']. unfold px, py. cbn [proj1_sig fst snd]. intros -> ->. f_equal. apply UIP_dec, bool_dec.
Qed.
Definition cadd (p r : cpt) : cpt := mkpt _ _ (closure _ _ _ _ (pt_on p) (pt_on r)).
Definition cneg (p : cpt) : cpt := mkpt _ _ (oncurve_neg _ _ (pt_on p)).
Definition czero : cpt := mkpt 0 1 oncurve_id.
Lemma cpt_eq_dec (p r : cpt) : {p = r} + {p <> r}.
Proof.
  destruct (F_eq_dec (px p) (px r)) as [Hx|Hx]; [|right; intros ->; apply Hx; reflexivity].
  destruct (F_eq_dec (py p) (py r)) as [Hy|Hy]; [|right; intros ->; apply Hy; reflexivity].
  left. apply pt_ext; assumption.
Qed.

Lemma cadd_comm p r : cadd p r = cadd r p.
Proof.
  apply pt_ext; cbn [cadd mkpt px py proj1_sig fst snd]; unfold addx, addy; f_equal; try ring; f_equal; ring.
Qed.
Lemma cadd_assoc p r s : cadd p (cadd r s) = cadd (cadd p r) s.
Proof.
  apply pt_ext; symmetry; [apply assoc_x|apply assoc_y]; apply pt_on.
Qed.
Lemma finv_1 : finv 1 = 1.
Proof. destruct (inv_rw 1 one_neq_zero) as [K _]. rewrite <- K at 2. ring. Qed.
Lemma div_same a c : c <> 0 -> a * c / c = a.
Proof. intros H. rewrite fdiv_mul. destruct (inv_rw c H) as [K _]. transitivity (a * (c * finv c)); [ring|rewrite K; ring]. Qed.
Lemma cadd_0 p : cadd czero p = p.
Proof.
  apply pt_ext; cbn [cadd czero mkpt px py proj1_sig fst snd]; unfold addx, addy; fold (px p) (py p); rewrite fdiv_mul.
  - replace (1 + dF * (0 * px p * (1 * py p))) with (fz 1) by ring. rewrite finv_1. ring.
  - replace (1 - dF * (0 * px p * (1 * py p))) with (fz 1) by ring. rewrite finv_1. ring.
Qed.
Lemma cadd_neg p : cadd p (cneg p) = czero.
Proof.
  pose proof (pt_on p) as C. apply pt_ext; cbn [cadd cneg czero mkpt px py proj1_sig fst snd]; unfold addx, addy; fold (px p) (py p); set (x := px p) in *; set (y := py p) in *; clearbody x y.
  - rewrite fdiv_mul. replace (x * y + - x * y) with (fz 0) by ring. ring.
  - pose proof (complete_minus _ _ _ _ C (oncurve_neg _ _ C)) as N. replace (y * y + x * - x) with (1 * (1 - dF * (x * - x * (y * y)))); [apply div_same, N|].
    unfold oncurve in C. transitivity (y * y - x * x); [rewrite C; ring|ring].
Qed.

Notation nm := (nmul cadd czero).
Notation zm := (zmul cadd cneg czero).
Definition zm_add := zmul_add cadd cneg czero cadd_assoc cadd_comm cadd_0 cadd_neg.
Definition zm_mul := zmul_mul cadd cneg czero cadd_assoc cadd_comm cadd_0 cadd_neg.
Definition zm_plus := zmul_plus cadd cneg czero cadd_assoc cadd_comm cadd_0 cadd_neg.
Definition zm_zero := zmul_zero cadd cneg czero cadd_assoc cadd_comm cadd_0 cadd_neg.
Definition zm_neg := zmul_neg cadd cneg czero cadd_assoc cadd_comm cadd_0 cadd_neg.
Definition zm_1 := zmul_1 cadd cneg czero cadd_comm cadd_0.
Definition nm_add := nmul_add cadd czero cadd_assoc cadd_0.

(** ** the code *)
Definition repp (P : quad) (p : cpt) : Prop := rep P (px p) (py p).
Lemma repp_ident : repp ident czero. Proof. exact rep_ident. Qed.
Lemma repp_inj P p r : repp P p -> repp P r -> p = r.
Proof. intros H1 H2. destruct (rep_inj _ _ _ _ _ H1 H2). apply pt_ext; assumption. Qed.
Lemma repp_add P Q p r : repp P p -> repp Q r -> repp (edwards_add P Q) (cadd p r).
Proof. intros H1 H2. exact (edwards_add_rep P Q _ _ _ _ H1 H2 (pt_on p) (pt_on r)). Qed.
Lemma repp_ietf P Q p r : repp P p -> repp Q r -> repp (ietf_point_add P Q) (cadd p r).
Proof. intros H1 H2. exact (ietf_add_rep P Q _ _ _ _ H1 H2 (pt_on p) (pt_on r)). Qed.
Lemma repp_double P p : repp P p -> repp (edwards_double P) (cadd p p).
Proof. intros H. exact (edwards_double_rep P _ _ H (pt_on p)). Qed.
Lemma repp_invert P p : repp P p -> repp (invert_v P) (cneg p).
Proof. intros H. exact (invert_rep P _ _ H). Qed.
Lemma repp_sub P Q p r : repp P p -> repp Q r -> repp (point_sub_v P Q) (cadd p (cneg r)).
Proof. intros H1 H2. apply repp_add; [exact H1|apply repp_invert, H2]. Qed.
Lemma repp_equal P Q p r : repp P p -> repp Q r -> (point_equal P Q = true <-> p = r).
Proof.
  intros H1 H2. rewrite (point_equal_rep P Q _ _ _ _ H1 H2). split; [intros [? ?]; apply pt_ext; assumption|intros ->; split; reflexivity].
Qed.
Lemma isoncurve_repp P : isoncurve P = true <-> exists p, repp P p.
Proof.
  rewrite isoncurve_rep. split; [intros (x & y & R & C); exists (mkpt x y C); exact R|intros [p R]; exists (px p), (py p); split; [exact R|apply pt_on]].
Qed.
Lemma nm_1 p : nm 1 p = p. Proof. exact (zm_1 p). Qed.
Lemma nm_double n p : nm (2 * n) p = cadd (nm n p) (nm n p).
Proof. replace (2 * n)%nat with (n + n)%nat by lia. apply nm_add. Qed.
Lemma scalarmult_pos_rep P p e : repp P p -> repp (scalarmult_pos P e) (nm (Pos.to_nat e) p).
Proof.
  intros H. induction e as [e IH|e IH|]; cbn [scalarmult_pos].
  - rewrite Pos2Nat.inj_xI. cbn [nmul]. rewrite nm_double, cadd_comm. apply repp_add; [apply repp_double, IH|exact H].
  - rewrite Pos2Nat.inj_xO, nm_double. apply repp_double, IH.
  - change (Pos.to_nat 1) with 1%nat. rewrite nm_1. rewrite <- (cadd_0 p) at 1. rewrite <- (cadd_0 czero). apply repp_add; [apply repp_double, repp_ident|exact H].
Qed.
Lemma scalarmult_rep P p e : (0 <= e)%Z -> repp P p -> repp (scalarmult P e) (zm e p).
Proof.
  intros He H. rewrite zmul_nat by exact He. destruct e as [|e|e]; [exact repp_ident| |lia]. cbn [scalarmult Z.to_nat]. apply scalarmult_pos_rep, H.
Qed.
Lemma ietf_mul_loop_rep e : forall Q P r p, repp Q r -> repp P p -> repp (ietf_mul_loop e Q P) (cadd r (nm (Pos.to_nat e) p)).
Proof.
  induction e as [e IH|e IH|]; intros Q P r p HQ HP; cbn [ietf_mul_loop].
  - rewrite Pos2Nat.inj_xI. cbn [nmul]. rewrite nm_double. 
    assert (E : cadd (nm (Pos.to_nat e) p) (nm (Pos.to_nat e) p) = nm (Pos.to_nat e) (cadd p p)).
    { pose proof (zm_plus (Z.of_nat (Pos.to_nat e)) p p) as K. rewrite !zmul_nat, !Nat2Z.id in K by lia. symmetry. exact K. }
    rewrite E, cadd_assoc. apply IH; [apply repp_ietf; assumption|apply repp_ietf; assumption].
  - rewrite Pos2Nat.inj_xO, nm_double.
    assert (E : cadd (nm (Pos.to_nat e) p) (nm (Pos.to_nat e) p) = nm (Pos.to_nat e) (cadd p p)).
    { pose proof (zm_plus (Z.of_nat (Pos.to_nat e)) p p) as K. rewrite !zmul_nat, !Nat2Z.id in K by lia. symmetry. exact K. }
    rewrite E. apply IH; [exact HQ|apply repp_ietf; assumption].
  - change (Pos.to_nat 1) with 1%nat. rewrite nm_1. apply repp_ietf; assumption.
Qed.
Lemma ietf_point_mul_rep P p e : (0 <= e)%Z -> repp P p -> repp (ietf_point_mul e P) (zm e p).
Proof.
  intros He H. rewrite zmul_nat by exact He. destruct e as [|e|e]; [exact repp_ident| |lia]. cbn [ietf_point_mul Z.to_nat].
  rewrite <- (cadd_0 (nm _ p)). apply ietf_mul_loop_rep; [exact repp_ident|exact H].
Qed.
(** the affine routines *)
Definition affp (P : Z * Z) (p : cpt) : Prop := fz (fst P) = px p /\ fz (snd P) = py p.
Lemma edwards_affp P Q p r : affp P p -> affp Q r -> affp (edwards P Q) (cadd p r).
Proof.
  destruct P as [x1 y1], Q as [x2 y2]. intros [H1 H2] [H3 H4]. cbn [fst snd] in *. unfold edwards, affp. cbn [fst snd cadd mkpt px py proj1_sig].
  fzs. rewrite !aff_inv_F. fzs. rewrite aff_d_F, H1, H2, H3, H4. unfold addx, addy. rewrite !fdiv_mul. fold (px p) (px r) (py p) (py r).
  split; f_equal; f_equal; ring.
Qed.
Lemma edwards_minus_affp P Q p r : affp P p -> affp Q r -> affp (edwards_Minus P Q) (cadd p (cneg r)).
Proof.
  intros HP HQ. replace (edwards_Minus P Q) with (edwards P ((-1 * fst Q) mod q, snd Q)%Z) by (destruct P, Q; reflexivity).
  apply edwards_affp; [exact HP|]. destruct HQ as [H1 H2]. split; cbn [fst snd cneg mkpt px py proj1_sig]; [|exact H2].
  fzs. change (-1)%Z with (- (1))%Z. rewrite fz_opp, H1. fold (px r). ring.
Qed.
Lemma aff_ident : affp (0, 1)%Z czero. Proof. split; reflexivity. Qed.
Lemma aff_scalarmult_rep P p e : (0 <= e)%Z -> affp P p -> affp (aff_scalarmult P e) (zm e p).
Proof.
  intros He H. rewrite zmul_nat by exact He. destruct e as [|e|e]; [exact aff_ident| |lia]. cbn [aff_scalarmult Z.to_nat]. clear He.
  induction e as [e IH|e IH|]; cbn [aff_scalarmult_pos].
  - rewrite Pos2Nat.inj_xI. cbn [nmul]. rewrite nm_double, cadd_comm. apply edwards_affp; [apply edwards_affp; exact IH|exact H].
  - rewrite Pos2Nat.inj_xO, nm_double. apply edwards_affp; exact IH.
  - change (Pos.to_nat 1) with 1%nat. rewrite nm_1. rewrite <- (cadd_0 p). rewrite <- (cadd_0 czero). apply edwards_affp; [apply edwards_affp; exact aff_ident|exact H].
Qed.
Lemma aff_isoncurve_spec P : aff_isoncurve P = true <-> exists p, affp P p.
Proof.
  destruct P as [x y]. unfold aff_isoncurve. rewrite Z.eqb_eq, <- fz_zero. fzs. rewrite aff_d_F. split.
  - intros H. assert (C : oncurve (fz x) (fz y)). { unfold oncurve. apply fsub_eq. rewrite <- H. ring. } exists (mkpt _ _ C). split; reflexivity.
  - intros [p [H1 H2]]. cbn [fst snd] in *. pose proof (pt_on p) as C. unfold oncurve in C. rewrite H1, H2.
    transitivity (py p * py p - px p * px p - (1 + dF * (px p * px p * (py p * py p)))); [ring|]. rewrite C. ring.
Qed.
Lemma conv_ext P p : repp P p -> affp (conv_ext_to_xy P) p.
Proof.
  destruct P as [[[X Y] Zz] T]. intros (N & HX & HY & _). unfold affp, conv_ext_to_xy. cbn [fst snd]. fzs. rewrite inv_F, HX, HY.
  destruct (inv_rw _ N) as [K _]. split; [transitivity (px p * (fz Zz * finv (fz Zz)))|transitivity (py p * (fz Zz * finv (fz Zz)))]; try ring; rewrite K; ring.
Qed.
Lemma conv_xy P p : affp P p -> repp (conv_xy_to_ext P) p.
Proof.
  destruct P as [x y]. intros [H1 H2]. cbn [fst snd] in *. unfold repp, conv_xy_to_ext. cbn [rep]. fzs. rewrite H1, H2.
  split; [apply one_neq_zero|]. split; [ring|]. split; ring.
Qed.
