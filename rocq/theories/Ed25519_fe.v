(** The base point of the code, multiplication by the table, and the map to the curve used
    by hash_to_point. *)
From Verif Require Import Py PyLemmas Digits Ints_model Ints_spec Ints_proof Ints_proof2 Primes Fq Curve0 Curve Agroup Ed25519_model Ed25519_proof Ed25519_group Ed25519_enc0 Ed25519_enc Ed25519_order.
From Coq Require Import Znumtheory Field Ring.
Add Field Ffield : F_field.
Local Open Scope F_scope.
Ltac Zify.zify_post_hook ::= idtac.

Lemma n5 : fz 5 <> 0. Proof. apply fz_neq. vm_compute. reflexivity. Qed.
Lemma By_F : fz By = fz gy.
Proof.
  unfold By. rewrite fz_mul, inv_F. apply (solve_mul _ _ (fz 5) n5). destruct (inv_rw _ n5) as [K _].
  transitivity (fz 4 * (fz 5 * finv (fz 5))); [ring|]. rewrite K. transitivity (fz 4); [ring|]. rewrite <- fz_mul. apply fz_eqc. vm_compute. reflexivity.
Qed.
Lemma gx_range : (0 <= gx < q)%Z. Proof. vm_compute. split; [discriminate|reflexivity]. Qed.
Lemma Bx_gx : Bx = gx.
Proof.
  unfold Bx. destruct (xrecover_spec By (fz gx)) as (R & E & Pr); [rewrite By_F; exact g_on|].
  generalize dependent (xrecover By). intros X R E Pr. rewrite land1 in Pr. destruct E as [E|E].
  - rewrite <- (val_of X _ R E). apply val_of; [exact gx_range|reflexivity].
  - exfalso. rewrite <- fz_opp in E. apply (val_of X _ R) in E. rewrite val_fz in E.
    rewrite <- E in Pr. revert Pr. vm_compute. discriminate.
Qed.
Lemma B_rep : repp B Gp.
Proof.
  unfold B, repp. cbn [rep]. rewrite Bx_gx. fzs. rewrite By_F. cbn [Gp mkpt px py proj1_sig fst snd].
  split; [apply one_neq_zero|]. split; [ring|]. split; ring.
Qed.
(** ** multiplication with the precomputed table *)
Lemma table_rep n : forall P p, repp P p -> forall i Bi, nth_error (make_Bpow n P) i = Some Bi -> repp Bi (zm (2 ^ Z.of_nat i) p).
Proof.
  induction n as [|n IH]; intros P p H i Bi E; [destruct i; discriminate|]. destruct i as [|i]; cbn [make_Bpow nth_error] in E.
  - injection E as <-. change (2 ^ Z.of_nat 0)%Z with 1%Z. rewrite zm_1. exact H.
  - apply (IH _ (cadd p p) (repp_double _ _ H)) in E. rewrite Nat2Z.inj_succ, Z.pow_succ_r, Z.mul_comm, zm_mul by lia.
    replace (zm 2 p) with (cadd p p); [exact E|]. change 2%Z with (1 + 1)%Z. rewrite zm_add, !zm_1. reflexivity.
Qed.
Lemma loop_rep n : forall P p e S s, repp P p -> repp S s -> (0 <= e)%Z ->
  let '(R, e') := scalarmult_B_loop (make_Bpow n P) S e in
  repp R (cadd s (zm (e mod 2 ^ Z.of_nat n) p)) /\ e' = (e / 2 ^ Z.of_nat n)%Z.
Proof.
  induction n as [|n IH]; intros P p e S s HP HS He; cbn [make_Bpow scalarmult_B_loop].
  - change (2 ^ Z.of_nat 0)%Z with 1%Z. rewrite Z.mod_1_r, Z.div_1_r, zmul_0, cadd_comm, cadd_0. split; [exact HS|reflexivity].
  - assert (HS' : repp (if Z.odd e then edwards_add S P else S) (cadd s (zm (e mod 2) p))).
    { rewrite Zmod_odd. destruct (Z.odd e); [rewrite zm_1; apply repp_add; assumption|rewrite zmul_0, cadd_comm, cadd_0; exact HS]. }
    specialize (IH _ (cadd p p) (e / 2)%Z _ _ (repp_double _ _ HP) HS' ltac:(apply Z.div_pos; lia)).
    destruct (scalarmult_B_loop _ _ _) as [R e']. destruct IH as [IH1 IH2].
    rewrite Nat2Z.inj_succ, Z.pow_succ_r by lia. split.
    + rewrite Z.rem_mul_r by (try lia; apply Z.pow_nonzero; lia). rewrite zm_add, cadd_assoc, (Z.mul_comm 2), zm_mul.
      replace (zm 2 p) with (cadd p p); [exact IH1|]. change 2%Z with (1 + 1)%Z. rewrite zm_add, !zm_1. reflexivity.
    + rewrite IH2. rewrite <- Z.div_div; [reflexivity|lia|apply Z.pow_pos_nonneg; lia].
Qed.
Lemma scalarmult_B_rep e : exists R, scalarmult_B e = Ok R /\ repp R (zm e Gp).
Proof.
  unfold scalarmult_B, Bpow. pose proof (Z.mod_pos_bound e l l_pos) as Re.
  pose proof (loop_rep 253 B Gp (e mod l) ident czero B_rep repp_ident ltac:(lia)) as H.
  destruct (scalarmult_B_loop _ _ _) as [R e']. destruct H as [H1 H2].
  assert (l < 2 ^ Z.of_nat 253)%Z by (vm_compute; reflexivity).
  rewrite Z.div_small in H2 by lia. rewrite Z.mod_small in H1 by lia. subst e'. exists R. split; [reflexivity|].
  rewrite cadd_0 in H1. rewrite (Z.div_mod e l) by (pose proof l_pos; lia). rewrite zm_add, Z.mul_comm, zm_mul, G_order, zm_zero, cadd_0. exact H1.
Qed.

(** ** fromfe *)
Definition AF : F := fz 486662.
Lemma d_A : dF * (AF + (1 + 1)) = - (AF - (1 + 1)).
Proof.
  unfold AF. rewrite <- !fz_add, <- fz_sub, <- fz_opp. change dF with (fz dz). rewrite <- fz_mul. apply fz_eqc. vm_compute. reflexivity.
Qed.
Lemma A2_nz : AF + (1 + 1) <> 0.
Proof. unfold AF. rewrite <- !fz_add. apply fz_neq. vm_compute. reflexivity. Qed.
Lemma A_nz : AF <> 0.
Proof. apply fz_neq. vm_compute. reflexivity. Qed.
Lemma four_nz : (1 + 1) * (1 + 1) <> 0. Proof. apply fmul_nz; exact two_nz. Qed.
Lemma ell_on x z w : w <> 0 -> x * x * (z * z + w * w + AF * z * w) = - (z * w * (AF + (1 + 1))) -> z + w <> 0 /\ oncurve x ((z - w) * finv (z + w)).
Proof.
  intros Hw H. assert (N : z + w <> 0).
  { intros E. assert (Ez : z = - w) by (apply fsub_eq; rewrite <- E; ring). rewrite Ez in H.
    assert (K : x * x * (- (AF - (1 + 1))) = AF + (1 + 1)). { apply (solve_mul _ _ (w * w) (fmul_nz _ _ Hw Hw)). transitivity (x * x * (- w * - w + w * w + AF * - w * w)); [ring|rewrite H; ring]. }
    rewrite <- d_A in K. assert (K1 : dF * (x * x) = 1). { apply (solve_mul _ _ _ A2_nz). transitivity (x * x * (dF * (AF + (1 + 1)))); [ring|rewrite K; ring]. }
    destruct (F_eq_dec x 0) as [->|Nx]; [apply one_neq_zero; rewrite <- K1; ring|]. destruct (inv_rw x Nx) as [I _].
    apply (nonsquare_d (finv x)). transitivity (dF * ((x * finv x) * (x * finv x))); [rewrite I; ring|]. transitivity (dF * (x * x) * (finv x * finv x)); [ring|rewrite K1; ring]. }
  split; [exact N|]. destruct (inv_rw _ N) as [I _]. set (k := finv (z + w)) in *. clearbody k. unfold oncurve.
  apply (solve_mul _ _ ((z + w) * (z + w) * (AF + (1 + 1)))); [repeat apply fmul_nz; try assumption; exact A2_nz|].
  assert (Iy : (z - w) * k * (z + w) = z - w) by (transitivity ((z - w) * ((z + w) * k)); [ring|rewrite I; ring]).
  set (y := (z - w) * k) in *. clearbody y.
  transitivity ((AF + (1 + 1)) * ((y * (z + w)) * (y * (z + w)) - x * x * ((z + w) * (z + w)))); [ring|].
  transitivity ((AF + (1 + 1)) * ((z + w) * (z + w)) + dF * (AF + (1 + 1)) * (x * x * ((y * (z + w)) * (y * (z + w))))); [|ring].
  rewrite Iy, d_A. apply fsub_eq.
  transitivity (- ((1 + 1) * (1 + 1)) * (x * x * (z * z + w * w + AF * z * w) + z * w * (AF + (1 + 1)))); [ring|rewrite H; ring].
Qed.
Lemma w_nz u : (1 + 1) * u * u + 1 <> 0.
Proof.
  intros H. destruct (F_eq_dec u 0) as [->|N]; [apply one_neq_zero; rewrite <- H; ring|]. destruct (inv_rw u N) as [K _].
  apply (nonsquare_2 (im * finv u)). rewrite pow2F_2. transitivity (im * im * (finv u * finv u)); [rewrite im_sq|ring].
  transitivity (((1 + 1) * u * u + 1) * (finv u * finv u) - finv u * finv u); [|rewrite H; ring].
  transitivity ((1 + 1) * (u * finv u * (u * finv u))); [rewrite K; ring|ring].
Qed.
Lemma xp_nz u w : w = (1 + 1) * u * u + 1 -> w * w - (1 + 1) * AF * AF * u * u <> 0.
Proof.
  intros Ew H. destruct (F_eq_dec u 0) as [->|N].
  - apply one_neq_zero. rewrite <- H, Ew. ring.
  - assert (Na : AF * u <> 0) by (apply fmul_nz; [exact A_nz|exact N]). destruct (inv_rw _ Na) as [K _]. set (k := finv (AF * u)) in *. clearbody k.
    apply (nonsquare_2 (w * k)). rewrite pow2F_2. transitivity ((1 + 1) * (AF * u * k * (AF * u * k)) + (w * w - (1 + 1) * AF * AF * u * u) * (k * k)); [rewrite H, K; ring|ring].
Qed.
Definition e14 : Z := ((q255 - 1) / 4)%Z.
Lemma quarter c : c <> 0 -> let z := fpow c e14 in z = 1 \/ z = - (1) \/ z = im \/ z = - im.
Proof.
  intros Hc. cbv zeta. set (z := fpow c e14).
  assert (E : (z * z) * (z * z) = 1).
  { unfold z. rewrite <- !fpow_add by (vm_compute; discriminate). rewrite <- (fermat_F c Hc). f_equal. }
  apply pm_one in E. destruct E as [E|E].
  - apply pm_one in E. tauto.
  - rewrite <- im_sq in E. apply pm_sq in E. tauto.
Qed.
Lemma root_quarter c : fpow c e38 * fpow c e38 = c * fpow c e14.
Proof. rewrite <- (fpow_1 c) at 3. rewrite <- !fpow_add by (vm_compute; discriminate). f_equal. Qed.
Lemma f1_sq : fz fe_fffb1 * fz fe_fffb1 = - ((1 + 1) * AF * (AF + (1 + 1))).
Proof. unfold AF. rewrite <- !fz_add, <- !fz_mul, <- fz_opp. apply fz_eqc. vm_compute. reflexivity. Qed.
Lemma f2_sq : fz fe_fffb2 * fz fe_fffb2 = (1 + 1) * AF * (AF + (1 + 1)).
Proof. unfold AF. rewrite <- !fz_add, <- !fz_mul. apply fz_eqc. vm_compute. reflexivity. Qed.
Lemma f3_sq : fz fe_fffb3 * fz fe_fffb3 = - (im * AF * (AF + (1 + 1))).
Proof. unfold AF. change im with (fz iz). rewrite <- !fz_add, <- !fz_mul, <- fz_opp. apply fz_eqc. vm_compute. reflexivity. Qed.
Lemma f4_sq : fz fe_fffb4 * fz fe_fffb4 = im * AF * (AF + (1 + 1)).
Proof. unfold AF. change im with (fz iz). rewrite <- !fz_add, <- !fz_mul. apply fz_eqc. vm_compute. reflexivity. Qed.
Lemma sqrtm1_F : fz fe_sqrtm1 = im.
Proof. change im with (fz iz). apply fz_eqc. vm_compute. reflexivity. Qed.
Lemma m1_F : fz (-1) = - (1). Proof. change (-1)%Z with (- (1))%Z. apply fz_opp. Qed.
Lemma im_ne : im <> 1 /\ im <> - (1) /\ - im <> 1 /\ - im <> - (1).
Proof.
  change im with (fz iz). rewrite <- !fz_opp. repeat split; apply fz_neq; vm_compute; reflexivity.
Qed.
(** the last steps: choice of sign, projective output *)
Lemma fe_tail (rx0 z w sign : Z) : fz w <> 0 -> 
  fz rx0 * fz rx0 * (fz z * fz z + fz w * fz w + AF * fz z * fz w) = - (fz z * fz w * (AF + (1 + 1))) ->
  let rx := (if negb (rx0 mod 2 =? sign) then (- rx0) mod q else rx0)%Z in
  let rz := ((z + w) mod q)%Z in let ry := ((z - w) mod q)%Z in let rxx := (rx * rz mod q)%Z in
  exists p, repp (rxx, ry, rz, ((rxx * ry mod q) * inv rz) mod q)%Z p.
Proof.
  intros Hw H rx rz ry rxx.
  assert (E : fz rx * fz rx = fz rx0 * fz rx0). { unfold rx. destruct (negb _); [rewrite fzq, fz_opp; ring|reflexivity]. }
  rewrite <- E in H. destruct (ell_on (fz rx) (fz z) (fz w) Hw H) as [N C]. exists (mkpt _ _ C).
  unfold repp. cbn [rep mkpt px py proj1_sig fst snd]. unfold rxx, ry, rz. fzs. rewrite inv_F. fzs. destruct (inv_rw _ N) as [I _].
  split; [exact N|]. set (k := finv (fz z + fz w)) in *. clearbody k. split; [ring|]. split.
  - transitivity ((fz z - fz w) * ((fz z + fz w) * k)); [rewrite I; ring|ring].
  - ring.
Qed.
Lemma fromfe_on u0 : let u := (u0 mod q)%Z in
  let A := 486662%Z in
  let w := ((2 * u * u + 1) mod q)%Z in
  let xp := ((w * w - 2 * A * A * u * u) mod q)%Z in
  let rx := expmod (w * aff_inv xp) ((q + 3) / 8) q in
  let x := (rx * rx * (w * w - 2 * A * A * u * u) mod q)%Z in
  fz w <> 0 /\ fz w * fz w - (1 + 1) * AF * AF * fz u * fz u <> 0 /\ fz w = (1 + 1) * fz u * fz u + 1 /\
  exists zeta, (zeta = 1 \/ zeta = - (1) \/ zeta = im \/ zeta = - im) /\ fz rx * fz rx * (fz w * fz w - (1 + 1) * AF * AF * fz u * fz u) = fz w * zeta /\ fz x = fz w * zeta.
Proof.
  cbv zeta. set (u := (u0 mod q)%Z). set (w := ((2 * u * u + 1) mod q)%Z).
  assert (Ew : fz w = (1 + 1) * fz u * fz u + 1) by (unfold w; fzs; rewrite pow2F_2; reflexivity).
  assert (Nw : fz w <> 0) by (rewrite Ew; apply w_nz). pose proof (xp_nz (fz u) (fz w) Ew) as Nx.
  assert (Ex : fz (w * w - 2 * 486662 * 486662 * u * u) = fz w * fz w - (1 + 1) * AF * AF * fz u * fz u) by (fzs; rewrite pow2F_2; reflexivity).
  split; [exact Nw|]. split; [exact Nx|]. split; [exact Ew|].
  set (XP := fz w * fz w - (1 + 1) * AF * AF * fz u * fz u) in *.
  set (c := fz w * finv XP). destruct (inv_rw XP Nx) as [I NI]. exists (fpow c e14). split; [apply quarter; apply fmul_nz; assumption|].
  assert (Er : fz (expmod (w * aff_inv ((w * w - 2 * 486662 * 486662 * u * u) mod q)) ((q + 3) / 8) q) = fpow c e38).
  { rewrite expmod_F by exact e38_nn. rewrite fz_mul, aff_inv_F, fzq, Ex. reflexivity. }
  assert (K : fpow c e38 * fpow c e38 * XP = fz w * fpow c e14).
  { rewrite root_quarter. unfold c at 1. transitivity (fz w * fpow c e14 * (XP * finv XP)); [ring|rewrite I; ring]. }
  rewrite Er. split; [exact K|]. rewrite fzq, fz_mul, fz_mul, Ex, Er. exact K.
Qed.
Opaque fe_fffb1 fe_fffb2 fe_fffb3 fe_fffb4 fe_sqrtm1.
Lemma fromfe_ok digest u0 : decodeint_raw digest = Ok u0 -> exists P p, fromfe digest = Ok P /\ repp P p.
Proof.
  intros Hu. unfold fromfe. rewrite Hu. cbn [bind]. cbv zeta. destruct (fromfe_on u0) as (Nw & Nx & Ew & zeta & Hz & Kr & Kx). cbv zeta in Nw, Nx, Ew, Kr, Kx.
  set (u := (u0 mod q)%Z) in *. set (w := ((2 * u * u + 1) mod q)%Z) in *.
  set (rx := expmod (w * aff_inv ((w * w - 2 * 486662 * 486662 * u * u) mod q)) ((q + 3) / 8) q) in *.
  set (x := (rx * rx * (w * w - 2 * 486662 * 486662 * u * u) mod q)%Z) in *.
  assert (T1 : ((2 * u * u + 1 - x) mod q =? 0)%Z = true <-> zeta = 1).
  { rewrite Z.eqb_eq, <- fz_zero. rewrite fz_sub, Kx. replace (fz (2 * u * u + 1)) with (fz w) by (unfold w; apply fzq). split.
    - intros E. apply (solve_mul _ _ _ Nw). symmetry. apply fsub_eq. rewrite <- E. ring.
    - intros ->. ring. }
  assert (T2 : ((w + x) mod q =? 0)%Z = true <-> zeta = - (1)).
  { rewrite Z.eqb_eq, <- fz_zero. rewrite fz_add, Kx. split.
    - intros E. apply (solve_mul _ _ _ Nw). apply fsub_eq. rewrite <- E. ring.
    - intros ->. ring. }
  assert (T3 : ((w - x * fe_sqrtm1 mod q) mod q =? 0)%Z = true <-> zeta * im = 1).
  { rewrite Z.eqb_eq, <- fz_zero. rewrite fz_sub, fzq, fz_mul, Kx, sqrtm1_F. split.
    - intros E. apply (solve_mul _ _ _ Nw). symmetry. apply fsub_eq. rewrite <- E. ring.
    - intros E. transitivity (fz w - fz w * (zeta * im)); [ring|]. rewrite E. ring. }
  clearbody x. clear Kx.
  assert (Tail : forall rx0 z sign, fz rx0 * fz rx0 * (fz z * fz z + fz w * fz w + AF * fz z * fz w) = - (fz z * fz w * (AF + (1 + 1))) ->
    exists P p, Ok ((if negb (rx0 mod 2 =? sign) then (- rx0) mod q else rx0) * ((z + w) mod q) mod q, (z - w) mod q, (z + w) mod q,
      (((if negb (rx0 mod 2 =? sign) then (- rx0) mod q else rx0) * ((z + w) mod q) mod q) * ((z - w) mod q) mod q * inv ((z + w) mod q)) mod q)%Z = Ok P /\ repp P p).
  { intros rx0 z sign H. destruct (fe_tail rx0 z w sign Nw H) as [p Hp]. eexists. exists p. split; [reflexivity|exact Hp]. }
  assert (Z1 : forall r f, fz r = fz rx * fz f * fz u -> forall z, fz z = - ((1 + 1) * AF * fz u * fz u) -> zeta * (fz f * fz f) = (1 + 1) * AF * (AF + (1 + 1)) ->
     fz r * fz r * (fz z * fz z + fz w * fz w + AF * fz z * fz w) = - (fz z * fz w * (AF + (1 + 1)))).
  { intros r f Hr z Hzz Hf. rewrite Hr, Hzz.
    replace (- ((1 + 1) * AF * fz u * fz u) * - ((1 + 1) * AF * fz u * fz u) + fz w * fz w + AF * - ((1 + 1) * AF * fz u * fz u) * fz w)
      with (fz w * fz w - (1 + 1) * AF * AF * fz u * fz u) by (rewrite Ew; ring).
    transitivity (fz f * fz f * fz u * fz u * (fz rx * fz rx * (fz w * fz w - (1 + 1) * AF * AF * fz u * fz u))); [ring|]. rewrite Kr.
    transitivity (zeta * (fz f * fz f) * (fz u * fz u * fz w)); [ring|]. rewrite Hf. ring. }
  assert (Z2 : forall r f, fz r = fz rx * fz f -> forall z, fz z = - AF -> zeta * (fz f * fz f) = AF * (AF + (1 + 1)) ->
     fz r * fz r * (fz z * fz z + fz w * fz w + AF * fz z * fz w) = - (fz z * fz w * (AF + (1 + 1)))).
  { intros r f Hr z Hzz Hf. rewrite Hr, Hzz.
    replace (- AF * - AF + fz w * fz w + AF * - AF * fz w)
      with (fz w * fz w - (1 + 1) * AF * AF * fz u * fz u) by (rewrite Ew; ring).
    transitivity (fz f * fz f * (fz rx * fz rx * (fz w * fz w - (1 + 1) * AF * AF * fz u * fz u))); [ring|]. rewrite Kr.
    transitivity (zeta * (fz f * fz f) * fz w); [ring|]. rewrite Hf. ring. }
  assert (Ez1 : fz ((-2 * 486662 * u * u) mod q) = - ((1 + 1) * AF * fz u * fz u)).
  { rewrite fzq, !fz_mul. change (-2)%Z with (- (2))%Z. rewrite fz_opp, pow2F_2. fold AF. ring. }
  assert (Ez2 : fz (-1 * 486662) = - AF) by (rewrite fz_mul, m1_F; fold AF; ring).
  clearbody rx. clear Kr.
  destruct ((2 * u * u + 1 - x) mod q =? 0)%Z; cbn [negb].
  - (* zeta = 1 *) destruct T1 as [T1 _]. specialize (T1 eq_refl). apply Tail. apply (Z1 _ (- fe_fffb2)%Z).
    + rewrite fzq, fz_mul, fzq, !fz_mul, m1_F, fz_opp. ring.
    + exact Ez1.
    + rewrite T1, fz_opp. transitivity (fz fe_fffb2 * fz fe_fffb2); [ring|]. rewrite f2_sq. ring.
  - destruct ((w + x) mod q =? 0)%Z; cbn [negb].
    + destruct T2 as [T2 _]. specialize (T2 eq_refl). apply Tail. apply (Z1 _ (- fe_fffb1)%Z).
      * rewrite fzq, fz_mul, fzq, !fz_mul, m1_F, fz_opp. ring.
      * exact Ez1.
      * rewrite T2, fz_opp. transitivity (- (fz fe_fffb1 * fz fe_fffb1)); [ring|]. rewrite f1_sq. ring.
    + assert (Hi : zeta = im \/ zeta = - im). { destruct Hz as [Hz|[Hz|Hz]]; [apply T1 in Hz; discriminate|apply T2 in Hz; discriminate|exact Hz]. }
      destruct ((w - x * fe_sqrtm1 mod q) mod q =? 0)%Z; cbn [negb].
      * destruct T3 as [T3 _]. specialize (T3 eq_refl). apply Tail. apply (Z2 _ (- fe_fffb4)%Z).
        -- rewrite fzq, !fz_mul, m1_F, fz_opp. ring.
        -- exact Ez2.
        -- rewrite fz_opp. transitivity (zeta * (fz fe_fffb4 * fz fe_fffb4)); [ring|]. rewrite f4_sq. transitivity (zeta * im * (AF * (AF + (1 + 1)))); [ring|rewrite T3; ring].
      * destruct Hi as [Hi|Hi]; [|exfalso; assert (Q : zeta * im = 1); [rewrite Hi; transitivity (- (im * im)); [ring|rewrite im_sq; ring]|apply T3 in Q; discriminate]].
        apply Tail. apply (Z2 _ fe_fffb3).
        -- rewrite fzq, !fz_mul. ring.
        -- exact Ez2.
        -- rewrite f3_sq, Hi. transitivity (- (im * im) * (AF * (AF + (1 + 1)))); [ring|rewrite im_sq; ring].
Qed.
Lemma hash_to_point_ok digest : bytes_ok digest -> length digest = 32%nat -> exists P p, hash_to_point digest = Ok P /\ repp P p /\ zm l p = czero.
Proof.
  intros Hb Hl. assert (Hu : decodeint_raw digest = Ok (le_val 256 digest)).
  { rewrite decodeint_raw_val by exact Hb. unfold zlen. rewrite Hl. change (32 <=? Z.of_nat 32)%Z with true. cbn [bind]. rewrite firstn_all2 by lia. reflexivity. }
  destruct (fromfe_ok _ _ Hu) as (P & p & E & R). exists (scalarmult P 8), (zm 8 p). unfold hash_to_point. rewrite E. split; [reflexivity|]. split.
  - apply scalarmult_rep; [lia|exact R].
  - rewrite <- zm_mul, Z.mul_comm. apply exponent.
Qed.
