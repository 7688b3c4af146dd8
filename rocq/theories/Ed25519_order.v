(** The base point has order l, and 8 l annihilates every point of the curve. *)
From Verif Require Import Py PyLemmas Digits Ints_model Ints_spec Ints_proof Ints_proof2 Primes Fq Curve0 Curve Agroup Ed25519_model Ed25519_proof Ed25519_group Ed25519_enc0 Ed25519_enc.
From Coq Require Import Znumtheory Field Ring.
Add Field Ffield : F_field.
Local Open Scope F_scope.
Ltac Zify.zify_post_hook ::= idtac.

(** ** points given by literals *)
Definition onz (x y : Z) : bool := ((y * y - x * x) mod Q255 =? (1 + dz * (x * x * (y * y))) mod Q255)%Z.
Lemma onz_on x y : onz x y = true -> oncurve (fz x) (fz y).
Proof.
  unfold onz. intros H. apply fz_eqc in H. rewrite fz_sub, fz_add, !fz_mul in H. exact H.
Qed.
Definition gx : Z := 15112221349535400772501151409588531511454012693041857206046113283949847762202.
Definition gy : Z := 46316835694926478169428394003475163141307993866256225615783033603165251855960.
Definition tx : Z := 14399317868200118260347934320527232580618823971194345261214217575416788799818.
Definition ty : Z := 55188659117513257062467267217118295137698188065244968500265048394206261417927.
Definition hx : Z := 44115840154693352731557989475342686826820046586146704265789981914775973517427.
Definition hy : Z := 9102111593045260626123023279363907201838477468971026384621755002289944880523.
Definition kx : Z := 194129706910276654339533937762735305852251091580280626372855340470716838662.
Definition ky : Z := 13995546444385116360851220937039844429059978342152102848046484055039135621071.
Lemma g_on : oncurve (fz gx) (fz gy). Proof. apply onz_on. vm_compute. reflexivity. Qed.
Lemma t_on : oncurve (fz tx) (fz ty). Proof. apply onz_on. vm_compute. reflexivity. Qed.
Lemma h_on : oncurve (fz hx) (fz hy). Proof. apply onz_on. vm_compute. reflexivity. Qed.
Lemma k_on : oncurve (fz kx) (fz ky). Proof. apply onz_on. vm_compute. reflexivity. Qed.
Definition Gp : cpt := mkpt _ _ g_on.
Definition Tp : cpt := mkpt _ _ t_on.
Definition Hpt : cpt := mkpt _ _ h_on.
Definition Kp : cpt := mkpt _ _ k_on.

(** ** fast evaluation: the same functions with a cheap reduction *)
Definition qdouble (P : quad) : quad := (
  let '(x1, y1, z1, t1) := P in
  let a := qmod (x1 * x1) in
  let b := qmod (y1 * y1) in
  let c := qmod (2 * z1 * z1) in
  let e := qmod ((x1 + y1) * (x1 + y1) - a - b) in
  let g := - a + b in
  let f := g - c in
  let h := - a - b in
  (qmod (e * f), qmod (g * h), qmod (f * g), qmod (e * h)))%Z.
Definition qadd (P Q : quad) : quad := (
  let '(x1, y1, z1, t1) := P in
  let '(x2, y2, z2, t2) := Q in
  let a := qmod ((y1 - x1) * (y2 - x2)) in
  let b := qmod ((y1 + x1) * (y2 + x2)) in
  let c := qmod (qmod (t1 * t2) * (2 * dz)) in
  let dd := qmod (z1 * 2 * z2) in
  let e := b - a in
  let f := dd - c in
  let g := dd + c in
  let h := b + a in
  (qmod (e * f), qmod (g * h), qmod (f * g), qmod (e * h)))%Z.
Fixpoint qsm (P : quad) (e : positive) : quad :=
  match e with
  | xH => P
  | xO e => qdouble (qsm P e)
  | xI e => qadd (qdouble (qsm P e)) P
  end.
Lemma qm x : qmod x = (x mod q)%Z. Proof. rewrite qmod_spec. reflexivity. Qed.
Lemma qdouble_eq P : qdouble P = edwards_double P.
Proof. destruct P as [[[x y] z] t]. unfold qdouble, edwards_double. cbv zeta. rewrite !qm. reflexivity. Qed.
Lemma d_range : (0 <= d < q)%Z.
Proof. unfold d. generalize (-121665 * inv 121666)%Z. intros z. apply Z.mod_pos_bound. reflexivity. Qed.
Lemma d_dz : d = dz.
Proof.
  assert (H : fz d = fz dz) by exact d_F. pose proof d_range as R.
  rewrite <- (val_of d _ R H), val_fz. apply Z.eqb_eq. vm_compute. reflexivity.
Qed.
Lemma qadd_eq P Q : qadd P Q = edwards_add P Q.
Proof.
  destruct P as [[[x y] z] t], Q as [[[x2 y2] z2] t2]. unfold qadd, edwards_add. cbv zeta. rewrite !qm, d_dz.
  assert (E : ((t * t2) mod q * (2 * dz) mod q = t * 2 * dz * t2 mod q)%Z) by (rewrite Zmult_mod_idemp_l; f_equal; ring). rewrite E. reflexivity.
Qed.
Lemma qsm_rep P p e : repp P p -> repp (qsm P e) (zm (Z.pos e) p).
Proof.
  intros H. rewrite zmul_nat by lia. cbn [Z.to_nat]. induction e as [e IH|e IH|]; cbn [qsm].
  - rewrite Pos2Nat.inj_xI. cbn [nmul]. rewrite nm_double, cadd_comm, qadd_eq, qdouble_eq. apply repp_add; [apply repp_double, IH|exact H].
  - rewrite Pos2Nat.inj_xO, nm_double, qdouble_eq. apply repp_double, IH.
  - change (Pos.to_nat 1) with 1%nat. rewrite nm_1. exact H.
Qed.
Definition lit (x y : Z) : quad := (x, y, 1, x * y)%Z.
Lemma lit_rep x y (H : oncurve (fz x) (fz y)) : repp (lit x y) (mkpt _ _ H).
Proof. unfold repp, lit. cbn [rep mkpt px py proj1_sig fst snd]. rewrite fz_mul. split; [apply one_neq_zero|]. split; [ring|]. split; ring. Qed.
(** comparing a computed tuple with a literal point *)
Definition same (P : quad) (x y : Z) : bool := let '(X, Y, Zz, T) := P in ((X - x * Zz) mod Q255 =? 0)%Z && ((Y - y * Zz) mod Q255 =? 0)%Z.
Lemma same_spec P p x y (H : oncurve (fz x) (fz y)) : repp P p -> (same P x y = true <-> p = mkpt _ _ H).
Proof.
  destruct P as [[[X Y] Zz] T]. intros (N & HX & HY & _). unfold same.
  assert (KX : ((X - x * Zz) mod Q255 =? 0)%Z = true <-> px p = fz x).
  { rewrite Z.eqb_eq. change Q255 with q. rewrite <- fz_zero. fzs. rewrite HX. split.
    - intros E. apply (solve_mul _ _ _ N). apply fsub_eq, E.
    - intros ->. ring. }
  assert (KY : ((Y - y * Zz) mod Q255 =? 0)%Z = true <-> py p = fz y).
  { rewrite Z.eqb_eq. change Q255 with q. rewrite <- fz_zero. fzs. rewrite HY. split.
    - intros E. apply (solve_mul _ _ _ N). apply fsub_eq, E.
    - intros ->. ring. }
  rewrite andb_true_iff, KX, KY. split.
  - intros [A B]. apply pt_ext; assumption.
  - intros ->. split; reflexivity.
Qed.
Definition l_lit : positive := 7237005577332262213973186563042994240857116359379907606001950938285454250989.
Lemma l_lit_eq : l = Z.pos l_lit. Proof. vm_compute. reflexivity. Qed.
Lemma G_comp : same (qsm (lit gx gy) l_lit) 0 1 = true.
Proof. vm_compute. reflexivity. Qed.
Lemma zero_on : oncurve (fz 0) (fz 1). Proof. exact oncurve_id. Qed.
Lemma zero_pt (H : oncurve (fz 0) (fz 1)) : mkpt _ _ H = czero. Proof. apply pt_ext; reflexivity. Qed.
Lemma same_zero P p : repp P p -> (same P 0 1 = true <-> p = czero).
Proof. intros R. rewrite (same_spec P p 0 1 zero_on R), zero_pt. reflexivity. Qed.
Lemma G_order : zm l Gp = czero.
Proof. apply (same_zero _ _ (qsm_rep _ _ l_lit (lit_rep gx gy g_on))). exact G_comp. Qed.
Lemma T_8 : zm 8 Tp = czero.
Proof. apply (same_zero _ _ (qsm_rep _ _ 8 (lit_rep tx ty t_on))). vm_compute. reflexivity. Qed.
Lemma T_4 : zm 4 Tp <> czero.
Proof. intros H. apply (same_zero _ _ (qsm_rep _ _ 4 (lit_rep tx ty t_on))) in H. vm_compute in H. discriminate. Qed.
Lemma K_8 : zm 8 Kp = Hpt.
Proof. apply (same_spec _ _ hx hy h_on (qsm_rep _ _ 8 (lit_rep kx ky k_on))). vm_compute. reflexivity. Qed.
Lemma G_nz : Gp <> czero.
Proof. intros H. apply (same_zero _ _ (lit_rep gx gy g_on)) in H. vm_compute in H. discriminate. Qed.

(** ** orders *)
Lemma l_prime : prime l.
Proof. exact prime_l. Qed.
Lemma zm_comm a b p : zm a (zm b p) = zm b (zm a p).
Proof. rewrite <- !zm_mul. f_equal. ring. Qed.
Lemma order_l n p : p <> czero -> zm l p = czero -> zm n p = czero -> (l | n)%Z.
Proof.
  intros Hp Hl Hn. destruct (Zdivide_dec l n) as [D|D]; [exact D|exfalso].
  pose proof (prime_rel_prime l l_prime n D) as R. apply rel_prime_bezout in R. destruct R as [u v E].
  apply Hp. rewrite <- (zm_1 p), <- E, zm_add, !zm_mul, Hl, Hn, !zm_zero, cadd_0. reflexivity.
Qed.
Lemma T_order n : zm n Tp = czero -> (n mod 8 = 0)%Z.
Proof.
  intros H. assert (E : zm (n mod 8) Tp = czero).
  { rewrite (Z.div_mod n 8), zm_add, (Z.mul_comm 8), zm_mul, T_8, zm_zero, cadd_0 in H by discriminate. exact H. }
  pose proof (Z.mod_pos_bound n 8 eq_refl) as R. set (r := (n mod 8)%Z) in *. clearbody r.
  destruct (Z.eq_dec r 0) as [K|K]; [exact K|exfalso].
  assert (M : forall m k, (m * r = 4 + k * 8)%Z -> False).
  { intros m k Em. apply T_4. assert (Z0 : zm (m * r) Tp = czero) by (rewrite zm_mul, E; apply zm_zero).
    rewrite Em, zm_add, zm_mul, T_8, zm_zero, cadd_comm, cadd_0 in Z0. exact Z0. }
  assert (C : (r = 1 \/ r = 2 \/ r = 3 \/ r = 4 \/ r = 5 \/ r = 6 \/ r = 7)%Z).
  { lia. }
  destruct C as [C|[C|[C|[C|[C|[C|C]]]]]]; rewrite C in M.
  - apply (M 4 0)%Z; reflexivity.
  - apply (M 2 0)%Z; reflexivity.
  - apply (M 4 1)%Z; reflexivity.
  - apply (M 1 0)%Z; reflexivity.
  - apply (M 4 2)%Z; reflexivity.
  - apply (M 2 1)%Z; reflexivity.
  - apply (M 4 3)%Z; reflexivity.
Qed.

(** ** counting: a point is determined by y and the parity of x *)
Definition code (p : cpt) : Z := (2 * val (py p) + val (px p) mod 2)%Z.
Lemma code_range p : (0 <= code p < 2 * q255)%Z.
Proof. unfold code. pose proof (val_range (py p)). pose proof (Z.mod_pos_bound (val (px p)) 2 eq_refl). lia. Qed.
Lemma code_inj p r : code p = code r -> p = r.
Proof.
  unfold code. intros H. pose proof (Z.mod_pos_bound (val (px p)) 2 eq_refl). pose proof (Z.mod_pos_bound (val (px r)) 2 eq_refl).
  apply enc_pt_inj. unfold enc_pt, enc_raw. assert (val (py p) = val (py r) /\ val (px p) mod 2 = val (px r) mod 2)%Z as [-> ->] by lia. reflexivity.
Qed.
Lemma split_idx L i : (0 < L -> 0 <= i < 16 * L ->
  let a := i mod L in let b := (i / L) mod 8 in let c := (i / L) / 8 in
  0 <= a < L /\ 0 <= b < 8 /\ 0 <= c < 2 /\ i = a + L * (b + 8 * c))%Z.
Proof.
  intros HL Hi. cbv zeta. pose proof (Z.mod_pos_bound i L HL). pose proof (Z.mod_pos_bound (i / L) 8 eq_refl).
  pose proof (Z.div_mod i L ltac:(lia)) as E1. pose proof (Z.div_mod (i / L) 8 ltac:(lia)) as E2.
  assert (0 <= i / L < 16)%Z by (split; [apply Z.div_pos; lia|apply Z.div_lt_upper_bound; lia]).
  assert (0 <= i / L / 8 < 2)%Z by (split; [apply Z.div_pos; lia|apply Z.div_lt_upper_bound; lia]).
  split; [assumption|]. split; [assumption|]. split; [assumption|]. rewrite E1 at 1. rewrite E2 at 1. ring.
Qed.
Lemma l_pos : (0 < l)%Z. Proof. reflexivity. Qed.
Lemma cshuffle a b c a' b' c' : cadd (cadd a b) c = cadd (cadd a' b') c' ->
  cadd (cadd (cadd a (cneg a')) (cadd b (cneg b'))) (cadd c (cneg c')) = czero.
Proof.
  intros H.
  assert (Sw : forall x y z w, cadd (cadd x y) (cadd z w) = cadd (cadd x z) (cadd y w)).
  { intros. rewrite <- !cadd_assoc. f_equal. rewrite !cadd_assoc. f_equal. apply cadd_comm. }
  rewrite (Sw a), (Sw (cadd a b)), H.
  rewrite <- (Sw (cadd a' b')), <- (Sw a'), !cadd_neg, !cadd_0. reflexivity.
Qed.
Lemma cneg_zero p : cneg p = czero -> p = czero.
Proof. intros E. pose proof (cadd_neg p) as K. rewrite E, cadd_comm, cadd_0 in K. exact K. Qed.
Theorem exponent p : zm (8 * l) p = czero.
Proof.
  destruct (cpt_eq_dec (zm (8 * l) p) czero) as [H|H]; [exact H|exfalso].
  set (f := fun i => (code (cadd (cadd (zm (i mod l) Gp) (zm ((i / l) mod 8) Tp)) (zm (i / l / 8) p)))%Z).
  assert (K : (16 * l <= 2 * q255)%Z); [|revert K; vm_compute; intros K; apply K; reflexivity].
  apply (pigeon _ _ f); [discriminate|intros; apply code_range|].
  intros i j Hi Hj E. apply code_inj in E.
  destruct (split_idx l i l_pos Hi) as (Ra & Rb & Rc & Ei). destruct (split_idx l j l_pos Hj) as (Ra' & Rb' & Rc' & Ej).
  cbv zeta in *. set (a := (i mod l)%Z) in *. set (b := (i / l mod 8)%Z) in *. set (c := (i / l / 8)%Z) in *.
  set (a' := (j mod l)%Z) in *. set (b' := (j / l mod 8)%Z) in *. set (c' := (j / l / 8)%Z) in *. clearbody a b c a' b' c'. clear f.
  apply cshuffle in E. rewrite <- !zm_neg, <- !zm_add in E.
  assert (Ec : c = c').
  { destruct (Z.eq_dec c c') as [Q|Q]; [exact Q|exfalso]. apply H. apply (f_equal (zm (8 * l))) in E.
    rewrite !zm_plus, zm_zero, (zm_comm _ _ Gp), (zm_comm _ _ Tp), !(zm_mul 8 l), (zm_comm 8 l Tp), G_order, T_8, !zm_zero, !cadd_0, <- !zm_mul in E.
    assert (D : (c + - c' = 1 \/ c + - c' = -1)%Z) by lia. destruct D as [D|D]; rewrite D in E.
    - rewrite Z.mul_1_r in E. exact E.
    - replace (8 * l * -1)%Z with (- (8 * l))%Z in E by ring. rewrite zm_neg in E.
      apply cneg_zero, E. }
  subst c'. replace (c + - c)%Z with 0%Z in E by ring. rewrite zmul_0, cadd_comm, cadd_0 in E.
  assert (Ea : a = a').
  { apply (f_equal (zm 8)) in E. rewrite zm_plus, zm_zero, (zm_comm 8 _ Tp), T_8, zm_zero, cadd_comm, cadd_0, <- zm_mul in E.
    apply (order_l _ _ G_nz G_order) in E. apply Gauss in E.
    - destruct E as [k Ek]. assert (k = 0)%Z by nia. lia.
    - apply (prime_rel_prime l l_prime). intros D. apply Z.divide_pos_le in D; [|lia]. revert D. vm_compute. intros D. apply D. reflexivity. }
  subst a'. replace (a + - a)%Z with 0%Z in E by ring. rewrite zmul_0, cadd_0 in E.
  apply T_order in E. assert (b = b').
  { apply Z.mod_divide in E; [|discriminate]. destruct E as [k Ek]. assert (k = 0)%Z by lia. lia. }
  subst b'. lia.
Qed.
Lemma H_order : zm l Hpt = czero.
Proof. rewrite <- K_8, <- zm_mul, Z.mul_comm. apply exponent. Qed.
