(** Square roots and the point encodings. *)
From Verif Require Import Py PyLemmas Digits Ints_model Ints_spec Ints_proof Ints_proof2 Primes Fq Curve0 Curve Agroup Ed25519_model Ed25519_proof Ed25519_group Ed25519_enc0.
From Coq Require Import Field Ring.
Add Field Ffield : F_field.
Local Open Scope F_scope.
Ltac Zify.zify_post_hook ::= idtac.

Lemma ok_inj' {A} (a b : A) : Ok a = Ok b -> a = b.
Proof. congruence. Qed.
Lemma I_F : fz I_ = im.
Proof.
  unfold I_. rewrite q_eq. change im with (fz iz). cbn [pypow].
  replace ((q255 - 1) / 4)%Z with 14474011154664524427946373126085988481658748083205070504932198000989141204987%Z by (vm_compute; reflexivity).
  unfold pypow. rewrite powm_mod by reflexivity. rewrite <- (powm_spec qmod q255 2 qmod_spec). apply fz_eqc. vm_compute. reflexivity.
Qed.

Lemma pm_one a : a * a = 1 -> a = 1 \/ a = - (1).
Proof.
  intros H. destruct (F_domain (a - 1) (a + 1)) as [K|K]; [transitivity (a * a - 1); [ring|rewrite H; ring]| |].
  - left. apply fsub_eq, K.
  - right. apply fsub_eq. rewrite <- K. ring.
Qed.
Lemma pm_sq a b : a * a = b * b -> a = b \/ a = - b.
Proof.
  intros H. destruct (F_domain (a - b) (a + b)) as [K|K]; [transitivity (a * a - b * b); [ring|rewrite H; ring]| |].
  - left. apply fsub_eq, K.
  - right. apply fsub_eq. rewrite <- K. ring.
Qed.
Definition e38 : Z := ((q255 + 3) / 8)%Z.
Lemma sqrt_pow s : let r := fpow (s * s) e38 in r * r = s * s \/ r * r = - (s * s).
Proof.
  cbv zeta. destruct (F_eq_dec s 0) as [->|Hs].
  - left. replace (0 * 0) with (fz 0) by ring. rewrite <- fz_pow, Z.pow_0_l by (vm_compute; reflexivity). ring.
  - set (h := fpow s ((q255 - 1) / 2)).
    assert (Hh : h * h = 1). { unfold h. rewrite <- fpow_base_mul. apply square_pow, Hs. }
    assert (E : fpow (s * s) e38 * fpow (s * s) e38 = s * s * h).
    { rewrite <- !(fpow_2 s), <- fpow_mul by (vm_compute; discriminate). unfold h.
      rewrite <- !fpow_add by (vm_compute; discriminate). f_equal. }
    rewrite E. destruct (pm_one h Hh) as [K|K]; rewrite K; [left|right]; ring.
Qed.
(** ** the square root candidates of the code *)
Lemma pypow_e38 xx : fz (pypow xx ((q + 3) / 8) q) = fpow (fz xx) e38.
Proof. rewrite pypow_F by (vm_compute; discriminate). reflexivity. Qed.
Lemma e38_nn : (0 <= (q + 3) / 8)%Z. Proof. vm_compute. discriminate. Qed.
Lemma root_step xx s r : fz xx = s * s -> fz r = fpow (fz xx) e38 -> (0 <= r < q)%Z ->
  let x := (if negb ((r * r - xx) mod q =? 0) then (r * I_) mod q else r)%Z in
  (0 <= x < q)%Z /\ fz x * fz x = s * s.
Proof.
  intros Hx Hr Rr x. unfold x.
  assert (E : ((r * r - xx) mod q =? 0)%Z = true <-> fz r * fz r = s * s).
  { rewrite Z.eqb_eq, <- fz_zero. fzs. rewrite Hx. split; [apply fsub_eq|intros ->; ring]. }
  destruct ((r * r - xx) mod q =? 0)%Z; cbn [negb].
  - split; [exact Rr|apply E; reflexivity].
  - split; [apply Z.mod_pos_bound; reflexivity|]. fzs. rewrite I_F. pose proof (sqrt_pow s) as K. cbv zeta in K. rewrite <- Hx, <- Hr in K. destruct K as [K|K].
    + exfalso. rewrite Hx in K. apply E in K. discriminate.
    + transitivity (fz r * fz r * (im * im)); [ring|]. rewrite K, im_sq, Hx. ring.
Qed.
Lemma fz_q : fz q = 0. Proof. apply fz_zero. rewrite Z.mod_same; [reflexivity|discriminate]. Qed.
Lemma q_odd : (q mod 2 = 1)%Z. Proof. reflexivity. Qed.
(** a canonical representative, by its sign bit *)
Lemma val_of X (x : F) : (0 <= X < q)%Z -> fz X = x -> val x = X.
Proof. intros H <-. rewrite val_fz. apply Z.mod_small. exact H. Qed.
Lemma val_opp x : x <> 0 -> val (- x) = (q - val x)%Z.
Proof.
  intros H. apply val_of.
  - pose proof (val_range x). assert (val x <> 0)%Z by (intros K; apply H, zero_val, K). change q255 with q in *. lia.
  - rewrite fz_sub, fz_q, fz_val. ring.
Qed.
Lemma val_parity x : x <> 0 -> (val (- x) mod 2 = 1 - val x mod 2)%Z.
Proof.
  intros H. rewrite val_opp by exact H. pose proof q_odd. rewrite Zminus_mod, q_odd.
  pose proof (Z.mod_pos_bound (val x) 2 eq_refl). assert (K : (val x mod 2 = 0 \/ val x mod 2 = 1)%Z) by lia. destruct K as [-> | ->]; reflexivity.
Qed.
Lemma pick X x sb : (0 <= X < q)%Z -> fz X = x \/ fz X = - x -> (sb = val x mod 2)%Z -> X <> 0%Z ->
  (if negb (Z.land X 1 =? sb) then q - X else X)%Z = val x.
Proof.
  intros R H -> N. rewrite land1.
  assert (NX : fz X <> 0). { intros K. apply N. apply fz_zero in K. rewrite Z.mod_small in K by exact R. exact K. }
  destruct H as [H|H].
  - rewrite (val_of X x R H). rewrite Z.eqb_refl. reflexivity.
  - assert (Nx : x <> 0) by (intros ->; apply NX; rewrite H; ring).
    rewrite <- (val_of X (- x) R H). rewrite val_parity, val_opp by exact Nx.
    destruct (Z.eqb_spec (1 - val x mod 2) (val x mod 2)) as [K|K]; cbn [negb]; [exfalso|ring].
    pose proof (Z.mod_pos_bound (val x) 2 eq_refl). lia.
Qed.
Lemma den_nz y : dF * (y * y) + 1 <> 0.
Proof.
  intros H. destruct (F_eq_dec y 0) as [->|N].
  - apply one_neq_zero. rewrite <- H. ring.
  - destruct (inv_rw y N) as [K _]. apply (nonsquare_d (im * finv y)).
    transitivity (im * im * (finv y * finv y)); [|ring]. rewrite im_sq.
    transitivity ((dF * (y * y) + 1) * (finv y * finv y) - finv y * finv y); [|rewrite H; ring].
    transitivity (dF * (y * finv y * (y * finv y))); [rewrite K; ring|]. ring.
Qed.
Lemma xx_F y : fz ((y * y - 1) * inv (d * y * y + 1)) = (fz y * fz y - 1) * finv (dF * (fz y * fz y) + 1).
Proof. fzs. rewrite inv_F. fzs. rewrite d_F. replace (dF * fz y * fz y) with (dF * (fz y * fz y)) by ring. reflexivity. Qed.
Lemma xx_sq x y : oncurve x y -> (y * y - 1) * finv (dF * (y * y) + 1) = x * x.
Proof.
  intros C. destruct (inv_rw _ (den_nz y)) as [K _]. unfold oncurve in C.
  transitivity (x * x * ((dF * (y * y) + 1) * finv (dF * (y * y) + 1))); [|rewrite K; ring].
  replace (y * y - 1) with (y * y - x * x + x * x - 1) by ring. rewrite C. ring.
Qed.
Lemma xrecover_spec Y x : oncurve x (fz Y) -> let X := xrecover Y in (0 <= X < q)%Z /\ (fz X = x \/ fz X = - x) /\ Z.land X 1 = 0%Z.
Proof.
  intros C X. unfold X, xrecover. cbv zeta. set (xx := ((Y * Y - 1) * inv (d * Y * Y + 1))%Z).
  assert (Hx : fz xx = x * x) by (unfold xx; rewrite xx_F; apply xx_sq, C).
  pose proof (root_step xx x (pypow xx ((q + 3) / 8) q) Hx (pypow_e38 xx) (pypow_range xx _ e38_nn)) as [R E]. cbv zeta in R, E.
  set (r := (if negb ((pypow xx ((q + 3) / 8) q * pypow xx ((q + 3) / 8) q - xx) mod q =? 0) then (pypow xx ((q + 3) / 8) q * I_) mod q else pypow xx ((q + 3) / 8) q)%Z) in *.
  clearbody r. apply pm_sq in E. rewrite land1. destruct (Z.eqb_spec (r mod 2) 0) as [P|P]; cbn [negb].
  - split; [exact R|]. split; [exact E|exact P].
  - assert (r <> 0)%Z by (intros ->; apply P; reflexivity). split; [lia|]. split.
    + rewrite fz_sub, fz_q. destruct E as [-> | ->]; [right|left]; ring.
    + rewrite Zminus_mod, q_odd. pose proof (Z.mod_pos_bound r 2 eq_refl). replace (r mod 2)%Z with 1%Z by lia. reflexivity.
Qed.

(** ** encodepoint / decodepoint (ed25519_2.py) *)
Definition enc_pt (p : cpt) : list Z := enc_raw (val (px p)) (val (py p)).
Lemma val_255 a : (0 <= val a < 2 ^ 255)%Z.
Proof. pose proof (val_range a). assert (q255 < 2 ^ 255)%Z by reflexivity. lia. Qed.
Lemma encodepoint_spec P p : repp P p -> encodepoint P = Ok (enc_pt p).
Proof.
  intros H. apply conv_ext in H. destruct P as [[[X Y] Zz] T]. unfold encodepoint. cbv zeta. destruct H as [H1 H2]. cbn [conv_ext_to_xy fst snd] in H1, H2.
  rewrite <- (val_of _ _ (Z.mod_pos_bound (X * inv Zz) q eq_refl) H1), <- (val_of _ _ (Z.mod_pos_bound (Y * inv Zz) q eq_refl) H2).
  rewrite land1. apply encodepoint_raw; [apply val_255|apply Z.mod_pos_bound; reflexivity].
Qed.
Definition norm (p : cpt) : quad := (val (px p), val (py p), 1, (val (px p) * val (py p)) mod q)%Z.
Lemma norm_rep p : repp (norm p) p.
Proof. unfold repp, norm. cbn [rep]. fzs. rewrite !fz_val. split; [apply one_neq_zero|]. split; [ring|]. split; ring. Qed.
Lemma enc_pt_len p : length (enc_pt p) = 32%nat. Proof. apply le_digits_length. Qed.
Lemma enc_pt_bytes p : bytes_ok (enc_pt p). Proof. apply enc_raw_bytes. Qed.
Lemma enc_pt_val p : le_val 256 (enc_pt p) = (val (py p) + 2 ^ 255 * (val (px p) mod 2))%Z.
Proof. apply enc_raw_val, val_255. Qed.
Lemma enc_pt_split p : (le_val 256 (enc_pt p) mod 2 ^ 255 = val (py p) /\ le_val 256 (enc_pt p) / 2 ^ 255 = val (px p) mod 2)%Z.
Proof.
  rewrite enc_pt_val. replace (val (py p) + 2 ^ 255 * (val (px p) mod 2))%Z with (val (py p) + (val (px p) mod 2) * 2 ^ 255)%Z by ring.
  pose proof (val_255 (py p)). rewrite Z_mod_plus_full, Z.mod_small by assumption. split; [reflexivity|].
  rewrite Z.div_add, Z.div_small by (assumption || discriminate). reflexivity.
Qed.
Lemma recover_norm p : let x := xrecover (val (py p)) in (if negb (Z.land x 1 =? val (px p) mod 2) then q - x else x)%Z = val (px p).
Proof.
  cbv zeta. destruct (xrecover_spec (val (py p)) (px p)) as (R & E & Pr); [rewrite fz_val; apply pt_on|].
  destruct (Z.eq_dec (xrecover (val (py p))) 0) as [Z0|N].
  - rewrite Z0 in *. assert (Hx : px p = 0). { destruct E as [<-|E]; [reflexivity|]. transitivity (- - px p); [ring|]. rewrite <- E. ring. }
    rewrite Hx. assert (V : val 0 = 0%Z) by (apply zero_val; reflexivity). rewrite V. reflexivity.
  - apply pick; [exact R|exact E|reflexivity|exact N].
Qed.
Lemma firstn_enc p rest : firstn 32 (enc_pt p ++ rest) = enc_pt p.
Proof. rewrite firstn_app, enc_pt_len, Nat.sub_diag, firstn_O, app_nil_r. apply firstn_all2. rewrite enc_pt_len. lia. Qed.
Lemma decodepoint_enc p rest : bytes_ok rest -> decodepoint (enc_pt p ++ rest) = Ok (norm p).
Proof.
  intros Hr. rewrite decodepoint_val; [|apply bytes_ok_app; split; [apply enc_pt_bytes|exact Hr]|unfold zlen; rewrite app_length, enc_pt_len; lia].
  cbv zeta. rewrite firstn_enc. destruct (enc_pt_split p) as [E1 E2]. rewrite E1, E2, recover_norm. fold (norm p).
  assert (K : isoncurve (norm p) = true) by (apply isoncurve_repp; exists p; apply norm_rep). rewrite K. reflexivity.
Qed.
(** whatever is accepted is a point of the curve *)
Lemma decodepoint_on s P : decodepoint s = Ok P -> exists p, repp P p.
Proof.
  intros H. apply isoncurve_repp. revert H. unfold decodepoint. destruct (mapM _ _) as [ts|e]; cbn [bind]; [|discriminate].
  destruct (bit s 255) as [sb|e]; cbn [bind]; [|discriminate]. cbv zeta. destruct (isoncurve _) eqn:E; cbn [guard bind]; [|discriminate].
  intros K. apply ok_inj' in K. rewrite <- K. exact E.
Qed.

(** ** point_compress / point_decompress (ed25519ietf.py) *)
Lemma point_compress_spec P p : repp P p -> point_compress P = Ok (enc_pt p).
Proof.
  destruct P as [[[X Y] Zz] T]. intros (N & HX & HY & _). unfold point_compress. cbv zeta.
  assert (H1 : fz (X * modp_inv Zz mod q) = px p). { fzs. rewrite modp_inv_F, HX. destruct (inv_rw _ N) as [K _]. transitivity (px p * (fz Zz * finv (fz Zz))); [ring|rewrite K; ring]. }
  assert (H2 : fz (Y * modp_inv Zz mod q) = py p). { fzs. rewrite modp_inv_F, HY. destruct (inv_rw _ N) as [K _]. transitivity (py p * (fz Zz * finv (fz Zz))); [ring|rewrite K; ring]. }
  rewrite <- (val_of _ _ (Z.mod_pos_bound (X * modp_inv Zz) q eq_refl) H1), <- (val_of _ _ (Z.mod_pos_bound (Y * modp_inv Zz) q eq_refl) H2).
  rewrite encodeint_digits, land1. unfold enc_pt, enc_raw. f_equal. f_equal.
  pose proof (val_255 (py p)) as R. generalize dependent (val (py p)). intros y R. generalize (val (px p) mod 2)%Z. intros b.
  rewrite Z.shiftl_mul_pow2 by lia. rewrite (Z.mul_comm b), <- Z.lxor_lor, <- Z.add_nocarry_lxor; [reflexivity| |].
  all: apply Z.bits_inj'; intros i Hi; rewrite Z.land_spec, Z.bits_0, (Z.mul_comm _ b), Z.mul_pow2_bits by lia.
  all: destruct (Z.lt_ge_cases i 255) as [L|L]; [rewrite (Z.testbit_neg_r b) by lia; apply andb_false_r|];
    replace (Z.testbit y i) with false; [reflexivity|]; symmetry; destruct (Z.eq_dec y 0) as [->|Ny]; [apply Z.bits_0|];
    apply Z.bits_above_log2; [lia|]; apply Z.lt_le_trans with 255%Z; [apply Z.log2_lt_pow2; lia|exact L].
Qed.
Lemma m1_eq : modp_sqrt_m1 = I_. Proof. unfold modp_sqrt_m1, I_. reflexivity. Qed.
Lemma recover_x_spec p : recover_x (val (py p)) (val (px p) mod 2) = Some (val (px p)).
Proof.
  unfold recover_x. cbv zeta. set (y := val (py p)). set (x2 := ((y * y - 1) * modp_inv (ietf_d * y * y + 1))%Z).
  assert (Hx : fz x2 = px p * px p).
  { unfold x2. fzs. rewrite modp_inv_F. fzs. rewrite ietf_d_F. unfold y. rewrite fz_val, <- (xx_sq _ _ (pt_on p)). replace (dF * py p * py p) with (dF * (py p * py p)) by ring. reflexivity. }
  assert (V0 : val 0 = 0%Z) by (apply zero_val; reflexivity).
  destruct (Z.eqb_spec x2 0) as [Z0|Nz].
  - assert (E : px p = 0). { destruct (F_domain (px p) (px p)) as [K|K]; [rewrite <- Hx, Z0; reflexivity|exact K|exact K]. } rewrite E, V0. reflexivity.
  - pose proof (root_step x2 (px p) (pypow x2 ((q + 3) / 8) q) Hx (pypow_e38 x2) (pypow_range x2 _ e38_nn)) as [R E]. cbv zeta in R, E.
    rewrite m1_eq.
    set (r := (if negb ((pypow x2 ((q + 3) / 8) q * pypow x2 ((q + 3) / 8) q - x2) mod q =? 0) then (pypow x2 ((q + 3) / 8) q * I_) mod q else pypow x2 ((q + 3) / 8) q)%Z) in *.
    clearbody r. assert (T : ((r * r - x2) mod q =? 0)%Z = true). { apply Z.eqb_eq, fz_zero. fzs. rewrite E, Hx. ring. } rewrite T. cbn [negb]. f_equal.
    apply pm_sq in E. destruct (Z.eq_dec r 0) as [Zr|Nr].
    + rewrite Zr in *. assert (Hp : px p = 0). { destruct E as [<-|E]; [reflexivity|]. transitivity (- - px p); [ring|]. rewrite <- E. ring. }
      rewrite Hp, V0. reflexivity.
    + apply pick; [exact R|exact E|reflexivity|exact Nr].
Qed.
Lemma point_decompress_spec p : point_decompress (enc_pt p) = Ok (Some (norm p)).
Proof.
  unfold point_decompress. rewrite decodeint_raw_val by apply enc_pt_bytes. unfold zlen. rewrite enc_pt_len. change (32 <=? Z.of_nat 32)%Z with true. cbn [bind].
  rewrite (firstn_all2 (enc_pt p)) by (rewrite enc_pt_len; lia). destruct (enc_pt_split p) as [E1 E2]. rewrite Z.shiftr_div_pow2 by lia. rewrite E2.
  change (Z.shiftl 1 255 - 1)%Z with (Z.ones 255). rewrite Z.land_ones by lia. rewrite E1, recover_x_spec. reflexivity.
Qed.
Lemma enc_pt_inj p r : enc_pt p = enc_pt r -> p = r.
Proof.
  intros H. pose proof (decodepoint_enc p [] (Forall_nil _)) as E. rewrite H, decodepoint_enc in E by constructor. apply ok_inj' in E. unfold norm in E.
  apply pair_equal_spec in E. destruct E as [E _]. apply pair_equal_spec in E. destruct E as [E _]. apply pair_equal_spec in E. destruct E as [Ex Ey].
  apply pt_ext; apply val_inj; congruence.
Qed.
