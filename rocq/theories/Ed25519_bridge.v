(** From the points of Ed25519_group to the integer-level specification of Ed25519_spec. *)
From Verif Require Import Py PyLemmas Digits Ints_model Ints_proof Ints_proof2 Primes Fq Curve0 Curve Agroup Ed25519_model Ed25519_proof Ed25519_group Ed25519_enc0 Ed25519_enc Ed25519_order Ed25519_fe Ed25519_spec.
From Coq Require Import Field Ring.
Add Field Ffield : F_field.
Ltac Zify.zify_post_hook ::= idtac.
Local Open Scope Z_scope.

Lemma p_q : p = q. Proof. reflexivity. Qed.
Lemma p_q255 : p = q255. Proof. reflexivity. Qed.
Lemma eqm_F a b : eqm a b <-> fz a = fz b.
Proof. unfold eqm. rewrite p_q255. symmetry. apply fz_eq. Qed.
Lemma dc_F : fz dc = dF. Proof. reflexivity. Qed.
Definition to_pair (r : cpt) : pair := (val (px r), val (py r)).
Lemma to_pair_inj r s : to_pair r = to_pair s -> r = s.
Proof. intros H. apply pair_equal_spec in H. destruct H. apply pt_ext; apply val_inj; assumption. Qed.
Lemma to_pair_curve r : curve (to_pair r).
Proof.
  unfold curve, to_pair. rewrite p_q255. split; [apply val_range|]. split; [apply val_range|].
  rewrite eqm_F. fzs. rewrite dc_F, !fz_val. pose proof (pt_on r) as C. unfold oncurve in C.
  transitivity (py r * py r - px r * px r)%F; [ring|]. rewrite C. ring.
Qed.
Lemma curve_pt a : curve a -> exists r, a = to_pair r.
Proof.
  destruct a as [x y]. unfold curve. rewrite p_q255. intros (Hx & Hy & E). rewrite eqm_F in E. revert E. fzs. rewrite dc_F. intros E.
  assert (C : oncurve (fz x) (fz y)).
  { unfold oncurve. transitivity (- fz x * fz x + fz y * fz y)%F; [ring|]. rewrite E. ring. }
  exists (mkpt _ _ C). unfold to_pair. cbn [mkpt px py proj1_sig fst snd]. rewrite !val_fz, !Z.mod_small by assumption. reflexivity.
Qed.
Lemma sf_rep P r : stands_for P (to_pair r) <-> repp P r.
Proof.
  destruct P as [[[X Y] Zz] T]. unfold stands_for, to_pair, repp, rep. rewrite !eqm_F. fzs. rewrite !fz_val. rewrite p_q.
  assert (K : Zz mod q <> 0 <-> fz Zz <> fz 0) by (rewrite fz_zero; reflexivity). rewrite K. reflexivity.
Qed.
Lemma sa_aff P r : stands_aff P (to_pair r) <-> affp P r.
Proof. unfold stands_aff, to_pair, affp. cbn [fst snd]. rewrite !eqm_F, !fz_val. reflexivity. Qed.
Lemma sum_pt r s c : curve c -> (is_sum (to_pair r) (to_pair s) c <-> c = to_pair (cadd r s)).
Proof.
  intros Hc. apply curve_pt in Hc. destruct Hc as [t ->]. unfold is_sum, to_pair at 1 2 3. rewrite !eqm_F. fzs. rewrite !dc_F, !fz_val.
  pose proof (complete_plus _ _ _ _ (pt_on r) (pt_on s)) as N1. pose proof (complete_minus _ _ _ _ (pt_on r) (pt_on s)) as N2.
  replace (1 + dF * px r * px s * py r * py s)%F with (1 + dF * (px r * px s * (py r * py s)))%F by ring.
  replace (1 - dF * px r * px s * py r * py s)%F with (1 - dF * (px r * px s * (py r * py s)))%F by ring.
  assert (K : forall a b n, n <> fz 0 -> ((a * n = b)%F <-> a = (b / n)%F)).
  { intros a b n N. rewrite fdiv_mul. destruct (inv_rw _ N) as [I _]. split.
    - intros <-. transitivity (a * (n * finv n))%F; [rewrite I; ring|ring].
    - intros ->. transitivity (b * (n * finv n))%F; [ring|rewrite I; ring]. }
  rewrite (K _ _ _ N1), (K _ _ _ N2). split.
  - intros [E1 E2]. f_equal. apply pt_ext; assumption.
  - intros E. apply to_pair_inj in E. rewrite E. split; reflexivity.
Qed.
Lemma neutral_pt : neutral = to_pair czero.
Proof. unfold neutral, to_pair, czero, mkpt, px, py. cbn [proj1_sig fst snd]. rewrite !val_fz. reflexivity. Qed.
Lemma neg_pt r : negp (to_pair r) = to_pair (cneg r).
Proof.
  unfold negp, to_pair. cbn [fst snd]. f_equal.
Qed.
Lemma times_pt r n c : times (to_pair r) n c <-> c = to_pair (nm n r).
Proof.
  split.
  - induction 1 as [|n b c Hb IH Hc S]; [exact neutral_pt|]. subst b. apply sum_pt in S; assumption.
  - intros ->. induction n as [|n IH]; [cbn [nmul]; rewrite <- neutral_pt; constructor|]. cbn [nmul].
    econstructor; [exact IH|apply to_pair_curve|]. apply sum_pt; [apply to_pair_curve|reflexivity].
Qed.
Lemma times_z r e c : 0 <= e -> (times (to_pair r) (Z.to_nat e) c <-> c = to_pair (zm e r)).
Proof. intros H. rewrite times_pt, zmul_nat by exact H. reflexivity. Qed.
Lemma enc_encoding r : encoding (to_pair r) (enc_pt r).
Proof.
  split; [apply enc_pt_len|]. split; [apply enc_pt_bytes|]. cbn [to_pair fst snd]. rewrite <- enc_pt_val. exact (le_int_val (enc_pt r)).
Qed.
Lemma encoding_det r s : encoding (to_pair r) s -> s = enc_pt r.
Proof.
  intros (L & Hb & E). cbn [to_pair fst snd] in E. rewrite <- enc_pt_val in E.
  assert (V : le_val 256 s = le_val 256 (enc_pt r)) by (rewrite <- E; symmetry; apply le_int_val).
  rewrite <- (le_digits_val 256 s), <- (le_digits_val 256 (enc_pt r)).
  - rewrite V, L, enc_pt_len. reflexivity.
  - lia.
  - apply digits_ok_256, enc_pt_bytes.
  - lia.
  - apply digits_ok_256, Hb.
Qed.
