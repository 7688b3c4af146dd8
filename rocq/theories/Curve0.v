(** Constants of the curve -x^2 + y^2 = 1 + d x^2 y^2 over F_q. *)
From Verif Require Import Primes Fq.
From Coq Require Import List ZArith Lia Bool Eqdep_dec Field Ring.
Import ListNotations.
Add Field Ffield : F_field.
Local Open Scope F_scope.

Ltac nz := let H := fresh in intros H; apply (f_equal val) in H; vm_compute in H; discriminate H.
Lemma fz_neq x y : (x mod Q255 =? y mod Q255)%Z = false -> fz x <> fz y.
Proof. intros H E. apply fz_eq in E. change q255 with Q255 in E. rewrite E, Z.eqb_refl in H. discriminate. Qed.
Lemma fz_eqc x y : (x mod Q255 =? y mod Q255)%Z = true -> fz x = fz y.
Proof. intros H. apply fz_eq. change q255 with Q255. apply Z.eqb_eq, H. Qed.

(** -121665/121666 *)
Definition dz : Z := 37095705934669439343138083508754565189542113879843219016388785533085940283555.
Definition dF : F := fz dz.
Lemma d_eq : dF * fz 121666 = fz (-121665).
Proof. unfold dF. rewrite <- fz_mul. apply fz_eqc. vm_compute. reflexivity. Qed.
Lemma n121666 : fz 121666 <> fz 0. Proof. apply fz_neq. vm_compute. reflexivity. Qed.
Lemma n2 : fz 2 <> fz 0. Proof. apply fz_neq. vm_compute. reflexivity. Qed.
Lemma d_nz : dF <> 0. Proof. apply fz_neq. vm_compute. reflexivity. Qed.

(** sqrt(-1) = 2^((q-1)/4) *)
Definition iz : Z := 19681161376707505956807079304988542015446066515923890162744021073123829784752.
Definition im : F := fz iz.
Lemma im_sq : im * im = - (1).
Proof. unfold im. rewrite <- fz_mul, <- fz_opp. apply fz_eqc. vm_compute. reflexivity. Qed.

(** non-squares by Euler's criterion *)
Lemma square_pow s : s <> 0 -> fpow (s * s) ((q255 - 1) / 2) = 1.
Proof.
  intros H. rewrite <- (fpow_2 s), <- fpow_mul; [|lia|apply Z.div_pos; [pose proof q_gt1; lia|lia]].
  replace (2 * ((q255 - 1) / 2))%Z with (q255 - 1)%Z by (vm_compute; reflexivity). apply fermat_F, H.
Qed.
Lemma pow_half b r : powm qmod b 28948022309329048855892746252171976963317496166410141009864396001978282409974 = r -> fpow (fz b) ((q255 - 1) / 2) = fz r.
Proof.
  intros H. rewrite <- fz_pow. replace ((q255 - 1) / 2)%Z with 28948022309329048855892746252171976963317496166410141009864396001978282409974%Z by (vm_compute; reflexivity).
  rewrite <- H, (powm_spec qmod q255 b qmod_spec). symmetry. apply fz_mod.
Qed.
Lemma nonsquare b s : powm qmod b 28948022309329048855892746252171976963317496166410141009864396001978282409974 = (Q255 - 1)%Z -> fz b <> s * s.
Proof.
  intros H E. apply pow_half in H. destruct (F_eq_dec s 0) as [->|Hs].
  - rewrite E in H. replace (0 * 0) with (fz 0) in H by ring. rewrite <- fz_pow, Z.pow_0_l in H by (apply Z.div_str_pos; split; [lia|pose proof q_gt1; change q255 with Q255; discriminate]).
    revert H. apply fz_neq. vm_compute. reflexivity.
  - rewrite E, square_pow in H by exact Hs. revert H. apply fz_neq. vm_compute. reflexivity.
Qed.
Lemma nonsquare_2 s : fz 2 <> s * s. Proof. apply nonsquare. vm_compute. reflexivity. Qed.
Lemma nonsquare_c s : fz (121665 * 121666) <> s * s. Proof. apply nonsquare. vm_compute. reflexivity. Qed.
Lemma nonsquare_d s : dF <> s * s.
Proof.
  intros E. apply (nonsquare_c (im * (s * fz 121666))).
  replace (im * (s * fz 121666) * (im * (s * fz 121666))) with (im * im * (s * s * fz 121666) * fz 121666) by ring.
  rewrite im_sq, <- E, d_eq, fz_mul. change (fz (-121665)) with (fz (- (121665))). rewrite (fz_opp 121665). ring.
Qed.

