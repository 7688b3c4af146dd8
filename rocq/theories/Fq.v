(** The field of q = 2^255 - 19 elements, as canonical residues. *)
From Verif Require Import Primes.
From Coq Require Import List ZArith Lia Znumtheory Zpow_facts Bool Eqdep_dec Field Ring.
Local Open Scope Z_scope.

Local Notation q := q255.
Lemma q_pos : 0 < q. Proof. reflexivity. Qed.
Lemma q_gt1 : 1 < q. Proof. reflexivity. Qed.
Lemma q_prime : prime q. Proof. exact prime_q. Qed.
Global Opaque q255.

Definition canon (x : Z) : bool := x mod q =? x.
Definition F : Type := { x : Z | canon x = true }.
Definition val (a : F) : Z := proj1_sig a.
Lemma canon_mod x : canon (x mod q) = true.
Proof. unfold canon. rewrite Zmod_mod. apply Z.eqb_refl. Qed.
Definition fz (x : Z) : F := exist _ (x mod q) (canon_mod x).
Lemma val_fz x : val (fz x) = x mod q. Proof. reflexivity. Qed.
Lemma val_inj a b : val a = val b -> a = b.
Proof. destruct a as [a Ha], b as [b Hb]. cbn [val proj1_sig]. intros ->. f_equal. apply UIP_dec, bool_dec. Qed.
Lemma val_canon a : val a mod q = val a.
Proof. destruct a as [a Ha]. cbn [val proj1_sig]. apply Z.eqb_eq, Ha. Qed.
Lemma val_range a : 0 <= val a < q.
Proof. rewrite <- (val_canon a). apply Z.mod_pos_bound, q_pos. Qed.
Lemma fz_val a : fz (val a) = a.
Proof. apply val_inj. rewrite val_fz. apply val_canon. Qed.
Lemma fz_eq x y : fz x = fz y <-> x mod q = y mod q.
Proof. split; intros H; [apply (f_equal val) in H; rewrite !val_fz in H; exact H|apply val_inj; rewrite !val_fz; exact H]. Qed.
Lemma fz_mod x : fz (x mod q) = fz x.
Proof. apply fz_eq, Zmod_mod. Qed.
Lemma F_eq_dec (a b : F) : {a = b} + {a <> b}.
Proof. destruct (Z.eq_dec (val a) (val b)) as [H|H]; [left; apply val_inj, H|right; intros ->; apply H; reflexivity]. Qed.

Definition fadd (a b : F) : F := fz (val a + val b).
Definition fsub (a b : F) : F := fz (val a - val b).
Definition fmul (a b : F) : F := fz (val a * val b).
Definition fopp (a : F) : F := fz (- val a).
Definition fpow (a : F) (e : Z) : F := fz (val a ^ e).
Definition finv (a : F) : F := fpow a (q - 2).
Definition fdiv (a b : F) : F := fmul a (finv b).

Declare Scope F_scope.
Delimit Scope F_scope with F.
Bind Scope F_scope with F.
Infix "+" := fadd : F_scope.
Infix "-" := fsub : F_scope.
Infix "*" := fmul : F_scope.
Infix "/" := fdiv : F_scope.
Notation "- x" := (fopp x) : F_scope.
Notation "0" := (fz 0) : F_scope.
Notation "1" := (fz 1) : F_scope.

Lemma fz_add x y : fz (x + y) = (fz x + fz y)%F.
Proof. apply val_inj. unfold fadd. rewrite !val_fz. apply Zplus_mod. Qed.
Lemma fz_sub x y : fz (x - y) = (fz x - fz y)%F.
Proof. apply val_inj. unfold fsub. rewrite !val_fz. apply Zminus_mod. Qed.
Lemma fz_mul x y : fz (x * y) = (fz x * fz y)%F.
Proof. apply val_inj. unfold fmul. rewrite !val_fz. apply Zmult_mod. Qed.
Lemma fz_opp x : fz (- x) = (- fz x)%F.
Proof. apply val_inj. unfold fopp. rewrite !val_fz. replace (- x) with (0 - x) by ring. replace (- (x mod q)) with (0 - x mod q) by ring. rewrite Zminus_mod_idemp_r. reflexivity. Qed.
Lemma fz_pow x e : fz (x ^ e) = fpow (fz x) e.
Proof. apply val_inj. unfold fpow. rewrite !val_fz. apply Zpower_mod, q_pos. Qed.

Lemma F_ring : ring_theory (fz 0) (fz 1) fadd fmul fsub fopp eq.
Proof.
  constructor; intros; repeat match goal with a : F |- _ => rewrite <- (fz_val a); generalize (val a); clear a; intros end;
    rewrite <- ?fz_opp, <- ?fz_add, <- ?fz_mul, <- ?fz_sub, <- ?fz_add, <- ?fz_mul, <- ?fz_add; f_equal; ring.
Qed.
Lemma zero_val a : a = fz 0 <-> val a = 0.
Proof.
  split; [intros ->; reflexivity|]. intros H. apply val_inj. rewrite H. reflexivity.
Qed.
Lemma F_domain a b : (a * b = 0)%F -> a = fz 0 \/ b = fz 0.
Proof.
  intros H. apply (f_equal val) in H. unfold fmul in H. rewrite !val_fz, (Z.mod_small 0) in H by (pose proof q_pos; lia).
  apply Z.mod_divide in H; [|pose proof q_pos; lia]. apply prime_mult in H; [|exact q_prime].
  pose proof (val_range a). pose proof (val_range b).
  destruct H as [H|H]; [left|right]; apply zero_val; destruct H as [k Hk]; assert (k = 0) by nia; lia.
Qed.
Lemma one_neq_zero : fz 1 <> fz 0.
Proof. intros H. apply (f_equal val) in H. rewrite !val_fz, !Z.mod_small in H by (pose proof q_gt1; lia). discriminate. Qed.

Lemma not_div a : a <> fz 0 -> ~ (q | val a).
Proof. intros H [k Hk]. apply H, zero_val. pose proof (val_range a). assert (k = 0) by nia. lia. Qed.
Lemma fpow_add a m n : 0 <= m -> 0 <= n -> fpow a (m + n) = (fpow a m * fpow a n)%F.
Proof. intros. unfold fpow. rewrite Z.pow_add_r, fz_mul by assumption. reflexivity. Qed.
Lemma fpow_mul a m n : 0 <= m -> 0 <= n -> fpow a (m * n) = fpow (fpow a m) n.
Proof. intros. unfold fpow at 1. rewrite Z.pow_mul_r by assumption. rewrite fz_pow. reflexivity. Qed.
Lemma fpow_1 a : fpow a 1 = a.
Proof. unfold fpow. rewrite Z.pow_1_r. apply fz_val. Qed.
Lemma fpow_0 a : fpow a 0 = fz 1.
Proof. reflexivity. Qed.
Lemma fpow_2 a : fpow a 2 = (a * a)%F.
Proof. change 2 with (1 + 1). rewrite fpow_add, fpow_1 by lia. reflexivity. Qed.
Lemma fpow_base_mul a b n : fpow (a * b)%F n = (fpow a n * fpow b n)%F.
Proof.
  unfold fpow, fmul. rewrite !val_fz. rewrite (fz_pow ((val a * val b) mod q)), fz_mod, <- fz_pow, Z.pow_mul_l, fz_mul. reflexivity.
Qed.
Lemma fermat_F a : a <> fz 0 -> fpow a (q - 1) = fz 1.
Proof.
  intros H. apply val_inj. unfold fpow. rewrite !val_fz, (Z.mod_small 1) by (pose proof q_gt1; lia).
  apply fermat; [exact q_prime|apply not_div, H].
Qed.
Lemma finv_l a : a <> fz 0 -> (finv a * a = 1)%F.
Proof.
  intros H. rewrite <- (fermat_F a H). unfold finv. rewrite <- (fpow_1 a) at 2. rewrite <- fpow_add; [f_equal; ring| |lia].
  pose proof (prime_ge_2 _ q_prime). lia.
Qed.
Lemma F_field : field_theory (fz 0) (fz 1) fadd fmul fsub fopp fdiv finv eq.
Proof. constructor; [exact F_ring|exact one_neq_zero|reflexivity|exact finv_l]. Qed.
