(** Positional notation (mathematical specification): big-endian digit lists in base B. *)
From Verif Require Import Py PyLemmas.

(** value of a big-endian digit list *)
Definition be_val (B : Z) (l : list Z) : Z := fold_left (fun a d => a * B + d) l 0.

(** value of a little-endian digit list *)
Fixpoint le_val (B : Z) (l : list Z) : Z :=
  match l with [] => 0 | d :: t => d + B * le_val B t end.

(** n least significant base-B digits of v, big-endian *)
Fixpoint be_digits (B : Z) (n : nat) (v : Z) : list Z :=
  match n with O => [] | S n => be_digits B n (v / B) ++ [v mod B] end.

(** n least significant base-B digits of v, little-endian *)
Fixpoint le_digits (B : Z) (n : nat) (v : Z) : list Z :=
  match n with O => [] | S n => v mod B :: le_digits B n (v / B) end.

Definition digits_ok (B : Z) (l : list Z) : Prop := Forall (fun d => 0 <= d < B) l.

Lemma be_val_gen B l a : fold_left (fun a d => a * B + d) l a = a * B ^ zlen l + be_val B l.
Proof.
  unfold be_val. revert a; induction l as [|d l IH]; intros a; cbn [fold_left].
  - change (zlen (@nil Z)) with 0. change (B ^ 0) with 1. lia.
  - rewrite IH. rewrite (IH (0 * B + d)). rewrite zlen_cons, Z.pow_add_r by (pose proof (zlen_nonneg l); lia).
    rewrite Z.pow_1_r. lia.
Qed.
Lemma be_val_cons B d l : be_val B (d :: l) = d * B ^ zlen l + be_val B l.
Proof. unfold be_val at 1. cbn [fold_left]. rewrite be_val_gen. lia. Qed.
Lemma be_val_app B l1 l2 : be_val B (l1 ++ l2) = be_val B l1 * B ^ zlen l2 + be_val B l2.
Proof. unfold be_val at 1. rewrite fold_left_app. rewrite be_val_gen. reflexivity. Qed.
Lemma be_val_snoc B l d : be_val B (l ++ [d]) = be_val B l * B + d.
Proof. unfold be_val. rewrite fold_left_app. reflexivity. Qed.

Lemma le_val_rev B l : le_val B l = be_val B (rev l).
Proof. induction l as [|d l IH]; cbn [le_val rev]; [reflexivity|]. rewrite be_val_snoc, IH. lia. Qed.
Lemma be_val_rev B l : be_val B l = le_val B (rev l).
Proof. now rewrite le_val_rev, rev_involutive. Qed.
Lemma le_val_app B l1 l2 : le_val B (l1 ++ l2) = le_val B l1 + B ^ zlen l1 * le_val B l2.
Proof.
  induction l1 as [|d l1 IH]; cbn [app le_val].
  - change (zlen (@nil Z)) with 0. change (B ^ 0) with 1. lia.
  - rewrite IH, zlen_cons, Z.pow_add_r by (pose proof (zlen_nonneg l1); lia). rewrite Z.pow_1_r. lia.
Qed.

Lemma digits_ok_app B l1 l2 : digits_ok B (l1 ++ l2) <-> digits_ok B l1 /\ digits_ok B l2.
Proof. apply Forall_app. Qed.
Lemma digits_ok_cons B d l : digits_ok B (d :: l) <-> 0 <= d < B /\ digits_ok B l.
Proof. split; [intros H; inversion H; auto|intros [H1 H2]; constructor; auto]. Qed.
Lemma digits_ok_rev B l : digits_ok B (rev l) <-> digits_ok B l.
Proof.
  unfold digits_ok. rewrite !Forall_forall. split; intros H x Hx; apply H.
  - exact (proj1 (in_rev l x) Hx).
  - exact (proj2 (in_rev l x) Hx).
Qed.
Lemma digits_ok_256 l : digits_ok 256 l <-> bytes_ok l.
Proof. reflexivity. Qed.

Lemma le_val_range B l : 0 < B -> digits_ok B l -> 0 <= le_val B l < B ^ zlen l.
Proof.
  intros HB. induction l as [|d l IH]; intros H; cbn [le_val].
  - change (zlen (@nil Z)) with 0. change (B ^ 0) with 1. lia.
  - apply digits_ok_cons in H as [Hd Hl]. specialize (IH Hl).
    rewrite zlen_cons, Z.pow_add_r by (pose proof (zlen_nonneg l); lia). rewrite Z.pow_1_r. nia.
Qed.
Lemma be_val_range B l : 0 < B -> digits_ok B l -> 0 <= be_val B l < B ^ zlen l.
Proof.
  intros HB H. rewrite be_val_rev. replace (zlen l) with (zlen (rev l)) by (unfold zlen; now rewrite rev_length).
  apply le_val_range; [assumption|]. now apply digits_ok_rev.
Qed.

Lemma be_digits_length B n v : length (be_digits B n v) = n.
Proof. revert v; induction n as [|n IH]; intros v; cbn [be_digits]; [reflexivity|]. rewrite app_length, IH. cbn. lia. Qed.
Lemma le_digits_length B n v : length (le_digits B n v) = n.
Proof. revert v; induction n as [|n IH]; intros v; cbn [le_digits length]; auto. Qed.
Lemma be_digits_zlen B n v : zlen (be_digits B n v) = Z.of_nat n.
Proof. unfold zlen. now rewrite be_digits_length. Qed.
Lemma le_digits_zlen B n v : zlen (le_digits B n v) = Z.of_nat n.
Proof. unfold zlen. now rewrite le_digits_length. Qed.

Lemma be_le_digits B n v : be_digits B n v = rev (le_digits B n v).
Proof. revert v; induction n as [|n IH]; intros v; cbn [be_digits le_digits rev]; [reflexivity|]. now rewrite IH. Qed.

Lemma le_digits_ok B n v : 0 < B -> digits_ok B (le_digits B n v).
Proof.
  intros HB. revert v; induction n as [|n IH]; intros v; cbn [le_digits]; [constructor|].
  constructor; [apply Z.mod_pos_bound; assumption|apply IH].
Qed.
Lemma be_digits_ok B n v : 0 < B -> digits_ok B (be_digits B n v).
Proof. intros. rewrite be_le_digits. apply digits_ok_rev. now apply le_digits_ok. Qed.

Lemma le_val_digits B n v : 0 < B -> le_val B (le_digits B n v) = v mod B ^ Z.of_nat n.
Proof.
  intros HB. revert v; induction n as [|n IH]; intros v; cbn [le_digits le_val].
  - change (B ^ Z.of_nat 0) with 1. now rewrite Z.mod_1_r.
  - rewrite IH. rewrite Nat2Z.inj_succ, Z.pow_succ_r by lia.
    assert (HP : 0 < B ^ Z.of_nat n) by (apply Z.pow_pos_nonneg; lia).
    rewrite Z.rem_mul_r by lia. reflexivity.
Qed.
Lemma be_val_digits B n v : 0 < B -> be_val B (be_digits B n v) = v mod B ^ Z.of_nat n.
Proof. intros. rewrite be_le_digits, be_val_rev, rev_involutive. now apply le_val_digits. Qed.

Lemma le_digits_val B l : 0 < B -> digits_ok B l -> le_digits B (length l) (le_val B l) = l.
Proof.
  intros HB. induction l as [|d l IH]; intros H; cbn [length le_digits le_val]; [reflexivity|].
  apply digits_ok_cons in H as [Hd Hl].
  assert (E1 : (d + B * le_val B l) mod B = d).
  { rewrite Z.mul_comm, Z.mod_add by lia. now apply Z.mod_small. }
  assert (E2 : (d + B * le_val B l) / B = le_val B l).
  { rewrite Z.mul_comm, Z.div_add by lia. rewrite Z.div_small by lia. lia. }
  rewrite E1, E2, IH by assumption. reflexivity.
Qed.
Lemma be_digits_val B l : 0 < B -> digits_ok B l -> be_digits B (length l) (be_val B l) = l.
Proof.
  intros HB H. rewrite be_le_digits, be_val_rev, <- (rev_length l).
  rewrite le_digits_val by (auto; now apply digits_ok_rev). apply rev_involutive.
Qed.

Lemma be_val_inj B l1 l2 :
  0 < B -> digits_ok B l1 -> digits_ok B l2 -> length l1 = length l2 ->
  be_val B l1 = be_val B l2 -> l1 = l2.
Proof.
  intros HB H1 H2 HL HV. rewrite <- (be_digits_val B l1), <- (be_digits_val B l2) by auto. congruence.
Qed.
Lemma le_val_inj B l1 l2 :
  0 < B -> digits_ok B l1 -> digits_ok B l2 -> length l1 = length l2 ->
  le_val B l1 = le_val B l2 -> l1 = l2.
Proof.
  intros HB H1 H2 HL HV. rewrite <- (le_digits_val B l1), <- (le_digits_val B l2) by auto. congruence.
Qed.
Lemma be_val_repeat0 B n : be_val B (repeat 0 n) = 0.
Proof.
  induction n as [|n IH]; cbn [repeat]; [reflexivity|]. rewrite be_val_cons, IH. lia.
Qed.
