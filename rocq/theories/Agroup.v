(** Multiples in an abelian group, and a counting argument. *)
From Coq Require Import List ZArith Lia.
Import ListNotations.
Local Open Scope Z_scope.

Section G.
Context {A : Type} (add : A -> A -> A) (neg : A -> A) (zero : A).
Context (add_assoc : forall a b c, add a (add b c) = add (add a b) c) (add_comm : forall a b, add a b = add b a)
        (add_0 : forall a, add zero a = a) (add_neg : forall a, add a (neg a) = zero).
Fixpoint nmul (n : nat) (p : A) : A := match n with O => zero | S n => add p (nmul n p) end.
Lemma add_0r a : add a zero = a. Proof. rewrite add_comm. apply add_0. Qed.
Lemma nmul_add m n p : nmul (m + n) p = add (nmul m p) (nmul n p).
Proof. induction m as [|m IH]; cbn [nmul Nat.add]; [rewrite add_0; reflexivity|rewrite IH, add_assoc; reflexivity]. Qed.
Definition zmul (e : Z) (p : A) : A := if e <? 0 then neg (nmul (Z.to_nat (- e)) p) else nmul (Z.to_nat e) p.
Lemma cancel a b c : add a c = add b c -> a = b.
Proof. intros H. rewrite <- (add_0r a), <- (add_0r b), <- (add_neg c), !add_assoc, H. reflexivity. Qed.
Lemma neg_uniq a b : add a b = zero -> b = neg a.
Proof. intros H. apply (cancel _ _ a). rewrite (add_comm b), (add_comm (neg a)), add_neg. exact H. Qed.
Lemma neg_zero : neg zero = zero. Proof. symmetry. apply neg_uniq, add_0. Qed.
Lemma zmul_nat e p : 0 <= e -> zmul e p = nmul (Z.to_nat e) p.
Proof. intros H. unfold zmul. destruct (Z.ltb_spec e 0); [lia|reflexivity]. Qed.
Lemma zmul_0 p : zmul 0 p = zero. Proof. reflexivity. Qed.
Lemma zmul_1 p : zmul 1 p = p. Proof. cbn. apply add_0r. Qed.
Lemma zmul_succ e p : zmul (e + 1) p = add p (zmul e p).
Proof.
  unfold zmul. destruct (Z.ltb_spec e 0), (Z.ltb_spec (e + 1) 0); try lia.
  - replace (Z.to_nat (- e)) with (S (Z.to_nat (- (e + 1)))) by lia. cbn [nmul]. set (k := nmul _ p). clearbody k.
    symmetry. apply neg_uniq. rewrite add_assoc, (add_comm k p). apply add_neg.
  - assert (e = -1) by lia. subst e. change (zero = add p (neg (add p zero))). rewrite add_0r, add_neg. reflexivity.
  - replace (Z.to_nat (e + 1)) with (S (Z.to_nat e)) by lia. reflexivity.
Qed.
Lemma zmul_add m n p : zmul (m + n) p = add (zmul m p) (zmul n p).
Proof.
  induction m as [|m IH|m IH] using Z.peano_ind.
  - rewrite zmul_0, add_0. reflexivity.
  - replace (Z.succ m + n) with (m + n + 1) by lia. rewrite zmul_succ, IH. unfold Z.succ. rewrite zmul_succ, add_assoc. reflexivity.
  - apply (cancel _ _ p). rewrite <- add_assoc, (add_comm (zmul n p)), add_assoc, !(add_comm _ p), <- !zmul_succ.
    replace (Z.pred m + n + 1) with (m + n) by lia. replace (Z.pred m + 1) with m by lia. exact IH.
Qed.
Lemma zmul_neg m p : zmul (- m) p = neg (zmul m p).
Proof. apply neg_uniq. rewrite <- zmul_add. replace (m + - m) with 0 by lia. apply zmul_0. Qed.
Lemma zmul_mul m n p : zmul (m * n) p = zmul m (zmul n p).
Proof.
  induction m as [|m IH|m IH] using Z.peano_ind; [reflexivity| |].
  - replace (Z.succ m * n) with (n + m * n) by lia. unfold Z.succ. rewrite zmul_add, zmul_succ, IH. reflexivity.
  - apply (cancel _ _ (zmul n p)). rewrite <- zmul_add, (add_comm _ (zmul n p)), <- zmul_succ. replace (Z.pred m * n + n) with (m * n) by lia.
    replace (Z.pred m + 1) with m by lia. exact IH.
Qed.
Lemma zmul_zero m : zmul m zero = zero.
Proof.
  induction m as [|m IH|m IH] using Z.peano_ind; [reflexivity|unfold Z.succ; rewrite zmul_succ, IH, add_0; reflexivity|].
  apply (cancel _ _ zero). rewrite (add_comm _ zero), <- zmul_succ. replace (Z.pred m + 1) with m by lia. rewrite IH, add_0. reflexivity.
Qed.
Lemma zmul_plus m a b : zmul m (add a b) = add (zmul m a) (zmul m b).
Proof.
  assert (S4 : forall a b c d, add (add a b) (add c d) = add (add a c) (add b d)).
  { intros. rewrite <- !add_assoc. f_equal. rewrite !add_assoc. f_equal. apply add_comm. }
  induction m as [|m IH|m IH] using Z.peano_ind; [symmetry; apply add_0| |].
  - unfold Z.succ. rewrite !zmul_succ, IH. apply S4.
  - apply (cancel _ _ (add a b)). rewrite (add_comm _ (add a b)), <- zmul_succ, S4, (add_comm (zmul (Z.pred m) a) a), (add_comm (zmul (Z.pred m) b) b), <- !zmul_succ.
    replace (Z.pred m + 1) with m by lia. exact IH.
Qed.
Lemma sub_eq a b : add a (neg b) = zero -> a = b.
Proof. intros H. apply (cancel _ _ (neg b)). rewrite H, add_neg. reflexivity. Qed.
End G.

Lemma map_NoDup_in {A B} (f : A -> B) xs : (forall a b, In a xs -> In b xs -> f a = f b -> a = b) -> NoDup xs -> NoDup (map f xs).
Proof.
  induction 2 as [|x xs Hx Hn IH]; cbn [map]; constructor.
  - intros K. apply in_map_iff in K. destruct K as (y & E & Hy). apply H in E; [subst; contradiction|right; exact Hy|left; reflexivity].
  - apply IH. intros a b Ha Hb. apply H; right; assumption.
Qed.
(** an injection of [0, n) into [0, m) *)
Lemma pigeon n m (f : Z -> Z) : 0 <= m -> (forall i, 0 <= i < n -> 0 <= f i < m) ->
  (forall i j, 0 <= i < n -> 0 <= j < n -> f i = f j -> i = j) -> n <= m.
Proof.
  intros Hn Hr Hi. set (r := fun k => map Z.of_nat (seq 0 (Z.to_nat k))).
  assert (Hin : forall k x, In x (r k) <-> 0 <= x < k).
  { intros k x. unfold r. rewrite in_map_iff. split; [intros (y & <- & H); apply in_seq in H; lia|].
    intros H. exists (Z.to_nat x). split; [lia|apply in_seq; lia]. }
  assert (L : (length (map f (r n)) <= length (r m))%nat).
  { apply NoDup_incl_length.
    - unfold r. rewrite map_map. apply map_NoDup_in.
      + intros a b Ha Hb H. apply in_seq in Ha, Hb. apply Hi in H; lia.
      + apply seq_NoDup.
    - intros y H. apply in_map_iff in H. destruct H as (x & <- & H). apply Hin, Hr, Hin, H. }
  unfold r in L. rewrite !map_length, !seq_length in L. lia.
Qed.
