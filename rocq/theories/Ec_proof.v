(** Consequences of the group laws, and a tactic for linear identities. *)
From Verif Require Import Py PyLemmas Digits Ints_model Ec_model Ec_spec.

Lemma l_pos : 0 < l.
Proof. reflexivity. Qed.

Section Grp.
Context (E : ecops) (L : ec_laws E).
Local Notation "A +' B" := (padd E A B) (at level 50, left associativity).
Local Notation "0'" := (pid E).

Lemma id_r P : P +' 0' = P.
Proof. rewrite (law_comm E L). apply (law_id E L). Qed.
Lemma neg_l P : pneg E P +' P = 0'.
Proof. rewrite (law_comm E L). apply (law_neg E L). Qed.
Lemma cancel_l P Q R : P +' Q = P +' R -> Q = R.
Proof.
  intros H. rewrite <- (law_id E L Q), <- (law_id E L R), <- (neg_l P), <- !(law_assoc E L), H. reflexivity.
Qed.
Lemma neg_unique P Q : P +' Q = 0' -> Q = pneg E P.
Proof. intros H. apply (cancel_l P). rewrite (law_neg E L). exact H. Qed.
Lemma neg_neg P : pneg E (pneg E P) = P.
Proof. symmetry. apply neg_unique, neg_l. Qed.
Lemma neg_id : pneg E 0' = 0'.
Proof. symmetry. apply neg_unique, (law_id E L). Qed.
Lemma swap4 A B C D : (A +' B) +' (C +' D) = (A +' C) +' (B +' D).
Proof.
  rewrite <- !(law_assoc E L). f_equal. rewrite !(law_assoc E L). f_equal. apply (law_comm E L).
Qed.
Lemma neg_add P Q : pneg E (P +' Q) = pneg E P +' pneg E Q.
Proof. symmetry. apply neg_unique. rewrite swap4, !(law_neg E L). apply (law_id E L). Qed.

Lemma nsum_add m n P : nsum E (m + n) P = nsum E m P +' nsum E n P.
Proof.
  induction m as [|m IH]; cbn [nsum Nat.add]; [rewrite (law_id E L); reflexivity|].
  rewrite IH. apply (law_assoc E L).
Qed.
Lemma nsum_id n : nsum E n 0' = 0'.
Proof. induction n as [|n IH]; cbn [nsum]; [reflexivity|]. rewrite IH. apply (law_id E L). Qed.
Lemma nsum_padd n P Q : nsum E n (P +' Q) = nsum E n P +' nsum E n Q.
Proof.
  induction n as [|n IH]; cbn [nsum]; [rewrite (law_id E L); reflexivity|]. rewrite IH. apply swap4.
Qed.
Lemma nsum_mul m n P : nsum E (m * n) P = nsum E m (nsum E n P).
Proof.
  induction m as [|m IH]; cbn [nsum Nat.mul]; [reflexivity|]. rewrite nsum_add, IH. reflexivity.
Qed.

(** the integer action *)
Definition zmul (k : Z) (P : pt E) : pt E :=
  if 0 <=? k then nsum E (Z.to_nat k) P else pneg E (nsum E (Z.to_nat (- k)) P).

Lemma zmul_0 P : zmul 0 P = 0'.
Proof. reflexivity. Qed.
Lemma zmul_1 P : zmul 1 P = P.
Proof. unfold zmul. cbn. apply id_r. Qed.
Lemma zmul_nonneg k P : 0 <= k -> zmul k P = nsum E (Z.to_nat k) P.
Proof. intros. unfold zmul. destruct (Z.leb_spec 0 k); [reflexivity|lia]. Qed.
Lemma zmul_opp k P : zmul (- k) P = pneg E (zmul k P).
Proof.
  unfold zmul. destruct (Z.leb_spec 0 (- k)), (Z.leb_spec 0 k).
  - replace k with 0 by lia. cbn. symmetry. apply neg_id.
  - rewrite neg_neg. reflexivity.
  - rewrite Z.opp_involutive. reflexivity.
  - lia.
Qed.
Lemma zmul_succ k P : zmul (k + 1) P = P +' zmul k P.
Proof.
  unfold zmul. destruct (Z.leb_spec 0 k).
  - destruct (Z.leb_spec 0 (k + 1)); [|lia]. replace (Z.to_nat (k + 1)) with (S (Z.to_nat k)) by lia. reflexivity.
  - replace (Z.to_nat (- k)) with (S (Z.to_nat (- (k + 1)))) by lia. cbn [nsum].
    rewrite neg_add, (law_assoc E L), (law_neg E L), (law_id E L).
    destruct (Z.leb_spec 0 (k + 1)); [|reflexivity]. replace (k + 1) with 0 by lia. cbn. symmetry. apply neg_id.
Qed.
Lemma zmul_add_nat n k P : zmul (Z.of_nat n + k) P = nsum E n P +' zmul k P.
Proof.
  induction n as [|n IH]; [cbn [nsum]; rewrite (law_id E L); reflexivity|].
  replace (Z.of_nat (S n) + k) with (Z.of_nat n + k + 1) by lia. rewrite zmul_succ, IH. apply (law_assoc E L).
Qed.
Lemma zmul_add a b P : zmul (a + b) P = zmul a P +' zmul b P.
Proof.
  destruct (Z.leb_spec 0 a) as [Ha|Ha].
  - rewrite (zmul_nonneg a) by exact Ha. rewrite <- zmul_add_nat. f_equal. lia.
  - apply (cancel_l (zmul (- a) P)). rewrite (law_assoc E L).
    rewrite (zmul_nonneg (- a)) by lia. rewrite <- (zmul_add_nat _ (a + b)).
    rewrite <- (zmul_nonneg (- a)) by lia. rewrite zmul_opp, neg_l, (law_id E L). f_equal. lia.
Qed.
Lemma zmul_neg k P : zmul k (pneg E P) = pneg E (zmul k P).
Proof.
  apply neg_unique. rewrite (law_comm E L).
  assert (N : forall n, nsum E n (pneg E P) +' nsum E n P = 0') by (intros n; rewrite <- nsum_padd, neg_l; apply nsum_id).
  unfold zmul. destruct (Z.leb_spec 0 k); [apply N|].
  rewrite <- neg_add, N. apply neg_id.
Qed.
Lemma zmul_padd k P Q : zmul k (P +' Q) = zmul k P +' zmul k Q.
Proof.
  unfold zmul. destruct (Z.leb_spec 0 k); [apply nsum_padd|]. rewrite nsum_padd. apply neg_add.
Qed.
Lemma zmul_id k : zmul k 0' = 0'.
Proof. unfold zmul. rewrite !nsum_id, neg_id. destruct (0 <=? k); reflexivity. Qed.
Lemma zmul_mul a b P : zmul (a * b) P = zmul a (zmul b P).
Proof.
  assert (N : forall n b, zmul (Z.of_nat n * b) P = nsum E n (zmul b P)).
  { clear a b. induction n as [|n IH]; intros b; [reflexivity|].
    replace (Z.of_nat (S n) * b) with (b + Z.of_nat n * b) by lia. rewrite zmul_add, IH. reflexivity. }
  unfold zmul at 2. destruct (Z.leb_spec 0 a) as [Ha|Ha].
  - rewrite <- N, Z2Nat.id by exact Ha. reflexivity.
  - rewrite <- N, <- zmul_opp, Z2Nat.id by lia. f_equal. ring.
Qed.

Opaque zmul.
Lemma smul_zmul P e : 0 <= e -> smul E P e = zmul e P.
Proof. intros He. rewrite (law_smul E L) by exact He. symmetry. apply zmul_nonneg, He. Qed.

(** points of order dividing l *)
Definition sub (P : pt E) : Prop := zmul l P = 0'.
Lemma sub_G : sub (Gb E).
Proof. unfold sub. rewrite <- smul_zmul by discriminate. apply (law_G E L). Qed.
Lemma sub_H : sub (Hb E).
Proof. unfold sub. rewrite <- smul_zmul by discriminate. apply (law_H E L). Qed.
Lemma sub_Hp x : sub (Hp E x).
Proof. unfold sub. rewrite <- smul_zmul by discriminate. apply (law_Hp E L). Qed.
Lemma sub_id : sub 0'.
Proof. unfold sub. exact (zmul_id l). Qed.
Lemma sub_add P Q : sub P -> sub Q -> sub (P +' Q).
Proof. unfold sub. intros HP HQ. rewrite zmul_padd, HP, HQ. apply (law_id E L). Qed.
Lemma sub_neg P : sub P -> sub (pneg E P).
Proof. unfold sub. intros HP. rewrite zmul_neg, HP. apply neg_id. Qed.
Lemma sub_zmul k P : sub P -> sub (zmul k P).
Proof. unfold sub. intros HP. rewrite <- zmul_mul, Z.mul_comm, zmul_mul, HP. apply zmul_id. Qed.
Lemma zmul_mod k P : sub P -> zmul (k mod l) P = zmul k P.
Proof.
  intros HP. rewrite (Z.div_mod k l) at 2 by discriminate.
  rewrite zmul_add, Z.mul_comm, zmul_mul, HP, zmul_id, (law_id E L). reflexivity.
Qed.
Lemma smul_mod k P : sub P -> smul E P (k mod l) = zmul k P.
Proof.
  intros HP. rewrite smul_zmul by (apply Z.mod_pos_bound; reflexivity). apply zmul_mod, HP.
Qed.
Lemma zmul_congr a b P : sub P -> a mod l = b mod l -> zmul a P = zmul b P.
Proof. intros HP H. rewrite <- (zmul_mod a), <- (zmul_mod b), H by exact HP. reflexivity. Qed.

(** ** Linear expressions over atoms *)
Inductive lexp := LAtom (i : nat) | LAdd (a b : lexp) | LNeg (a : lexp) | LZero | LMul (k : Z) (a : lexp).
Fixpoint lden (env : list (pt E)) (e : lexp) : pt E :=
  match e with
  | LAtom i => nth i env 0'
  | LAdd a b => lden env a +' lden env b
  | LNeg a => pneg E (lden env a)
  | LZero => 0'
  | LMul k a => zmul k (lden env a)
  end.
Fixpoint lcoef (e : lexp) (i : nat) : Z :=
  match e with
  | LAtom j => if Nat.eqb i j then 1 else 0
  | LAdd a b => lcoef a i + lcoef b i
  | LNeg a => - lcoef a i
  | LZero => 0
  | LMul k a => k * lcoef a i
  end.
Fixpoint lsum (env : list (pt E)) (c : nat -> Z) : pt E :=
  match env with [] => 0' | P :: env => zmul (c O) P +' lsum env (fun i => c (S i)) end.
Lemma lsum_ext env : forall c c', (forall i, (i < length env)%nat -> c i = c' i) -> lsum env c = lsum env c'.
Proof.
  induction env as [|P env IH]; intros c c' H; [reflexivity|]. cbn [lsum]. f_equal; [f_equal; apply H; cbn; lia|].
  apply IH. intros i Hi. apply H. cbn. lia.
Qed.
Lemma lsum_add env : forall c c', lsum env (fun i => c i + c' i) = lsum env c +' lsum env c'.
Proof.
  induction env as [|P env IH]; intros c c'; cbn [lsum]; [symmetry; apply (law_id E L)|].
  rewrite zmul_add, (IH (fun i => c (S i)) (fun i => c' (S i))). apply swap4.
Qed.
Lemma lsum_mul env k : forall c, lsum env (fun i => k * c i) = zmul k (lsum env c).
Proof.
  induction env as [|P env IH]; intros c; cbn [lsum]; [symmetry; apply zmul_id|].
  rewrite zmul_mul, (IH (fun i => c (S i))), zmul_padd. reflexivity.
Qed.
Lemma lsum_zero env : forall c, (forall i, c i = 0) -> lsum env c = 0'.
Proof.
  induction env as [|P env IH]; intros c H; cbn [lsum]; [reflexivity|].
  rewrite H, zmul_0, (law_id E L). apply IH. intros i. apply H.
Qed.
Lemma lsum_atom env : forall j, lsum env (fun i => if Nat.eqb i j then 1 else 0) = nth j env 0'.
Proof.
  induction env as [|P env IH]; intros [|j]; cbn [lsum nth Nat.eqb]; try reflexivity.
  - rewrite zmul_1, lsum_zero by reflexivity. apply id_r.
  - rewrite zmul_0, (law_id E L). apply IH.
Qed.
Lemma lden_lsum env e : lden env e = lsum env (lcoef e).
Proof.
  induction e as [j|a IHa b IHb|a IH| |k a IH]; cbn [lden lcoef].
  - symmetry. apply lsum_atom.
  - rewrite IHa, IHb. symmetry. apply lsum_add.
  - rewrite IH. rewrite <- (zmul_1 (lsum env (lcoef a))), <- zmul_opp, <- lsum_mul. apply lsum_ext. intros. lia.
  - symmetry. apply lsum_zero. reflexivity.
  - rewrite IH. symmetry. apply lsum_mul.
Qed.
Fixpoint all_below (n : nat) (f : nat -> Prop) : Prop :=
  match n with O => True | S n => f O /\ all_below n (fun i => f (S i)) end.
Lemma all_below_ok n : forall f, all_below n f -> forall i, (i < n)%nat -> f i.
Proof.
  induction n as [|n IH]; intros f H i Hi; [lia|]. destruct H as [H0 H]. destruct i as [|i]; [exact H0|].
  apply (IH (fun i => f (S i)) H). lia.
Qed.
Lemma lin_eq env a b : all_below (length env) (fun i => lcoef a i = lcoef b i) -> lden env a = lden env b.
Proof. intros H. rewrite !lden_lsum. apply lsum_ext, all_below_ok, H. Qed.
End Grp.
Global Opaque zmul sub.

Ltac lmem a env := match env with [] => false | a :: _ => true | _ :: ?r => lmem a r end.
Ltac latoms E env t :=
  match t with
  | padd E ?a ?b => let env := latoms E env a in latoms E env b
  | pneg E ?a => latoms E env a
  | pid E => env
  | zmul E _ ?a => latoms E env a
  | _ => let m := lmem t env in match m with true => env | false => constr:(t :: env) end
  end.
Ltac lpos a env := match env with a :: _ => constr:(O) | _ :: ?r => let n := lpos a r in constr:(S n) end.
Ltac lreify E env t :=
  match t with
  | padd E ?a ?b => let a := lreify E env a in let b := lreify E env b in constr:(LAdd a b)
  | pneg E ?a => let a := lreify E env a in constr:(LNeg a)
  | pid E => constr:(LZero)
  | zmul E ?k ?a => let a := lreify E env a in constr:(LMul k a)
  | _ => let n := lpos t env in constr:(LAtom n)
  end.
(** proves an equation between linear combinations when the coefficients agree as integers *)
Ltac lin E L :=
  match goal with
  | |- ?a = ?b =>
      let env := latoms E (@nil (pt E)) a in
      let env := latoms E env b in
      let ra := lreify E env a in
      let rb := lreify E env b in
      change (lden E env ra = lden E env rb); apply (lin_eq E L);
      cbn [length all_below lcoef Nat.eqb]; repeat split; try ring
  end.
