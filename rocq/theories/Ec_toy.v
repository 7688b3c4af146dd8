(** A concrete instance of the curve interface: the integers modulo [l] with
    generator 1.  It shows that the laws of Ec_spec are satisfiable; the
    Examples beside the theorems run in it.  The hash is a toy function. *)
From Verif Require Import Py PyLemmas Digits Ints_model Ec_model Ec_spec.
From Coq Require Import Eqdep_dec.

Definition inr (x : Z) : bool := (0 <=? x) && (x <? l).
Definition zl : Type := { x : Z | inr x = true }.
Lemma inr_mod x : inr (x mod l) = true.
Proof.
  unfold inr. pose proof (Z.mod_pos_bound x l eq_refl). apply andb_true_intro. split; [apply Z.leb_le|apply Z.ltb_lt]; lia.
Qed.
Definition mk (x : Z) : zl := exist _ (x mod l) (inr_mod x).
Definition v (x : zl) : Z := proj1_sig x.
Lemma v_inj x y : v x = v y -> x = y.
Proof.
  destruct x as [x Hx], y as [y Hy]. cbn [v proj1_sig]. intros ->. f_equal. apply UIP_dec, bool_dec.
Qed.
Lemma v_range x : 0 <= v x < l.
Proof. destruct x as [x Hx]. cbn [v proj1_sig]. apply andb_prop in Hx. destruct Hx as [A B]. apply Z.leb_le in A. apply Z.ltb_lt in B. lia. Qed.
Lemma v_mk x : v (mk x) = x mod l.
Proof. reflexivity. Qed.
Lemma mk_v x : mk (v x) = x.
Proof. apply v_inj. rewrite v_mk. apply Z.mod_small, v_range. Qed.

Definition toy_hash (x : list Z) : list Z := le_digits 256 32 (fold_left (fun a b => (a * 7919 + 31 * b + 12345) mod 2305843009213693951) x 77).
Definition toy : ecops := {|
  pt := zl;
  pt_eqb := fun a b => v a =? v b;
  padd := fun a b => mk (v a + v b);
  pneg := fun a => mk (- v a);
  pid := mk 0;
  smul := fun a e => mk (e * v a);
  Gb := mk 1;
  Hb := mk 98765432109876543210;
  encp := fun a => le_digits 256 32 (v a);
  decp := fun b => if (zlen b =? 32) && inr (le_val 256 b) then Ok (mk (le_val 256 b)) else Err ValueError;
  hash := toy_hash;
  Hp := fun b => mk (8 * le_val 256 (toy_hash (1 :: b)));
|}.

Lemma toy_laws : ec_laws toy.
Proof.
  constructor; cbn [toy pt pt_eqb padd pneg pid smul Gb Hb encp decp hash Hp]; intros.
  - rewrite Z.eqb_eq. split; [apply v_inj|intros ->; reflexivity].
  - apply v_inj. rewrite !v_mk, Zplus_mod_idemp_r, Zplus_mod_idemp_l. f_equal. ring.
  - f_equal. ring.
  - apply v_inj. rewrite !v_mk, Zmod_0_l, Z.add_0_l. apply Z.mod_small, v_range.
  - apply v_inj. rewrite !v_mk, Zplus_mod_idemp_r. f_equal. ring.
  - assert (N : forall n, nsum toy n P = mk (Z.of_nat n * v P)).
    { induction n as [|n IH]; [reflexivity|]. cbn [nsum]. rewrite IH. cbn [padd toy]. apply v_inj.
      rewrite !v_mk, Zplus_mod_idemp_r. f_equal. lia. }
    rewrite N, Z2Nat.id by assumption. reflexivity.
  - apply v_inj. rewrite !v_mk. rewrite Z.mul_comm, Z.mod_mul by discriminate. reflexivity.
  - apply v_inj. rewrite !v_mk. rewrite Z.mul_comm, Z.mod_mul by discriminate. reflexivity.
  - apply v_inj. rewrite !v_mk. rewrite Z.mul_comm, Z.mod_mul by discriminate. reflexivity.
  - pose proof (v_range P) as B.
    assert (E : le_val 256 (le_digits 256 32 (v P)) = v P).
    { rewrite le_val_digits by reflexivity. apply Z.mod_small. change (256 ^ Z.of_nat 32) with (2 ^ 256).
      assert (l < 2 ^ 256) by reflexivity. lia. }
    unfold zlen. rewrite le_digits_length, E. change (Z.of_nat 32 =? 32) with true. cbn [andb].
    assert (I : inr (v P) = true) by (unfold inr; apply andb_true_intro; split; [apply Z.leb_le|apply Z.ltb_lt]; lia).
    rewrite I. f_equal. apply mk_v.
Qed.
