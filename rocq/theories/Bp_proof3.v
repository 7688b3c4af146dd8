(** Bulletproofs: the constant term of the polynomial, the verifier's scalars. *)
From Verif Require Import Py PyLemmas Digits Ints_model Ints_proof2 Ec_model Ec_spec Ec_proof Mlsag_model Bp_model Bp_proof1 Bp_proof2.
From Coq Require Import Setoid Morphisms.
Ltac Zify.zify_post_hook ::= idtac.

Definition zz (z : Z) (i : nat) : Z := z ^ Z.of_nat (2 + i / BP_N) * 2 ^ Z.of_nat (i mod BP_N).
Lemma two_sum : Zs BP_N (fun i => 2 ^ Z.of_nat i) = 2 ^ 64 - 1.
Proof. vm_compute. reflexivity. Qed.
Lemma block_idx j i : (i < BP_N)%nat -> ((j * BP_N + i) / BP_N = j /\ (j * BP_N + i) mod BP_N = i)%nat.
Proof.
  intros Hi. split.
  - rewrite Nat.div_add_l by discriminate. rewrite (Nat.div_small i) by exact Hi. apply Nat.add_0_r.
  - rewrite Nat.add_comm, Nat.mod_add by discriminate. apply Nat.mod_small, Hi.
Qed.
Lemma zz_sum z M : Zs (M * BP_N) (zz z) = Zs M (fun j => z ^ Z.of_nat (2 + j) * (2 ^ 64 - 1)).
Proof.
  rewrite Zs_blocks. apply Zs_exteq. intros j _. rewrite <- two_sum, <- Zs_mul. apply Zs_exteq. intros i Hi.
  unfold zz. destruct (block_idx j i Hi) as [-> ->]. reflexivity.
Qed.
Lemma zz_bits z M sv : (length sv <= M)%nat -> Forall (fun v => 0 <= v < 2 ^ 64) sv ->
  Zs (M * BP_N) (fun i => abit sv i * zz z i) = Zs (length sv) (fun j => z ^ Z.of_nat (2 + j) * nth j sv 0).
Proof.
  intros HM HV. rewrite Zs_blocks. replace M with (length sv + (M - length sv))%nat by lia. rewrite Zs_app.
  rewrite (Zs_zero (M - length sv)).
  - rewrite Z.add_0_r. apply Zs_exteq. intros j Hj. rewrite <- (abit_sum sv j Hj) at 1; [|rewrite Forall_forall in HV; apply HV, nth_In, Hj].
    rewrite <- Zs_mul. apply Zs_exteq. intros i Hi. unfold zz. destruct (block_idx j i Hi) as [-> ->]. ring.
  - intros j _. apply Zs_zero. intros i Hi. rewrite abit_out by (lia || exact Hi). reflexivity.
Qed.
Lemma t0_eq y z M sv : (length sv <= M)%nat -> Forall (fun v => 0 <= v < 2 ^ 64) sv ->
  Zs (M * BP_N) (fun i => (abit sv i - z) * (zz z i + (abit sv i - 1 + z) * y ^ Z.of_nat i)) =
  (z - z * z) * Zs (M * BP_N) (fun i => y ^ Z.of_nat i) + Zs (length sv) (fun j => z ^ Z.of_nat (2 + j) * nth j sv 0) - z * Zs M (fun j => z ^ Z.of_nat (2 + j) * (2 ^ 64 - 1)).
Proof.
  intros HM HV. rewrite <- (zz_bits z M sv HM HV), <- zz_sum, <- !Zs_mul, <- Zs_add, <- Zs_sub. apply Zs_exteq. intros i _.
  destruct (abit01 sv i) as [E|E]; rewrite E; ring.
Qed.

(** ** the verifier's scalars *)
Lemma c_kloop z n : forall len j k, (j + n + 1 < len)%nat -> 
  k_loop n j (powers len 1 z) k == k - Zs n (fun i => z ^ Z.of_nat (j + i + 2) * (2 ^ 64 - 1)).
Proof.
  assert (I : BP_IP12 = 2 ^ 64 - 1) by reflexivity.
  induction n as [|n IH]; intros len j k H; [cbn [k_loop Zs]; apply cg_eq; ring|]. cbn [k_loop].
  rewrite IH by lia. rewrite Zs_front, c_mulsub, powers_nth by lia. rewrite I, Nat.add_0_r.
  rewrite (Zs_exteq n (fun i => z ^ Z.of_nat (S j + i + 2) * (2 ^ 64 - 1)) (fun i => z ^ Z.of_nat (j + S i + 2) * (2 ^ 64 - 1))); [apply cg_eq; ring|].
  intros i _. do 3 f_equal. lia.
Qed.
Lemma nat_bit i k : (Z.land (Z.of_nat i) (Z.shiftl 1 (Z.of_nat k)) =? 0) = Nat.eqb ((i / 2 ^ k) mod 2) 0.
Proof.
  pose proof (land_bit (Z.of_nat i) (Z.of_nat k) ltac:(lia)) as H.
  assert (P : Z.of_nat i / 2 ^ Z.of_nat k mod 2 = Z.of_nat ((i / 2 ^ k) mod 2)).
  { rewrite Nat2Z.inj_mod, Nat2Z.inj_div, Nat2Z.inj_pow. reflexivity. }
  rewrite P in H. pose proof (Nat.mod_upper_bound (i / 2 ^ k) 2 ltac:(lia)) as U. revert H U. generalize ((i / 2 ^ k) mod 2)%nat.
  intros m H U. destruct (_ =? 0); cbn [negb] in H; symmetry in H.
  - apply Z.eqb_neq in H. symmetry. apply Nat.eqb_eq. lia.
  - apply Z.eqb_eq in H. symmetry. apply Nat.eqb_neq. lia.
Qed.
Lemma fold_spec : forall ws i g h,
  fst (fold_scalar ws (Z.of_nat i) g h) == g * nth (i mod Nat.pow 2 (length ws)) (cG ws) 0 /\
  snd (fold_scalar ws (Z.of_nat i) g h) == h * nth (i mod Nat.pow 2 (length ws)) (cH ws) 0.
Proof.
  induction ws as [|w ws IH]; intros i g h.
  - cbn [length Nat.pow]. rewrite Nat.mod_1_r. cbn. split; apply cg_eq; ring.
  - cbn [fold_scalar cG cH length]. rewrite nat_bit. set (n := Nat.pow 2 (length ws)).
    assert (N0 : n <> 0%nat) by (apply Nat.pow_nonzero; lia).
    assert (Lg : length (cG ws) = n) by apply cG_length. assert (Lh : length (cH ws) = n) by apply cH_length.
    change (Nat.pow 2 (S (length ws))) with (2 * n)%nat. rewrite (Nat.mul_comm 2 n), Nat.mod_mul_r by lia.
    pose proof (Nat.mod_upper_bound i n N0) as U. pose proof (Nat.mod_upper_bound (i / n) 2 ltac:(lia)) as U2.
    destruct (Nat.eqb_spec ((i / n) mod 2) 0) as [Z0|Z0].
    + rewrite Z0, Nat.mul_0_r, Nat.add_0_r. rewrite !app_nth1 by (rewrite map_length; lia).
      rewrite !(map_nth' _ 0 0) by lia. destruct (IH i (sc_mul g (sc_inv w)) (sc_mul h w)) as [I1 I2]. fold n in I1, I2. rewrite I1, I2, !c_mul. split; apply cg_eq; ring.
    + assert (Z1 : ((i / n) mod 2)%nat = 1%nat) by lia. rewrite Z1, Nat.mul_1_r. rewrite !app_nth2 by (rewrite map_length; lia). rewrite !map_length, Lg, Lh.
      replace (i mod n + n - n)%nat with (i mod n)%nat by lia.
      rewrite !(map_nth' _ 0 0) by lia. destruct (IH i (sc_mul g w) (sc_mul h (sc_inv w))) as [I1 I2]. fold n in I1, I2. rewrite I1, I2, !c_mul. split; apply cg_eq; ring.
Qed.
Lemma gh_length ws zpow a b z y yinv : forall n i yp yi, length (gh_scalars n i ws zpow a b z y yinv yp yi) = n.
Proof. induction n as [|n IH]; intros i yp yi; [reflexivity|]. cbn [gh_scalars]. destruct (fold_scalar _ _ _ _). cbn [length]. rewrite IH. reflexivity. Qed.
Lemma gh_scal ws zpow a b z y yinv : forall n i yp yi, Forall (fun gh => scalar (fst gh) /\ scalar (snd gh)) (gh_scalars n i ws zpow a b z y yinv yp yi).
Proof. induction n as [|n IH]; intros i yp yi; cbn [gh_scalars]; [constructor|]. destruct (fold_scalar _ _ _ _). constructor; [split; [apply n_add|apply n_mulsub]|apply IH]. Qed.
Lemma gh_nth ws len a b z y yinv : forall n k i yp yi, (k < n)%nat -> (i + n <= Nat.pow 2 (length ws))%nat -> (2 + (i + k) / BP_N < len)%nat ->
  yp == y ^ Z.of_nat i -> yi == yinv ^ Z.of_nat i ->
  fst (nth k (gh_scalars n i ws (powers len 1 z) a b z y yinv yp yi) (0, 0)) == a * nth (i + k) (cG ws) 0 + z /\
  snd (nth k (gh_scalars n i ws (powers len 1 z) a b z y yinv yp yi) (0, 0)) ==
    b * yinv ^ Z.of_nat (i + k) * nth (i + k) (cH ws) 0 - (z * y ^ Z.of_nat (i + k) + zz z (i + k)) * yinv ^ Z.of_nat (i + k).
Proof.
  induction n as [|n IH]; intros k i yp yi Hk Hn Hl Hy Hi; [lia|]. cbn [gh_scalars].
  destruct (fold_scalar ws (Z.of_nat i) a (sc_mul b yi)) as [g h] eqn:F. destruct (fold_spec ws i a (sc_mul b yi)) as [F1 F2]. rewrite F in F1, F2. cbn [fst snd] in F1, F2.
  rewrite (Nat.mod_small i) in F1, F2 by lia. destruct k as [|k].
  - cbn [nth fst snd]. rewrite Nat.add_0_r in *. rewrite c_add, c_mulsub, c_muladd, c_mul, F1, F2, powers_nth by exact Hl. rewrite c_mul, Hy, Hi. unfold zz. split; apply cg_eq; ring.
  - cbn [nth]. rewrite Nat.add_succ_r in *. change (S (i + k)) with (S i + k)%nat in *. apply IH; [lia|lia|exact Hl| |]; rewrite c_mul, ?Hy, ?Hi, pow_S; apply cg_eq; ring.
Qed.
