(** Bulletproofs: the scalar side of the protocol, by index. *)
From Verif Require Import Py PyLemmas Digits Ints_model Ints_proof2 Ec_model Ec_spec Ec_proof Mlsag_model Bp_model Bp_proof1.
From Coq Require Import Setoid Morphisms.
Ltac Zify.zify_post_hook ::= idtac.

Fixpoint Zs (n : nat) (f : nat -> Z) : Z := match n with O => 0 | S n => Zs n f + f n end.
Lemma pow_S x n : x ^ Z.of_nat (S n) = x * x ^ Z.of_nat n.
Proof. rewrite Nat2Z.inj_succ, Z.pow_succ_r by lia. reflexivity. Qed.
Lemma Zs_ext n f g : (forall i, (i < n)%nat -> f i == g i) -> Zs n f == Zs n g.
Proof. induction n as [|n IH]; intros H; cbn [Zs]; [reflexivity|]. rewrite IH, H by (try lia; intros; apply H; lia). reflexivity. Qed.
Lemma Zs_exteq n f g : (forall i, (i < n)%nat -> f i = g i) -> Zs n f = Zs n g.
Proof. induction n as [|n IH]; intros H; cbn [Zs]; [reflexivity|]. rewrite IH, H by (try lia; intros; apply H; lia). reflexivity. Qed.
Lemma Zs_add n f g : Zs n (fun i => f i + g i) = Zs n f + Zs n g.
Proof. induction n as [|n IH]; cbn [Zs]; [reflexivity|]. rewrite IH. ring. Qed.
Lemma Zs_sub n f g : Zs n (fun i => f i - g i) = Zs n f - Zs n g.
Proof. induction n as [|n IH]; cbn [Zs]; [reflexivity|]. rewrite IH. ring. Qed.
Lemma Zs_mul c n f : Zs n (fun i => c * f i) = c * Zs n f.
Proof. induction n as [|n IH]; cbn [Zs]; [ring|]. rewrite IH. ring. Qed.
Lemma Zs_front n f : Zs (S n) f = f 0%nat + Zs n (fun i => f (S i)).
Proof. induction n as [|n IH]; [cbn; ring|]. change (Zs (S (S n)) f) with (Zs (S n) f + f (S n)). rewrite IH. cbn [Zs]. ring. Qed.
Lemma Zs_app m n f : Zs (m + n) f = Zs m f + Zs n (fun i => f (m + i)%nat).
Proof. induction n as [|n IH]; [rewrite Nat.add_0_r; cbn [Zs]; ring|]. rewrite Nat.add_succ_r. cbn [Zs]. rewrite IH. ring. Qed.
Lemma Zs_blocks m n f : Zs (m * n) f = Zs m (fun j => Zs n (fun i => f (j * n + i)%nat)).
Proof. induction m as [|m IH]; [reflexivity|]. replace (S m * n)%nat with (m * n + n)%nat by lia. rewrite Zs_app, IH. reflexivity. Qed.
Lemma Zs_zero n f : (forall i, (i < n)%nat -> f i = 0) -> Zs n f = 0.
Proof. intros H. rewrite (Zs_exteq n f (fun _ => 0)) by exact H. induction n as [|n IH]; [reflexivity|]. cbn [Zs]. rewrite IH; [reflexivity|]. intros; apply H; lia. Qed.

Lemma ip_Zs : forall a b n, length a = n -> length b = n -> ip a b = Zs n (fun i => nth i a 0 * nth i b 0).
Proof.
  induction a as [|x a IH]; intros [|y b] n <- L; try discriminate; [reflexivity|]. cbn [ip]. rewrite (IH b (length a)) by (reflexivity || (cbn in L; lia)).
  cbn [length]. rewrite Zs_front. reflexivity.
Qed.
Lemma zsum'_Zs n f : zsum' (map f (seq 0 n)) = Zs n f.
Proof. induction n as [|n IH]; [reflexivity|]. rewrite seq_S, map_app, zsum'_app, IH. cbn [Zs]. unfold zsum'. reflexivity. Qed.

(** ** list elements *)
Lemma map_nth' {A B} (f : A -> B) d d' : forall v i, (i < length v)%nat -> nth i (map f v) d = f (nth i v d').
Proof. induction v as [|x v IH]; intros [|i] H; cbn in *; try lia; [reflexivity|]. apply IH. lia. Qed.
Lemma map_seq_nth {A} (f : nat -> A) d n : forall i, (i < n)%nat -> nth i (map f (seq 0 n)) d = f i.
Proof. intros i H. rewrite (map_nth' f d 0%nat) by (rewrite seq_length; exact H). rewrite seq_nth by exact H. reflexivity. Qed.
Lemma map2_nth {A B C} (f : A -> B -> C) da db dc : forall x y i, (i < length x)%nat -> (i < length y)%nat -> nth i (map2 f x y) dc = f (nth i x da) (nth i y db).
Proof. induction x as [|a x IH]; intros [|b y] [|i] H K; cbn in *; try lia; [reflexivity|]. apply IH; lia. Qed.
Lemma powers_length n : forall c x, length (powers n c x) = n.
Proof. induction n as [|n IH]; intros c x; [reflexivity|]. cbn. rewrite IH. reflexivity. Qed.
Lemma powers_nn n : forall c x, scalar c -> nn (powers n c x).
Proof. induction n as [|n IH]; intros c x H; constructor; [exact H|]. apply IH, n_mul. Qed.
Lemma powers_nth n : forall i c x, (i < n)%nat -> nth i (powers n c x) 0 == c * x ^ Z.of_nat i.
Proof.
  induction n as [|n IH]; intros [|i] c x H; try lia; cbn [powers nth].
  - change (Z.of_nat 0) with 0. rewrite Z.pow_0_r. apply cg_eq. ring.
  - rewrite IH by lia. rewrite c_mul. apply cg_eq. rewrite pow_S. ring.
Qed.
Lemma power_sum_spec n : forall acc cur x, power_sum n acc cur x == acc + Zs n (fun i => cur * x ^ Z.of_nat (S i)).
Proof.
  induction n as [|n IH]; intros acc cur x; [cbn [power_sum Zs]; apply cg_eq; ring|]. cbn [power_sum]. rewrite IH, Zs_front.
  rewrite (Zs_ext n _ (fun i => cur * x ^ Z.of_nat (S (S i)))).
  - rewrite c_add, c_mul. apply cg_eq. change (Z.of_nat 1) with 1. ring.
  - intros i _. rewrite c_mul. apply cg_eq. rewrite (pow_S x (S i)). ring.
Qed.
Lemma c_power_sum x n : (2 <= n)%nat -> vector_power_sum x n == Zs n (fun i => x ^ Z.of_nat i).
Proof.
  intros H. unfold vector_power_sum. rewrite power_sum_spec, c_add. destruct n as [|[|n]]; try lia. replace (S (S n) - 2)%nat with n by lia.
  rewrite !Zs_front. change (Z.of_nat 0) with 0. change (Z.of_nat 1) with 1. rewrite Z.pow_0_r, Z.pow_1_r.
  rewrite (Zs_ext n (fun i => x * x ^ Z.of_nat (S i)) (fun i => x ^ Z.of_nat (S (S i)))); [apply cg_eq; ring|].
  intros i _. apply cg_eq. rewrite (pow_S x (S i)). ring.
Qed.
Lemma c_taux z : forall gamma t zp, taux_loop gamma t zp z == t + Zs (length gamma) (fun j => zp * z ^ Z.of_nat j * nth j gamma 0).
Proof.
  induction gamma as [|g gamma IH]; intros t zp; [cbn [taux_loop length Zs]; apply cg_eq; ring|]. cbn [taux_loop length]. rewrite IH, Zs_front.
  rewrite c_muladd. cbn [nth]. change (Z.of_nat 0) with 0. rewrite Z.pow_0_r.
  rewrite (Zs_ext _ _ (fun i => zp * z ^ Z.of_nat (S i) * nth i gamma 0)); [apply cg_eq; ring|].
  intros i _. rewrite c_mul. apply cg_eq. rewrite pow_S. ring.
Qed.
Lemma n_taux z : forall gamma t zp, scalar t -> scalar (taux_loop gamma t zp z).
Proof. induction gamma as [|g gamma IH]; intros t zp H; [exact H|]. apply IH, n_muladd. Qed.
Lemma c_cross : forall l0 r0 l1 r1 n t1 t2, length l0 = n -> length r0 = n -> length l1 = n -> length r1 = n ->
  fst (cross_inner_product t1 t2 l0 r0 l1 r1) == t1 + (ip l0 r1 + ip l1 r0) /\ snd (cross_inner_product t1 t2 l0 r0 l1 r1) == t2 + ip l1 r1.
Proof.
  induction l0 as [|a l0 IH]; intros [|b r0] [|c l1] [|d r1] n t1 t2 H1 H2 H3 H4; cbn [length] in *; try lia.
  - cbn. split; apply cg_eq; ring.
  - cbn [cross_inner_product ip]. destruct (IH r0 l1 r1 (length l0) (sc_muladd c b (sc_muladd a d t1)) (sc_muladd c d t2)) as [I1 I2]; try lia.
    rewrite I1, I2, !c_muladd. split; apply cg_eq; ring.
Qed.
Lemma n_cross : forall l0 r0 l1 r1 t1 t2, scalar t1 -> scalar t2 -> scalar (fst (cross_inner_product t1 t2 l0 r0 l1 r1)) /\ scalar (snd (cross_inner_product t1 t2 l0 r0 l1 r1)).
Proof.
  induction l0 as [|a l0 IH]; intros [|b r0] [|c l1] [|d r1] t1 t2 H1 H2; cbn [cross_inner_product]; try (split; assumption). apply IH; apply n_muladd.
Qed.
Lemma keyr0_length y z : forall aR i yp zt p2, length (keyr0 aR i yp zt p2 y z) = length aR.
Proof. induction aR as [|a aR IH]; intros i yp zt p2; [reflexivity|]. cbn [keyr0 length]. destruct (Nat.eqb _ _); rewrite IH; reflexivity. Qed.
Lemma keyr0_nn y z : forall aR i yp zt p2, nn (keyr0 aR i yp zt p2 y z).
Proof. induction aR as [|a aR IH]; intros i yp zt p2; cbn [keyr0]; constructor; [apply n_muladd|]. destruct (Nat.eqb _ _); apply IH. Qed.
Lemma step_div i : (S i mod BP_N = 0 -> S i / BP_N = S (i / BP_N))%nat /\ (S i mod BP_N <> 0 -> S i / BP_N = i / BP_N)%nat /\ (S i mod BP_N <> 0 -> S i mod BP_N = S (i mod BP_N))%nat.
Proof.
  assert (N0 : BP_N <> 0%nat) by discriminate.
  pose proof (Nat.div_mod i BP_N N0) as D. pose proof (Nat.mod_upper_bound i BP_N N0) as U.
  pose proof (Nat.div_mod (S i) BP_N N0) as D'. pose proof (Nat.mod_upper_bound (S i) BP_N N0) as U'.
  revert D U D' U'. generalize (i / BP_N)%nat (i mod BP_N)%nat (S i / BP_N)%nat (S i mod BP_N)%nat. unfold BP_N. intros a b c d. clear N0. lia.
Qed.
Lemma keyr0_nth y z : forall aR k i yp zt p2, (k < length aR)%nat ->
  yp == y ^ Z.of_nat i -> zt == z ^ Z.of_nat (2 + i / BP_N) -> p2 == 2 ^ Z.of_nat (i mod BP_N) ->
  nth k (keyr0 aR i yp zt p2 y z) 0 == z ^ Z.of_nat (2 + (i + k) / BP_N) * 2 ^ Z.of_nat ((i + k) mod BP_N) + (nth k aR 0 + z) * y ^ Z.of_nat (i + k).
Proof.
  assert (N0 : BP_N <> 0%nat) by discriminate.
  induction aR as [|a aR IH]; intros k i yp zt p2 Hk Hy Hz Hp; cbn [length] in Hk; [lia|]. cbn [keyr0]. destruct k as [|k].
  - cbn [nth]. rewrite Nat.add_0_r, c_muladd, c_mul, c_add, Hy, Hz, Hp. apply cg_eq. ring.
  - cbn [nth]. replace (i + S k)%nat with (S i + k)%nat by lia.
    assert (Hy' : sc_mul yp y == y ^ Z.of_nat (S i)).
    { rewrite c_mul, Hy. apply cg_eq. rewrite pow_S. ring. }
    destruct (Nat.eqb_spec (Nat.modulo (S i) BP_N) 0) as [M|M].
    + assert (Q : (S i / BP_N = S (i / BP_N))%nat) by (apply step_div; exact M).
      apply IH; [lia|exact Hy'| |rewrite M; reflexivity].
      rewrite c_mul, Hz, Q. apply cg_eq. replace (2 + S (i / BP_N))%nat with (S (2 + i / BP_N)) by lia. rewrite (pow_S z (2 + i / BP_N)). ring.
    + assert (Q : (S i / BP_N = i / BP_N)%nat) by (apply step_div; exact M).
      assert (R : (S i mod BP_N = S (i mod BP_N))%nat) by (apply step_div; exact M).
      apply IH; [lia|exact Hy'|rewrite Q; exact Hz|].
      rewrite c_mul, Hp, R. apply cg_eq. rewrite pow_S. ring.
Qed.

(** ** the bits *)
Definition abit (sv : list Z) (i : nat) : Z := if Nat.ltb (i / BP_N) (length sv) then bitv (enc_sc (nth (i / BP_N) sv 0)) (Z.of_nat (i mod BP_N)) else 0.
Lemma bitv01 s i : bitv s i = 0 \/ bitv s i = 1.
Proof. unfold bitv. pose proof (Z.mod_pos_bound (nth (Z.to_nat (i / 8)) s 0 / 2 ^ (i mod 8)) 2 ltac:(lia)). lia. Qed.
Lemma abit01 sv i : abit sv i = 0 \/ abit sv i = 1.
Proof. unfold abit. destruct (Nat.ltb _ _); [apply bitv01|left; reflexivity]. Qed.
Lemma land_bit v i : 0 <= i -> negb (Z.land v (Z.shiftl 1 i) =? 0) = ((v / 2 ^ i) mod 2 =? 1).
Proof.
  intros Hi. rewrite Z.shiftl_mul_pow2, Z.mul_1_l by exact Hi. rewrite <- Z.testbit_spec' by exact Hi.
  assert (E : Z.land v (2 ^ i) = Z.b2z (Z.testbit v i) * 2 ^ i).
  { apply Z.bits_inj'. intros n Hn. rewrite Z.land_spec, Z.pow2_bits_eqb by exact Hi. destruct (Z.eqb_spec i n) as [<-|N].
    - destruct (Z.testbit v i); cbn [Z.b2z]; rewrite ?Z.mul_1_l, ?Z.mul_0_l, ?Z.pow2_bits_true, ?Z.bits_0 by exact Hi; reflexivity.
    - rewrite Bool.andb_false_r. destruct (Z.testbit v i); cbn [Z.b2z]; rewrite ?Z.mul_1_l, ?Z.mul_0_l, ?Z.bits_0; [|reflexivity].
      symmetry. apply Z.pow2_bits_false. congruence. }
  rewrite E. pose proof (Z.pow_pos_nonneg 2 i ltac:(lia) Hi) as P. destruct (Z.testbit v i); cbn [Z.b2z]; rewrite ?Z.mul_1_l, ?Z.mul_0_l; [|reflexivity].
  destruct (Z.eqb_spec (2 ^ i) 0); [lia|reflexivity].
Qed.
Lemma e_xL_val sv i : e_xL (map enc_sc sv) true i = abit sv i /\ e_xL (map enc_sc sv) false i == abit sv i - 1 /\ scalar (e_xL (map enc_sc sv) true i) /\ scalar (e_xL (map enc_sc sv) false i).
Proof.
  assert (M1 : l - 1 == 0 - 1) by (unfold cg; replace (l - 1) with (0 - 1 + 1 * l) by ring; apply Z.mod_add; discriminate).
  assert (SM : scalar (l - 1)) by (pose proof l_pos; unfold scalar; lia).
  unfold e_xL, abit. cbv zeta. rewrite map_length. destruct (Nat.leb_spec (length sv) (i / BP_N)) as [H|H].
  - rewrite (proj2 (Nat.ltb_ge _ _) H). repeat split; try assumption; try apply scalar_0; apply SM.
  - rewrite (proj2 (Nat.ltb_lt _ _) H). rewrite (map_nth' enc_sc [] 0) by exact H. set (v := nth _ sv 0).
    set (j := Z.of_nat (i mod BP_N)). rewrite land_bit by (apply Z.mod_pos_bound; lia). unfold bitv.
    pose proof (Z.mod_pos_bound (nth (Z.to_nat (j / 8)) (enc_sc v) 0 / 2 ^ (j mod 8)) 2 ltac:(lia)) as B.
    destruct (Z.eqb_spec ((nth (Z.to_nat (j / 8)) (enc_sc v) 0 / 2 ^ (j mod 8)) mod 2) 1) as [E|N].
    + rewrite E. repeat split; try apply scalar_0; try apply scalar_1.
    + assert (E : (nth (Z.to_nat (j / 8)) (enc_sc v) 0 / 2 ^ (j mod 8)) mod 2 = 0) by lia. rewrite E. repeat split; try assumption; try apply scalar_0; apply SM.
Qed.
Lemma abit_sum sv j : (j < length sv)%nat -> 0 <= nth j sv 0 < 2 ^ 64 -> Zs BP_N (fun i => 2 ^ Z.of_nat i * abit sv (j * BP_N + i)) = nth j sv 0.
Proof.
  intros Hj Hv. rewrite (Zs_exteq _ _ (fun i => 2 ^ Z.of_nat i * bitv (enc_sc (nth j sv 0)) (Z.of_nat i))).
  - rewrite <- zsum'_Zs. change BP_N with (8 * 8)%nat. rewrite bit_sum; [|unfold enc_sc; rewrite le_digits_length; lia|apply digits_ok_256, le_digits_ok; lia].
    assert (F : forall n m v, (n <= m)%nat -> firstn n (le_digits 256 m v) = le_digits 256 n v).
    { induction n as [|n IH]; intros [|m] v H; try lia; [reflexivity..|]. cbn [le_digits firstn]. rewrite IH by lia. reflexivity. }
    unfold enc_sc. rewrite F by lia. rewrite le_val_digits by lia. apply Z.mod_small. exact Hv.
  - intros i Hi. unfold abit. replace ((j * BP_N + i) / BP_N)%nat with j by (rewrite Nat.div_add_l by discriminate; rewrite (Nat.div_small i) by exact Hi; lia).
    rewrite (proj2 (Nat.ltb_lt _ _) Hj). replace ((j * BP_N + i) mod BP_N)%nat with i; [reflexivity|].
    rewrite Nat.add_comm, Nat.mod_add by discriminate. symmetry. apply Nat.mod_small, Hi.
Qed.
Lemma abit_out sv j i : (length sv <= j)%nat -> (i < BP_N)%nat -> abit sv (j * BP_N + i) = 0.
Proof.
  intros H Hi. unfold abit. replace ((j * BP_N + i) / BP_N)%nat with j by (rewrite Nat.div_add_l by discriminate; rewrite (Nat.div_small i) by exact Hi; lia).
  rewrite (proj2 (Nat.ltb_ge _ _) H). reflexivity.
Qed.
