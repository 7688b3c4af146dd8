(** C65, continued: the mask vectors of the prover are constants of the code, so the range proof of a batch gives the
    bits of the amounts away up to a search, however good the rest of the randomness is. *)
From Verif Require Import Py PyLemmas Digits Ints_model Ints_proof2 Primes KeySep_proof Clsag_proof Ec_model Ec_spec Ec_proof Ec_toy Mlsag_model Mlsag_spec Mlsag_proof Bp_model Bp_proof1 Bp_proof2 Bp_proof3 Bp_proof4 Bp_spec Bp_proof5 Bp_proof6 Prop_Bp.
Ltac Zify.zify_post_hook ::= idtac.

(** bulletproof.py:1968-1982, with the default [use_det_masks = True] (1685): [sL_vct], [sR_vct] are KeyVPrngMask with the
    seeds [_ZERO] and [_ONE]; element [i] of such a vector is [mask_at seed i] (C38) *)
Definition seed_L : list Z := repeat 0 32.
Definition seed_R : list Z := 1 :: repeat 0 31.
Definition masks_of (E : ecops) (seed : list Z) (n : nat) : list Z := map (mask_at (hash E) seed) (seq 0 n).
(** the randomness of the prover as the code draws it, [alpha] ... [tau2] arbitrary *)
Definition default_rand (E : ecops) (n : nat) (alpha rho tau1 tau2 : Z) : prand :=
  {| r_alpha := alpha; r_rho := rho; r_tau1 := tau1; r_tau2 := tau2; r_sL := masks_of E seed_L (64 * padded n); r_sR := masks_of E seed_R (64 * padded n) |}.

Section Public.
Context (E : ecops) (gs : gens E).
Local Notation "A +' B" := (padd E A B) (at level 50, left associativity).
(** sum of [f i * G_i + g i * H_i] over the indices *)
Fixpoint lincomb (I : list nat) (f g : nat -> Z) : pt E :=
  match I with [] => pid E | i :: J => smul E (gG E gs i) (f i mod l) +' smul E (gH E gs i) (g i mod l) +' lincomb J f g end.
(** bit [i mod 64] of amount [i / 64] *)
Definition bit_of (amounts : list Z) (i : nat) : Z := Z.b2z (Z.testbit (nth (i / 64) amounts 0) (Z.of_nat (i mod 64))).
(** a function of the amounts alone *)
Definition amounts_point (amounts : list Z) : pt E :=
  lincomb (seq 0 (64 * padded (length amounts))) (bit_of amounts) (fun i => bit_of amounts i - 1).
(** a function of the published proof alone, [A] and [S] being its points *)
Definition public_point (n : nat) (p : bproof) (A S : pt E) : pt E :=
  let x := ch_x E p in
  smul E A 8 +' smul E (smul E S 8) x +' pneg E (smul E (Gb E) (le_val 256 (bp_mu p))) +'
  pneg E (lincomb (seq 0 (64 * padded n)) (fun i => x * mask_at (hash E) seed_L i) (fun i => x * mask_at (hash E) seed_R i)).
End Public.

Section Proof.
Context (E : ecops) (L : ec_laws E) (gs : gens E) (GS : gens_ok E gs).
Local Notation "A +' B" := (padd E A B) (at level 50, left associativity).
Local Notation zmul := (zmul E).
Local Notation msm := (msm E).
Local Notation sub := (Ec_proof.sub E).
Lemma lincomb_msm f g : forall I, lincomb E gs I f g = msm (map f I) (map (gG E gs) I) +' msm (map g I) (map (gH E gs) I).
Proof.
  induction I as [|i I IH]; cbn [lincomb map Bp_proof1.msm]; [lin E L|]. rewrite IH. destruct (GS i) as [S1 S2].
  rewrite !(smul_zmul E L) by (apply Z.mod_pos_bound; reflexivity). rewrite (zc E L (f i mod l) (f i) _ S1 (cg_mod _)), (zc E L (g i mod l) (g i) _ S2 (cg_mod _)). lin E L.
Qed.
Lemma byte_bit v i : 0 <= v < 2 ^ 64 -> 0 <= i < 64 -> bitv (enc_sc v) i = Z.b2z (Z.testbit v i).
Proof.
  intros HV HI. assert (N : forall n k w, (k < n)%nat -> nth k (le_digits 256 n w) 0 = (w / 256 ^ Z.of_nat k) mod 256).
  { induction n as [|n IH]; intros [|k] w HK; try lia; cbn [le_digits nth]; [rewrite Z.pow_0_r, Z.div_1_r; reflexivity|]. rewrite IH by lia. rewrite Z.div_div by (try apply Z.pow_nonzero; lia || (apply Z.pow_pos_nonneg; lia)).
    rewrite Nat2Z.inj_succ, Z.pow_succ_r by lia. reflexivity. }
  unfold bitv, enc_sc. pose proof (Z.mod_pos_bound i 8 ltac:(lia)) as B. pose proof (Z.div_mod i 8 ltac:(lia)) as D. assert (B2 : 0 <= i / 8 < 8) by (split; [apply Z.div_pos; lia|apply Z.div_lt_upper_bound; lia]).
  rewrite N by lia. rewrite Z2Nat.id by lia. rewrite <- Z.testbit_spec' by lia. f_equal. change 256 with (2 ^ 8) at 2. rewrite Z.mod_pow2_bits_low by lia.
  change 256 with (2 ^ 8). rewrite <- Z.pow_mul_r by lia. rewrite Z.div_pow2_bits by lia. f_equal. lia.
Qed.
Lemma abit_bit amounts i : Forall u64 amounts -> abit amounts i = bit_of amounts i.
Proof.
  intros U. unfold abit, bit_of. change BP_N with 64%nat. destruct (Nat.ltb_spec (i / 64) (length amounts)) as [H|H].
  - apply byte_bit; [|pose proof (Nat.mod_upper_bound i 64 ltac:(lia)); lia]. rewrite Forall_forall in U. apply U, nth_In, H.
  - rewrite nth_overflow by exact H. rewrite Z.testbit_0_l. reflexivity.
Qed.
(** the prover's [A], [S] and [mu] in the published proof *)
Lemma prove_AS sv gamma rd p M k : bp_blocks (length sv) = Ok (M, k) -> prove_batch E gs sv gamma rd = Ok p ->
  let I := seq 0 (Z.to_nat M * BP_N) in let G := map (gG E gs) I in let H := map (gH E gs) I in
  bp_A p = inv8 E (point_add E (vector_exponent E (pid E) G H (map (e_xL (map enc_sc sv) true) I) (map (e_xL (map enc_sc sv) false) I)) (scalarmult_base E (r_alpha rd))) /\
  bp_S p = inv8 E (point_add E (vector_exponent E (pid E) G H (r_sL rd) (r_sR rd)) (scalarmult_base E (r_rho rd))) /\
  bp_mu p = enc_sc (sc_muladd (ch_x E p) (r_rho rd) (r_alpha rd)).
Proof.
  intros EB. unfold prove_batch. intros H. apply bind_ok_inv in H. destruct H as (u1 & _ & H). apply bind_ok_inv in H. destruct H as (u2 & _ & H). rewrite EB in H. cbn [bind] in H.
  cbv zeta in H. apply bind_ok_inv in H. destruct H as (u3 & _ & H). apply bind_ok_inv in H. destruct H as (u4 & _ & H).
  destruct (cross_inner_product _ _ _ _ _ _) as [t1 t2]. apply bind_ok_inv in H. destruct H as (u5 & _ & H). apply bind_ok_inv in H. destruct H as (u6 & _ & H).
  apply bind_ok_inv in H. destruct H as (s & _ & H). apply bind_ok_inv in H. destruct H as (a & _ & H). apply bind_ok_inv in H. destruct H as (b & _ & H). apply ok_inj in H. subst p.
  unfold ch_x, ch_z, ch_y. cbn [bp_V bp_A bp_S bp_T1 bp_T2 bp_mu]. repeat split.
Qed.
Lemma nn_map {A} (f : A -> Z) I : (forall i, scalar (f i)) -> nn (map f I).
Proof. intros H. apply Forall_forall. intros x HX. apply in_map_iff in HX. destruct HX as (i & <- & _). apply H. Qed.

Lemma public_is amounts masks alpha rho tau1 tau2 p : (1 <= length amounts <= 32)%nat -> Forall u64 amounts -> scalar alpha -> scalar rho ->
  prove_batch E gs amounts masks (default_rand E (length amounts) alpha rho tau1 tau2) = Ok p ->
  exists A S, decp E (bp_A p) = Ok A /\ decp E (bp_S p) = Ok S /\ public_point E gs (length amounts) p A S = amounts_point E gs amounts.
Proof.
  intros HN HU SA SR HP. destruct (blocks_small _ HN) as (k & EB & LE). destruct (prove_AS amounts masks _ p _ k EB HP) as (EA & ES & EM). cbv zeta in EA, ES. rewrite Nat2Z.id in EA, ES.
  set (I := seq 0 (padded (length amounts) * BP_N)) in *. assert (EI : seq 0 (64 * padded (length amounts)) = I) by (unfold I; rewrite Nat.mul_comm; reflexivity).
  cbn [default_rand r_alpha r_rho r_sL r_sR] in EA, ES, EM. unfold masks_of in ES. rewrite EI in ES.
  assert (SM : forall s i, scalar (mask_at (hash E) s i)) by (intros s i; unfold mask_at; apply sc_rng).
  assert (SX : forall t i, scalar (e_xL (map enc_sc amounts) t i)) by (intros t i; destruct (e_xL_val amounts i) as (_ & _ & S1 & S2); destruct t; assumption).
  rewrite (vexp_msm E L) in EA, ES by (rewrite ?map_length; try reflexivity; apply nn_map; auto).
  assert (FG : Forall sub (map (gG E gs) I)) by (apply (sub_map E); intros i; apply GS). assert (FH : Forall sub (map (gH E gs) I)) by (apply (sub_map E); intros i; apply GS).
  unfold scalarmult_base, point_add in EA, ES. rewrite (smul_zmul E L) in EA by apply SA. rewrite (smul_zmul E L) in ES by apply SR.
  rewrite (inv8_enc E L) in EA, ES. set (PA := _ +' zmul alpha (Gb E)) in EA. set (PS := _ +' zmul rho (Gb E)) in ES.
  assert (SPA : sub PA) by (unfold PA; apply (sub_add E L); [apply (sub_add E L); [exact (sub_id E L)|apply (sub_add E L); apply (sub_msm E L); [exact FG|exact FH]]|apply (sub_zmul E L), (sub_G E L)]).
  assert (SPS : sub PS) by (unfold PS; apply (sub_add E L); [apply (sub_add E L); [exact (sub_id E L)|apply (sub_add E L); apply (sub_msm E L); [exact FG|exact FH]]|apply (sub_zmul E L), (sub_G E L)]).
  exists (zmul inv_eight PA), (zmul inv_eight PS). rewrite EA, ES. split; [apply (law_dec E L)|]. split; [apply (law_dec E L)|].
  unfold public_point, amounts_point. cbv zeta. rewrite EI, EM, (enc_sc_val _ (n_muladd _ _ _)). set (x := ch_x E p).
  assert (RX : 0 <= x) by (unfold x, ch_x, mash, hash_to_scalar; apply sc_rng).
  rewrite !(smul_zmul E L) by (try exact RX; try discriminate; apply n_muladd). rewrite !(eight E L) by assumption.
  rewrite (zc E L (sc_muladd x rho alpha) (alpha + x * rho) (Gb E) (sub_G E L) (c_muladd _ _ _)).
  rewrite !lincomb_msm.
  rewrite (msm_mul E L x (mask_at (hash E) seed_L)), (msm_mul E L x (mask_at (hash E) seed_R)).
  unfold PA, PS.
  rewrite (msm_ext E L (e_xL (map enc_sc amounts) true) (bit_of amounts) I) by (try assumption; intros i _; destruct (e_xL_val amounts i) as (Q & _); rewrite Q, (abit_bit _ _ HU); reflexivity).
  rewrite (msm_ext E L (e_xL (map enc_sc amounts) false) (fun i => bit_of amounts i - 1) I) by (try assumption; intros i _; destruct (e_xL_val amounts i) as (_ & Q & _); rewrite Q, (abit_bit _ _ HU); reflexivity).
  lin E L.
Qed.
End Proof.

(** From the bytes of a proof anyone computes a point that depends on the amounts and on nothing else: neither on the
    masks of the commitments nor on the random scalars of the prover. *)
Theorem C65_masks_refuted : forall E, ec_laws E -> forall gs, generators E gs -> forall amounts masks alpha rho tau1 tau2 p,
  (1 <= length amounts <= 32)%nat -> Forall u64 amounts -> scalar alpha -> scalar rho ->
  prove_range_bp_batch E gs amounts masks (default_rand E (length amounts) alpha rho tau1 tau2) = Ok p ->
  exists A S, decp E (bp_A p) = Ok A /\ decp E (bp_S p) = Ok S /\ public_point E gs (length amounts) p A S = amounts_point E gs amounts.
Proof.
  intros E L gs GG amounts masks alpha rho tau1 tau2 p HN HU SA SR HP. unfold prove_range_bp_batch in HP. rewrite sc_init_all in HP by exact HU. cbn [bind] in HP.
  exact (public_is E L gs (gens_gens_ok E L gs GG) amounts masks alpha rho tau1 tau2 p HN HU SA SR HP).
Qed.
Print Assumptions C65_masks_refuted.

(** a case: two amounts, the toy group *)
Example C65_masks_case : exists p A S, prove_range_bp_batch toy1 (computed_gens toy1) [18446744073709551615; 5] [7; 8] (default_rand toy1 2 11 22 33 44) = Ok p /\
  decp toy1 (bp_A p) = Ok A /\ decp toy1 (bp_S p) = Ok S /\
  public_point toy1 (computed_gens toy1) 2 p A S = amounts_point toy1 (computed_gens toy1) [18446744073709551615; 5].
Proof.
  assert (U : forall x, (0 <=? x) && (x <? 2 ^ 64) = true -> u64 x) by (intros x H; apply andb_prop in H; destruct H as [A B]; apply Z.leb_le in A; apply Z.ltb_lt in B; split; assumption).
  assert (Q : forall x, 0 <= x < 100000 -> scalar x) by (intros x [A B]; split; [exact A|eapply Z.lt_trans; [exact B|reflexivity]]).
  assert (Q11 : scalar 11) by (apply Q; lia). assert (Q22 : scalar 22) by (apply Q; lia). assert (LN : (1 <= length [18446744073709551615; 5] <= 32)%nat) by (cbn [length]; lia).
  assert (HU : Forall u64 [18446744073709551615; 5]) by (repeat constructor; apply U; reflexivity).
  assert (HM : Forall scalar [7; 8]) by (constructor; [apply Q; lia|constructor; [apply Q; lia|constructor]]).
  assert (RO : random_ok 2 (default_rand toy1 2 11 22 33 44)).
  { unfold random_ok, default_rand. cbn [r_alpha r_rho r_tau1 r_tau2 r_sL r_sR]. do 4 (split; [apply Q; lia|]). unfold masks_of. rewrite !map_length, !seq_length. do 2 (split; [reflexivity|]).
    split; apply nn_map; intros i; unfold mask_at; apply sc_rng. }
  pose proof (C36_complete toy1 toy1_laws (computed_gens toy1) (computed_generators _ toy1_laws) [18446744073709551615; 5] [7; 8] (default_rand toy1 2 11 22 33 44) LN eq_refl HU HM RO) as C.
  destruct (prove_range_bp_batch toy1 _ _ _ _) as [p|e] eqn:P.
  - destruct (C65_masks_refuted toy1 toy1_laws (computed_gens toy1) (computed_generators _ toy1_laws) [18446744073709551615; 5] [7; 8] 11 22 33 44 p LN HU Q11 Q22 P) as (A & S & HA & HS & HE).
    exists p, A, S. exact (conj eq_refl (conj HA (conj HS HE))).
  - exfalso. destruct C as [s Hs]. revert Hs. unfold hash_to_scalar. cbn [hash toy1]. vm_compute. discriminate.
Qed.

(** So proofs of the same amounts can be linked, and a wrong guess is confirmed only by a relation between the generators. *)
Theorem C65_guess_relation : forall E, ec_laws E -> forall gs, generators E gs -> forall amounts guess,
  length guess = length amounts -> Forall u64 amounts -> Forall u64 guess ->
  amounts_point E gs guess = amounts_point E gs amounts ->
  let d i := bit_of guess i - bit_of amounts i in
  (guess = amounts \/ exists i, (i < 64 * padded (length amounts))%nat /\ (d i = 1 \/ d i = -1)) /\
  lincomb E gs (seq 0 (64 * padded (length amounts))) d d = pid E.
Proof.
  intros E L gs GG a g LG HA HG HE d. pose proof (gens_gens_ok E L gs GG) as GS. split.
  - destruct (list_eq_dec Z.eq_dec g a) as [Q|Q]; [left; exact Q|right].
    assert (X : exists j, (j < length a)%nat /\ nth j g 0 <> nth j a 0).
    { clear - LG Q. revert g LG Q. induction a as [|v a IH]; intros [|w g] LG Q; try discriminate; [congruence|]. destruct (Z.eq_dec w v) as [->|N]; [|exists 0%nat; split; [cbn; lia|exact N]].
      destruct (IH g) as (j & H1 & H2); [cbn in LG; lia|congruence|]. exists (S j). split; [cbn; lia|exact H2]. }
    destruct X as (j & HJ & NJ). rewrite Forall_forall in HA, HG. pose proof (HA _ (nth_In a 0 HJ)) as A1. pose proof (HG (nth j g 0) (@nth_In Z j g 0 ltac:(rewrite LG; exact HJ))) as G1.
    assert (Y : exists k, (k < 64)%nat /\ Z.testbit (nth j g 0) (Z.of_nat k) <> Z.testbit (nth j a 0) (Z.of_nat k)).
    { assert (DEC : forall n, (exists k, (k < n)%nat /\ Z.testbit (nth j g 0) (Z.of_nat k) <> Z.testbit (nth j a 0) (Z.of_nat k)) \/ (forall k, (k < n)%nat -> Z.testbit (nth j g 0) (Z.of_nat k) = Z.testbit (nth j a 0) (Z.of_nat k))).
      { induction n as [|n [(k & K1 & K2)|IH]]; [right; intros k K; lia|left; exists k; split; [lia|exact K2]|]. destruct (Bool.bool_dec (Z.testbit (nth j g 0) (Z.of_nat n)) (Z.testbit (nth j a 0) (Z.of_nat n))) as [B|B].
        - right. intros k K. destruct (Nat.eq_dec k n) as [->|NK]; [exact B|]. apply IH. lia.
        - left. exists n. split; [lia|exact B]. }
      destruct (DEC 64%nat) as [Y|Y]; [exact Y|]. exfalso. apply NJ. apply Z.bits_inj'. intros n Hn. destruct (Z.lt_ge_cases n 64) as [Q64|Q64].
      - specialize (Y (Z.to_nat n) ltac:(lia)). rewrite Z2Nat.id in Y by lia. exact Y.
      - assert (HB : forall v, 0 <= v < 2 ^ 64 -> Z.testbit v n = false).
        { intros v Hv. destruct (Z.eq_dec v 0) as [->|NZ]; [apply Z.testbit_0_l|]. apply Z.bits_above_log2; [lia|]. apply Z.log2_lt_pow2; [lia|]. apply Z.lt_le_trans with (2 ^ 64); [lia|]. apply Z.pow_le_mono_r; lia. }
        unfold u64 in *. rewrite !HB by assumption. reflexivity. }
    destruct Y as (k & HK & NK). exists (j * 64 + k)%nat.
    assert (P : (length a <= padded (length a))%nat).
    { unfold padded. destruct (Nat.le_gt_cases (length a) 1) as [P|P]; [apply Nat.le_trans with 1%nat; [exact P|pose proof (Nat.pow_nonzero 2 (Nat.log2_up (length a)) ltac:(lia)); lia]|]. apply Nat.log2_up_spec. exact P. }
    split; [lia|]. unfold d, bit_of. replace ((j * 64 + k) / 64)%nat with j by (rewrite Nat.div_add_l by lia; rewrite (Nat.div_small k) by exact HK; lia).
    replace ((j * 64 + k) mod 64)%nat with k by (rewrite Nat.add_comm, Nat.mod_add by lia; symmetry; apply Nat.mod_small, HK).
    destruct (Z.testbit (nth j g 0) (Z.of_nat k)), (Z.testbit (nth j a 0) (Z.of_nat k)); cbn [Z.b2z]; try congruence; lia.
  - unfold amounts_point in HE. rewrite LG in HE. rewrite !(lincomb_msm E L gs GS) in *. set (I := seq 0 (64 * padded (length a))) in *.
    set (mg := msm E (map (bit_of g) I) (map (gG E gs) I)) in *. set (hg := msm E (map (fun i => bit_of g i - 1) I) (map (gH E gs) I)) in *.
    set (ma := msm E (map (bit_of a) I) (map (gG E gs) I)) in *. set (ha := msm E (map (fun i => bit_of a i - 1) I) (map (gH E gs) I)) in *.
    assert (D1 : msm E (map d I) (map (gG E gs) I) = padd E mg (Ec_proof.zmul E (-1) ma)).
    { transitivity (msm E (map (fun i => bit_of g i + -1 * bit_of a i) I) (map (gG E gs) I)); [f_equal; apply map_ext; intros i; unfold d; ring|]. rewrite (msm_add E L (bit_of g) (fun i => -1 * bit_of a i)), (msm_mul E L (-1) (bit_of a)). reflexivity. }
    assert (D2 : msm E (map d I) (map (gH E gs) I) = padd E hg (Ec_proof.zmul E (-1) ha)).
    { transitivity (msm E (map (fun i => (bit_of g i - 1) + -1 * (bit_of a i - 1)) I) (map (gH E gs) I)); [f_equal; apply map_ext; intros i; unfold d; ring|].
      rewrite (msm_add E L (fun i => bit_of g i - 1) (fun i => -1 * (bit_of a i - 1))), (msm_mul E L (-1) (fun i => bit_of a i - 1)). reflexivity. }
    rewrite D1, D2. transitivity (padd E (padd E mg hg) (Ec_proof.zmul E (-1) (padd E ma ha))); [lin E L|]. rewrite HE. lin E L.
Qed.
Print Assumptions C65_guess_relation.

(** a case: the generators of the toy group are all the same point, so amounts with as many bits set are confused there *)
Example C65_guess_case : let d i := bit_of [2] i - bit_of [1] i in d 0%nat = -1 /\ d 1%nat = 1 /\
  lincomb toy1 (computed_gens toy1) (seq 0 64) d d = pid toy1.
Proof.
  assert (H : amounts_point toy1 (computed_gens toy1) [2] = amounts_point toy1 (computed_gens toy1) [1]) by (apply (law_eqb toy1 toy1_laws); vm_compute; reflexivity).
  assert (U : Forall u64 [1] /\ Forall u64 [2]) by (split; repeat constructor; discriminate).
  cbv zeta. split; [reflexivity|]. split; [reflexivity|].
  exact (proj2 (C65_guess_relation toy1 toy1_laws (computed_gens toy1) (computed_generators _ toy1_laws) [1] [2] eq_refl (proj1 U) (proj2 U) H)).
Qed.
