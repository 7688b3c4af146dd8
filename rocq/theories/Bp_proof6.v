(** Bulletproofs: a proof made by the prover satisfies both verification equations. *)
From Verif Require Import Py PyLemmas Digits Ints_model Ints_proof2 Ec_model Ec_spec Ec_proof Mlsag_model Mlsag_proof Container_proof Bp_model Bp_proof1 Bp_proof2 Bp_proof3 Bp_proof4 Bp_spec Bp_proof5.
From Coq Require Import Setoid Morphisms.
Ltac Zify.zify_post_hook ::= idtac.

Section Compl.
Context (E : ecops) (L : ec_laws E) (gs : gens E) (GS : gens_ok E gs).
Local Notation "A +' B" := (padd E A B) (at level 50, left associativity).
Local Notation "0'" := (pid E).
Local Notation zmul := (zmul E).
Local Notation sub := (sub E).
Local Notation msm := (msm E).

Lemma eight P : sub P -> zmul 8 (zmul inv_eight P) = P.
Proof. intros S. rewrite <- (zmul_mul E L). rewrite (zc E L (8 * inv_eight) 1 P S) by (rewrite Z.mul_comm; exact inv_eight_8). apply (zmul_1 E L). Qed.
Lemma inv8_enc P : inv8 E P = encp E (zmul inv_eight P).
Proof. unfold inv8, scalarmult. rewrite (smul_zmul E L) by apply scalar_inv8. reflexivity. Qed.
Lemma keys2 g v : scalar g -> scalar v -> add_keys2 E g v (Hb E) = zmul g (Gb E) +' zmul v (Hb E).
Proof. intros Hg Hv. unfold add_keys2, point_add, scalarmult_base, scalarmult. rewrite !(smul_zmul E L) by (apply Hg || apply Hv). reflexivity. Qed.
Lemma sub_keys g v : sub (zmul g (Gb E) +' zmul v (Hb E)).
Proof. apply (sub_add E L); apply (sub_zmul E L); [exact (sub_G E L)|exact (sub_H E L)]. Qed.
Lemma commit_sum : forall c sv gamma, length sv = length gamma -> 
  msm (map (Z.mul 8) c) (map2 (fun v g => zmul inv_eight (zmul g (Gb E) +' zmul v (Hb E))) sv gamma) =
  zmul (ip c gamma) (Gb E) +' zmul (ip c sv) (Hb E).
Proof.
  induction c as [|x c IH]; intros [|v sv] [|g gamma] H; try discriminate; cbn [map map2 Bp_proof1.msm ip]; try (rewrite ?(zmul_0 E), ?(law_id E L); reflexivity).
  rewrite IH by (cbn in H; lia). rewrite (Z.mul_comm 8 x), (zmul_mul E L x 8), eight by apply sub_keys. lin E L.
Qed.
Lemma V_enc : forall sv gamma, Forall scalar sv -> Forall scalar gamma ->
  map2 (fun v g => inv8 E (add_keys2 E g v (Hb E))) sv gamma = map (encp E) (map2 (fun v g => zmul inv_eight (zmul g (Gb E) +' zmul v (Hb E))) sv gamma).
Proof.
  induction sv as [|v sv IH]; intros [|g gamma] H K; cbn [map2 map]; try reflexivity. inversion H; inversion K; subst.
  rewrite IH by assumption. rewrite inv8_enc, keys2 by assumption. reflexivity.
Qed.
Lemma V_sub : forall sv gamma, Forall sub (map2 (fun v g => zmul inv_eight (zmul g (Gb E) +' zmul v (Hb E))) sv gamma).
Proof. induction sv as [|v sv IH]; intros [|g gamma]; constructor; [apply (sub_zmul E L), sub_keys|apply IH]. Qed.
Lemma dec_enc P : dec E (encp E P) P. Proof. apply (law_dec E L). Qed.
Lemma dec_map Ps : Forall2 (dec E) (map (encp E) Ps) Ps.
Proof. induction Ps; constructor; [apply dec_enc|assumption]. Qed.
Lemma msm_scaled : forall c G e, length G = length e -> nn e -> msm c (map2 (fun P e => scalarmult E P e) G e) = msm (map2 Z.mul c e) G.
Proof.
  induction c as [|x c IH]; intros [|P G] [|u e] H N; try discriminate; cbn [map2 Bp_proof1.msm]; try reflexivity. inversion N; subst.
  rewrite IH by (assumption || (cbn in H; lia)). unfold scalarmult. rewrite (smul_zmul E L) by (match goal with H : scalar u |- _ => apply H end). lin E L.
Qed.
Lemma sub_scaled : forall G e, Forall sub G -> nn e -> Forall sub (map2 (fun P e => scalarmult E P e) G e).
Proof.
  induction G as [|P G IH]; intros [|u e] H N; constructor; inversion H; inversion N; subst; [|apply IH; assumption].
  unfold scalarmult. rewrite (smul_zmul E L) by (match goal with H : scalar u |- _ => apply H end). apply (sub_zmul E L); assumption.
Qed.
Lemma nn_map2 (f : Z -> Z -> Z) : (forall a b, scalar (f a b)) -> forall x y, nn (map2 f x y).
Proof. intros H. induction x as [|a x IH]; intros [|b y]; constructor; [apply H|apply IH]. Qed.
Lemma le_enc v : scalar v -> le_val 256 (enc_sc v) = v.
Proof. intros H. unfold enc_sc. rewrite le_val_digits by lia. apply Z.mod_small. destruct H. split; [assumption|]. eapply Z.lt_trans; [eassumption|reflexivity]. Qed.
Lemma reduced_enc v : scalar v -> is_reduced (enc_sc v) = true.
Proof. intros H. unfold is_reduced. rewrite le_enc by exact H. rewrite Z.mod_small by exact H. apply zlist_eqb_refl. Qed.
Definition zero_challenge : Prop := exists s, hash_to_scalar E s = 0.
Lemma loop_err x : forall r s e, prove_loop E r x s = Err e -> zero_challenge.
Proof.
  induction r as [|r IH]; intros s e H; cbn [prove_loop] in H; [discriminate|]. unfold loop_body in H. cbv zeta in H.
  match type of H with context [guard (negb (?b =? 0)) _] => destruct (b =? 0) eqn:B end; cbn [negb guard bind] in H; [|apply IH in H; exact H].
  apply Z.eqb_eq in B. eexists. exact B.
Qed.


Definition rand_ok (MN : nat) (rd : prand) : Prop :=
  scalar (r_alpha rd) /\ scalar (r_rho rd) /\ scalar (r_tau1 rd) /\ scalar (r_tau2 rd) /\
  length (r_sL rd) = MN /\ length (r_sR rd) = MN /\ Forall scalar (r_sL rd) /\ Forall scalar (r_sR rd).
Definition satisfied (p : bproof) (M k : Z) (d : dproof E) (ws : list Z) : Prop :=
  opens E p d /\ dsub E d /\ Z.of_nat (length (bp_L p)) = 6 + k /\ length (bp_R p) = length (bp_L p) /\
  ch_y E p <> 0 /\ ch_z E p <> 0 /\ ch_x E p <> 0 /\ ch_ip E p <> 0 /\
  round_challenges E (ch_ip E p) (combine (bp_L p) (bp_R p)) = Ok ws /\
  W1 E (Z.to_nat M) p d = 0' /\ W2 E gs (Z.to_nat M) p d ws = 0'.

Ltac gz H b := destruct (b =? 0) eqn:?; cbn [negb guard bind] in H; [discriminate H|].
Lemma prove_sat sv gamma rd p M k : bp_blocks (length sv) = Ok (M, k) -> (length sv <= Z.to_nat M)%nat ->
  Forall (fun v => 0 <= v < 2 ^ 64) sv -> Forall scalar gamma -> rand_ok (Z.to_nat M * BP_N) rd ->
  prove_batch E gs sv gamma rd = Ok p ->
  length sv = length gamma /\ length sv <> 0%nat /\ bp_check p = Ok tt /\
  bp_V p = map (encp E) (map2 (fun v g => zmul inv_eight (zmul g (Gb E) +' zmul v (Hb E))) sv gamma) /\
  exists d ws, satisfied p M k d ws.
Proof.
  intros EB HM HV HG (RA & RR & R1 & R2 & LsL & LsR & SsL & SsR) H. unfold prove_batch in H.
  destruct (Nat.eqb_spec (length sv) (length gamma)) as [Lg|]; cbn [guard bind] in H; [|discriminate].
  destruct (Nat.eqb_spec (length sv) 0) as [|L0]; cbn [negb guard bind] in H; [discriminate|].
  rewrite EB in H. cbn [bind] in H.
  destruct (bp_blocks_ok (length sv)) as (M' & k' & EB' & EM & Hk & _).
  rewrite EB in EB'. assert (M' = M /\ k' = k) as [-> ->] by (split; congruence). clear EB'.
  assert (HV' : Forall scalar sv). { eapply Forall_impl; [|exact HV]. intros v [V1 V2]. split; [exact V1|]. eapply Z.lt_trans; [exact V2|reflexivity]. }
  set (MN := (Z.to_nat M * BP_N)%nat) in *.
  assert (EMN : MN = Nat.pow 2 (Z.to_nat (k + 6))) by (unfold MN; rewrite EM, blocks_nat, (Z.add_comm 6) by lia; reflexivity).
  cbv zeta in H. rewrite V_enc in H by assumption.
  set (PV := map2 (fun v g => zmul inv_eight (zmul g (Gb E) +' zmul v (Hb E))) sv gamma) in *.
  set (I := seq 0 MN) in *. set (G := map (gG E gs) I) in *. set (Hs := map (gH E gs) I) in *.
  set (aL := map (e_xL (map enc_sc sv) true) I) in *. set (aR := map (e_xL (map enc_sc sv) false) I) in *.
  assert (LI : length I = MN) by apply seq_length.
  assert (LG : length G = MN) by (unfold G; rewrite map_length; exact LI). assert (LH : length Hs = MN) by (unfold Hs; rewrite map_length; exact LI).
  assert (LaL : length aL = MN) by (unfold aL; rewrite map_length; exact LI). assert (LaR : length aR = MN) by (unfold aR; rewrite map_length; exact LI).
  assert (SG : Forall sub G) by (apply sub_map; intros i; apply GS). assert (SH : Forall sub Hs) by (apply sub_map; intros i; apply GS).
  assert (NaL : nn aL) by (apply Forall_forall; intros v Hv; apply in_map_iff in Hv; destruct Hv as (i & <- & _); apply e_xL_val).
  assert (NaR : nn aR) by (apply Forall_forall; intros v Hv; apply in_map_iff in Hv; destruct Hv as (i & <- & _); apply e_xL_val).
  rewrite !vexp_msm in H by first [exact L|assumption|congruence].
  unfold point_add, scalarmult_base in H. rewrite !(smul_zmul E L (Gb E)) in H by (apply RA || apply RR). rewrite !(law_id E L), !inv8_enc in H.
  set (QA := msm aL G +' msm aR Hs +' zmul (r_alpha rd) (Gb E)) in *. set (QS := msm (r_sL rd) G +' msm (r_sR rd) Hs +' zmul (r_rho rd) (Gb E)) in *.
  assert (SQA : sub QA) by (repeat apply (sub_add E L); [apply (sub_msm E L); assumption..|apply (sub_zmul E L), (sub_G E L)]).
  assert (SQS : sub QS) by (repeat apply (sub_add E L); [apply (sub_msm E L); assumption..|apply (sub_zmul E L), (sub_G E L)]).
  set (y := mash E (hash_vct E (map (encp E) PV)) [encp E (zmul inv_eight QA); encp E (zmul inv_eight QS)]) in *.
  destruct (y =? 0) eqn:Y0; cbn [negb guard bind] in H; [discriminate H|]. apply Z.eqb_neq in Y0.
  set (z := hash_to_scalar E (enc_sc y)) in *.
  destruct (z =? 0) eqn:Z0; cbn [negb guard bind] in H; [discriminate H|]. apply Z.eqb_neq in Z0.
  set (l0 := map (fun a => sc_sub a z) aL) in *. set (r0 := keyr0 aR 0 1 (sc_mul z z) 1 y z) in *.
  set (r1 := map2 sc_mul (r_sR rd) (powers MN 1 y)) in *.
  assert (Ll0 : length l0 = MN) by (unfold l0; rewrite map_length; exact LaL). assert (Lr0 : length r0 = MN) by (unfold r0; rewrite keyr0_length; exact LaR).
  assert (Lr1 : length r1 = MN) by (unfold r1; rewrite map2_length, powers_length; lia).
  destruct (c_cross l0 r0 (r_sL rd) r1 MN 0 0) as [C1 C2]; try assumption. destruct (n_cross l0 r0 (r_sL rd) r1 0 0 scalar_0 scalar_0) as [N1 N2].
  destruct (cross_inner_product 0 0 l0 r0 (r_sL rd) r1) as [t1 t2]. cbn [fst snd] in C1, C2, N1, N2.
  rewrite !keys2 in H by assumption. rewrite !inv8_enc in H.
  set (QT1 := zmul (r_tau1 rd) (Gb E) +' zmul t1 (Hb E)) in *. set (QT2 := zmul (r_tau2 rd) (Gb E) +' zmul t2 (Hb E)) in *.
  assert (ST1 : sub QT1) by apply sub_keys. assert (ST2 : sub QT2) by apply sub_keys.
  set (x := mash E z [enc_sc z; encp E (zmul inv_eight QT1); encp E (zmul inv_eight QT2)]) in *.
  destruct (x =? 0) eqn:X0; cbn [negb guard bind] in H; [discriminate H|]. apply Z.eqb_neq in X0.
  set (lv := map2 (fun c a => sc_muladd x c a) (r_sL rd) l0) in *. set (rv := map2 (fun d b => sc_muladd x d b) r1 r0) in *.
  assert (Llv : length lv = MN) by (unfold lv; rewrite map2_length; lia). assert (Lrv : length rv = MN) by (unfold rv; rewrite map2_length; lia).
  set (t := inner_product 0 lv rv) in *. set (taux := taux_loop _ _ _ _) in *. set (mu := sc_muladd x (r_rho rd) (r_alpha rd)) in *.
  assert (St : scalar t) by (apply n_ip, scalar_0). assert (Stx : scalar taux) by (apply n_taux, n_muladd). assert (Smu : scalar mu) by apply n_muladd.
  set (xip := mash E x [enc_sc x; enc_sc taux; enc_sc mu; enc_sc t]) in *.
  destruct (xip =? 0) eqn:XI0; cbn [negb guard bind] in H; [discriminate H|]. apply Z.eqb_neq in XI0.
  assert (Sy : scalar y) by apply sc_rng. assert (Sxip : scalar xip) by apply sc_rng.
  set (yv := powers MN 1 (sc_inv y)) in *. assert (Nyv : nn yv) by (apply powers_nn, scalar_1). assert (Lyv : length yv = MN) by apply powers_length.
  apply bind_ok_inv in H. destruct H as (s' & HL & H).
  pose proof (loop_ok E L xip Sxip _ _ _ HL) as LO. cbn [s_a s_b s_G s_H s_hc s_L s_R] in LO. rewrite <- EMN in LO.
  assert (LHs : length (map2 (fun P e => scalarmult E P e) Hs yv) = MN) by (rewrite map2_length; lia).
  specialize (LO Llv Lrv LG LHs). destruct LO as (ws & PL & PR & a & b & Lw & LPL & LPR & EL & ER & SPL & SPR & Ea & Eb & Sca & Scb & Fw & RC & EQ).
  { apply nn_map2. intros; apply n_muladd. } { apply nn_map2. intros; apply n_muladd. } { exact SG. } { apply sub_scaled; assumption. }
  rewrite Ea, Eb in H. cbn [getn nth_error bind] in H. cbn [app] in EL, ER. rewrite EL, ER in H.
  assert (p = {| bp_V := map (encp E) PV; bp_A := encp E (zmul inv_eight QA); bp_S := encp E (zmul inv_eight QS);
    bp_T1 := encp E (zmul inv_eight QT1); bp_T2 := encp E (zmul inv_eight QT2); bp_taux := enc_sc taux; bp_mu := enc_sc mu;
    bp_L := map (encp E) PL; bp_R := map (encp E) PR; bp_a := enc_sc a; bp_b := enc_sc b; bp_t := enc_sc t |}) as -> by (unfold getn in H; cbn [nth_error bind] in H; congruence).
  clear H HL. split; [exact Lg|]. split; [exact L0|].
  assert (LPV : length PV = length sv) by (unfold PV; rewrite map2_length; lia).
  split.
  { unfold bp_check. cbn [bp_taux bp_mu bp_a bp_b bp_t bp_V bp_L bp_R]. rewrite !reduced_enc by assumption. cbn [guard bind]. rewrite !map_length, LPL, LPR, LPV, Nat.eqb_refl.
    rewrite (proj2 (Nat.eqb_neq _ _) L0). cbn [negb guard bind]. destruct (Nat.eqb_spec (Z.to_nat (k + 6)) 0); [lia|reflexivity]. }
  split; [reflexivity|].
  exists {| dV := PV; dA := zmul inv_eight QA; dS := zmul inv_eight QS; dT1 := zmul inv_eight QT1; dT2 := zmul inv_eight QT2; dL := PL; dR := PR |}, ws.
  unfold satisfied, opens, dsub, ch_ip, ch_x, ch_z, ch_y. cbn [bp_V bp_A bp_S bp_T1 bp_T2 bp_taux bp_mu bp_L bp_R bp_a bp_b bp_t dV dA dS dT1 dT2 dL dR].
  fold y. fold z. fold x. fold xip.
  split; [repeat split; try apply dec_map; apply dec_enc|]. split; [split; [apply V_sub|]; do 4 (split; [apply (sub_zmul E L); assumption|]); split; assumption|].
  split; [rewrite map_length; lia|]. split; [rewrite !map_length; congruence|]. split; [exact Y0|]. split; [exact Z0|]. split; [exact X0|]. split; [exact XI0|]. split; [exact RC|].
  (* by index *)
  assert (Ib : forall i, In i I -> (i < MN)%nat) by (intros i Hi; apply in_seq in Hi; lia).
  assert (I_aL : forall i, In i I -> nth i aL 0 = abit sv i). { intros i Hi. unfold aL, I. rewrite map_seq_nth by (apply Ib, Hi). apply e_xL_val. }
  assert (I_aR : forall i, In i I -> nth i aR 0 == abit sv i - 1). { intros i Hi. unfold aR, I. rewrite map_seq_nth by (apply Ib, Hi). apply e_xL_val. }
  assert (I_l0 : forall i, In i I -> nth i l0 0 == abit sv i - z). { intros i Hi. unfold l0. rewrite (map_nth' _ 0 0) by (rewrite LaL; apply Ib, Hi). rewrite c_sub, I_aL by exact Hi. reflexivity. }
  assert (I_r0 : forall i, In i I -> nth i r0 0 == zz z i + (abit sv i - 1 + z) * y ^ Z.of_nat i).
  { intros i Hi. unfold r0. rewrite keyr0_nth; [|rewrite LaR; apply Ib, Hi|reflexivity| |reflexivity].
    - cbn [Nat.add]. rewrite I_aR by exact Hi. reflexivity.
    - rewrite c_mul. apply cg_eq. change (Z.of_nat (2 + 0 / BP_N)) with 2. ring. }
  assert (I_r1 : forall i, In i I -> nth i r1 0 == nth i (r_sR rd) 0 * y ^ Z.of_nat i).
  { intros i Hi. unfold r1. rewrite (map2_nth _ 0 0) by (rewrite ?powers_length, ?LsR; apply Ib, Hi). rewrite c_mul, powers_nth by (apply Ib, Hi). apply cg_eq. ring. }
  assert (I_lv : forall i, In i I -> nth i lv 0 == nth i l0 0 + x * nth i (r_sL rd) 0).
  { intros i Hi. unfold lv. rewrite (map2_nth _ 0 0) by (rewrite ?LsL, ?Ll0; apply Ib, Hi). rewrite c_muladd. reflexivity. }
  assert (I_rv : forall i, In i I -> nth i rv 0 == nth i r0 0 + x * nth i r1 0).
  { intros i Hi. unfold rv. rewrite (map2_nth _ 0 0) by (rewrite ?Lr1, ?Lr0; apply Ib, Hi). rewrite c_muladd. reflexivity. }
  assert (I_yv : forall i, In i I -> nth i yv 0 == sc_inv y ^ Z.of_nat i).
  { intros i Hi. unfold yv. rewrite powers_nth by (apply Ib, Hi). apply cg_eq. ring. }
  assert (Ct : t == ip lv rv) by (unfold t; rewrite c_ip; reflexivity).
  split.
  - (* W1 *)
    assert (CT : t == (z - z * z) * Zs MN (fun i => y ^ Z.of_nat i) + Zs (length sv) (fun j => z ^ Z.of_nat (2 + j) * nth j sv 0) - z * Zs (Z.to_nat M) (fun j => z ^ Z.of_nat (2 + j) * (2 ^ 64 - 1)) + x * t1 + x * x * t2).
    { unfold MN. rewrite <- (t0_eq y z (Z.to_nat M) sv HM HV). fold MN. rewrite Ct, C1, C2.
      rewrite !(ip_Zs _ _ MN) by assumption. 
      rewrite (Zs_ext MN (fun i => nth i lv 0 * nth i rv 0) (fun i => nth i l0 0 * nth i r0 0 + (x * (nth i l0 0 * nth i r1 0 + nth i (r_sL rd) 0 * nth i r0 0) + x * x * (nth i (r_sL rd) 0 * nth i r1 0)))).
      - rewrite !Zs_add, !Zs_mul, !Zs_add.
        rewrite (Zs_ext MN (fun i => nth i l0 0 * nth i r0 0) (fun i => (abit sv i - z) * (zz z i + (abit sv i - 1 + z) * y ^ Z.of_nat i))); [apply cg_eq; ring|].
        intros i Hi. assert (Hi' : In i I) by (apply in_seq; lia). rewrite I_l0, I_r0 by exact Hi'. reflexivity.
      - intros i Hi. assert (Hi' : In i I) by (apply in_seq; lia). rewrite I_lv, I_rv by exact Hi'. apply cg_eq. ring. }
    assert (CX : taux == r_tau2 rd * (x * x) + r_tau1 rd * x + Zs (length sv) (fun j => z ^ Z.of_nat (2 + j) * nth j gamma 0)).
    { unfold taux. rewrite c_taux, c_muladd, !c_mul, <- Lg. rewrite (Zs_ext _ (fun j => sc_mul z z * z ^ Z.of_nat j * nth j gamma 0) (fun j => z ^ Z.of_nat (2 + j) * nth j gamma 0)); [apply cg_eq; ring|].
      intros j _. change (2 + j)%nat with (S (S j)). rewrite c_mul, (pow_S z (S j)), (pow_S z j). apply cg_eq. ring. }
    unfold W1, ch_x, ch_z, ch_y. cbv zeta. cbn [bp_V bp_A bp_S bp_T1 bp_T2 bp_taux bp_mu bp_L bp_R bp_a bp_b bp_t dV dA dS dT1 dT2 dL dR].
    fold y. fold z. fold x. rewrite !le_enc by assumption. rewrite <- (map_map (fun j => z ^ Z.of_nat (2 + j)) (Z.mul 8)). unfold PV at 2. rewrite commit_sum by exact Lg. rewrite LPV.
    rewrite !(ip_Zs _ _ (length sv)) by (rewrite ?map_length, ?seq_length; congruence).
    rewrite !(Z.mul_comm 8), !(zmul_mul E L _ 8), !eight by assumption. unfold QT1, QT2.
    assert (Ds : delta (Z.to_nat M) y z = (z - z * z) * Zs MN (fun i => y ^ Z.of_nat i) - z * Zs (Z.to_nat M) (fun j => z ^ Z.of_nat (2 + j) * (2 ^ 64 - 1))).
    { unfold delta. fold MN. f_equal. rewrite <- Zs_mul. apply Zs_exteq. intros j _. change (3 + j)%nat with (S (2 + j)). rewrite (pow_S z (2 + j)). ring. }
    rewrite Ds. 
    transitivity (zmul (Zs (length sv) (fun i => nth i (map (fun j => z ^ Z.of_nat (2 + j)) (seq 0 (length sv))) 0 * nth i gamma 0) + x * r_tau1 rd + x * x * r_tau2 rd - taux) (Gb E) +'
      zmul (Zs (length sv) (fun i => nth i (map (fun j => z ^ Z.of_nat (2 + j)) (seq 0 (length sv))) 0 * nth i sv 0) + x * t1 + x * x * t2 + ((z - z * z) * Zs MN (fun i => y ^ Z.of_nat i) - z * Zs (Z.to_nat M) (fun j => z ^ Z.of_nat (2 + j) * (2 ^ 64 - 1)) - t)) (Hb E)); [lin E L|].
    rewrite (zc E L _ 0 (Gb E) (sub_G E L)), (zc E L _ 0 (Hb E) (sub_H E L)); [rewrite !(zmul_0 E); apply (law_id E L)| |].
    + rewrite CT. rewrite (Zs_exteq _ (fun i => nth i (map (fun j => z ^ Z.of_nat (2 + j)) (seq 0 (length sv))) 0 * nth i sv 0) (fun j => z ^ Z.of_nat (2 + j) * nth j sv 0)) by (intros i Hi; rewrite (map_seq_nth (fun j => z ^ Z.of_nat (2 + j))) by exact Hi; reflexivity). apply cg_eq. ring.
    + rewrite CX. rewrite (Zs_exteq _ (fun i => nth i (map (fun j => z ^ Z.of_nat (2 + j)) (seq 0 (length sv))) 0 * nth i gamma 0) (fun j => z ^ Z.of_nat (2 + j) * nth j gamma 0)) by (intros i Hi; rewrite (map_seq_nth (fun j => z ^ Z.of_nat (2 + j))) by exact Hi; reflexivity). apply cg_eq. ring.
  - (* W2 *)
    assert (YI : forall i, y ^ Z.of_nat i * sc_inv y ^ Z.of_nat i == 1).
    { assert (Y1 : y * sc_inv y == 1) by (apply c_inv; rewrite Z.mod_small by exact Sy; exact Y0).
      induction i as [|i IHi]; [reflexivity|]. rewrite !pow_S. transitivity (y * sc_inv y * (y ^ Z.of_nat i * sc_inv y ^ Z.of_nat i)); [apply cg_eq; ring|]. rewrite Y1, IHi. reflexivity. }
    set (q := fun i => (z * y ^ Z.of_nat i + zz z i) * sc_inv y ^ Z.of_nat i).
    assert (LcG : length (cG ws) = MN) by (rewrite cG_length, Lw; congruence). assert (LcH : length (cH ws) = MN) by (rewrite cH_length, Lw; congruence).
    assert (SCL : forall c, length c = MN -> msm c (map2 (fun P e => scalarmult E P e) Hs yv) = msm (map (fun i => nth i c 0 * sc_inv y ^ Z.of_nat i) I) Hs).
    { intros c Lc. rewrite msm_scaled by (congruence || assumption). rewrite (list_map 0 (map2 Z.mul c yv) MN) by (rewrite map2_length; lia). fold I. apply (msm_ext E L); [|exact SH].
      intros i Hi. rewrite (map2_nth _ 0 0) by (rewrite ?Lc, ?Lyv; apply Ib, Hi). rewrite I_yv by exact Hi. reflexivity. }
    assert (H1 : msm (map (gcoef ws a z) I) G = zmul a (msm (cG ws) G) +' zmul z (msm (map (fun _ => 1) I) G)).
    { unfold gcoef. transitivity (zmul a (msm (map (fun i => nth i (cG ws) 0) I) G) +' zmul z (msm (map (fun _ => 1) I) G)); [|unfold I at 1; rewrite <- (list_map 0 (cG ws) MN LcG); reflexivity]. rewrite <- !(msm_mul E L), <- (msm_add E L). apply (msm_ext E L); [|exact SG]. intros i _. apply cg_eq. ring. }
    assert (H2 : msm (map (hcoef ws b y z) I) Hs = zmul b (msm (cH ws) (map2 (fun P e => scalarmult E P e) Hs yv)) +' zmul (-1) (msm (map q I) Hs)).
    { rewrite SCL by exact LcH. rewrite <- !(msm_mul E L), <- (msm_add E L). apply (msm_ext E L); [|exact SH]. intros i _. unfold hcoef, q, zz. apply cg_eq. ring. }
    assert (H3 : msm rv (map2 (fun P e => scalarmult E P e) Hs yv) = msm aR Hs +' (zmul x (msm (r_sR rd) Hs) +' msm (map q I) Hs)).
    { rewrite SCL by exact Lrv. rewrite (list_map 0 aR MN LaR), (list_map 0 (r_sR rd) MN LsR). fold I. rewrite <- !(msm_mul E L), <- !(msm_add E L). apply (msm_ext E L); [|exact SH]. intros i Hi.
      rewrite I_rv, I_r0, I_r1, I_aR by exact Hi. unfold q.
      transitivity ((abit sv i - 1) * (y ^ Z.of_nat i * sc_inv y ^ Z.of_nat i) + (x * nth i (r_sR rd) 0 * (y ^ Z.of_nat i * sc_inv y ^ Z.of_nat i) + (z * y ^ Z.of_nat i + zz z i) * sc_inv y ^ Z.of_nat i)); [apply cg_eq; ring|].
      rewrite YI. apply cg_eq. ring. }
    assert (H4 : msm lv G = msm aL G +' (zmul x (msm (r_sL rd) G) +' zmul (- z) (msm (map (fun _ => 1) I) G))).
    { rewrite (list_map 0 lv MN Llv), (list_map 0 aL MN LaL), (list_map 0 (r_sL rd) MN LsL). fold I. rewrite <- !(msm_mul E L), <- !(msm_add E L). apply (msm_ext E L); [|exact SG]. intros i Hi.
      rewrite I_lv, I_l0, I_aL by exact Hi. apply cg_eq. ring. }
    unfold W2, ch_ip, ch_x, ch_z, ch_y. cbv zeta. cbn [bp_V bp_A bp_S bp_T1 bp_T2 bp_taux bp_mu bp_L bp_R bp_a bp_b bp_t dV dA dS dT1 dT2 dL dR].
    fold y. fold z. fold x. fold xip. rewrite !le_enc by assumption. fold MN. fold I. fold G. fold Hs.
    rewrite H1, H2. rewrite (Z.mul_comm 8), (zmul_mul E L _ 8), !eight by assumption.
    rewrite H3, H4 in EQ.
    rewrite (zc E L (- mu) (- (x * r_rho rd + r_alpha rd)) (Gb E) (sub_G E L)) by (unfold mu; rewrite c_muladd; apply cg_eq; ring).
    rewrite (zc E L (xip * (t - a * b)) (ip lv rv * xip - a * b * xip) (Ec_model.Hb E) (sub_H E L)) by (rewrite Ct; apply cg_eq; ring).
    unfold QA, QS.
    apply (cancel_l E L (zmul a (msm (cG ws) G) +' (zmul b (msm (cH ws) (map2 (fun P e => scalarmult E P e) Hs yv)) +' zmul (a * b * xip) (Ec_model.Hb E)))).
    rewrite (id_r E L). rewrite <- EQ at 2. lin E L.
Qed.
Lemma prove_total sv gamma rd M k : bp_blocks (length sv) = Ok (M, k) -> Forall (fun v => 0 <= v < 2 ^ 64) sv -> Forall scalar gamma -> rand_ok (Z.to_nat M * BP_N) rd ->
  length sv = length gamma -> length sv <> 0%nat -> 
  match prove_batch E gs sv gamma rd with Ok _ => True | Err _ => zero_challenge end.
Proof.
  intros EB HV HG (RA & RR & R1 & R2 & LsL & LsR & SsL & SsR) Lg L0. unfold prove_batch. rewrite (proj2 (Nat.eqb_eq _ _) Lg), (proj2 (Nat.eqb_neq _ _) L0). cbn [negb guard bind].
  rewrite EB. cbn [bind]. cbv zeta. 
  destruct (bp_blocks_ok (length sv)) as (M' & k' & EB' & EM & Hk & _).
  rewrite EB in EB'. assert (M' = M /\ k' = k) as [-> ->] by (split; congruence). clear EB'.
  set (MN := (Z.to_nat M * BP_N)%nat) in *.
  assert (EMN : MN = Nat.pow 2 (Z.to_nat (k + 6))) by (unfold MN; rewrite EM, blocks_nat, (Z.add_comm 6) by lia; reflexivity).
  match goal with |- context [guard (negb (?b =? 0)) _] => destruct (b =? 0) eqn:B; cbn [negb guard bind]; [apply Z.eqb_eq in B; eexists; exact B|clear B] end.
  match goal with |- context [guard (negb (?b =? 0)) _] => destruct (b =? 0) eqn:B; cbn [negb guard bind]; [apply Z.eqb_eq in B; eexists; exact B|clear B] end.
  match goal with |- context [cross_inner_product ?a ?b ?c ?d ?e ?f] => destruct (cross_inner_product a b c d e f) as [t1 t2] end.
  match goal with |- context [guard (negb (?b =? 0)) _] => destruct (b =? 0) eqn:B; cbn [negb guard bind]; [apply Z.eqb_eq in B; eexists; exact B|clear B] end.
  match goal with |- context [guard (negb (?b =? 0)) _] => destruct (b =? 0) eqn:B; cbn [negb guard bind]; [apply Z.eqb_eq in B; eexists; exact B|clear B] end.
  match goal with |- context [prove_loop E ?r ?x ?s] => destruct (prove_loop E r x s) as [s'|e] eqn:PL; cbn [bind]; [|exact (loop_err _ _ _ _ PL)];
    pose proof (loop_ok E L x ltac:(apply sc_rng) r s s' PL) as LO end.
  cbn [s_a s_b s_G s_H s_hc s_L s_R] in LO. rewrite <- EMN in LO.
  destruct LO as (ws & PL' & PR & a & b & Lw & LPL & LPR & EL & ER & SPL & SPR & Ea & Eb & _).
  - rewrite map2_length, !map_length, seq_length, LsL. apply Nat.min_id.
  - rewrite !map2_length, keyr0_length, map_length, seq_length, powers_length, LsR. rewrite !Nat.min_id. reflexivity.
  - rewrite map_length. apply seq_length.
  - rewrite map2_length, map_length, seq_length, powers_length. apply Nat.min_id.
  - apply nn_map2. intros; apply n_muladd.
  - apply nn_map2. intros; apply n_muladd.
  - apply sub_map. intros i. apply GS.
  - apply sub_scaled; [apply sub_map; intros i; apply GS|apply powers_nn, scalar_1].
  - rewrite Ea, Eb. exact I.
Qed.
End Compl.
