(** Bulletproofs: the contribution of one proof in terms of the two verification equations. *)
From Verif Require Import Py PyLemmas Digits Ints_model Ints_proof2 Ec_model Ec_spec Ec_proof Mlsag_model Bp_model Bp_proof1 Bp_proof2 Bp_proof3 Bp_proof4 Bp_spec.
From Coq Require Import Setoid Morphisms.
Ltac Zify.zify_post_hook ::= idtac.

Section Eqn.
Context (E : ecops) (L : ec_laws E) (gs : gens E) (GS : gens_ok E gs).
Local Notation "A +' B" := (padd E A B) (at level 50, left associativity).
Local Notation "0'" := (pid E).
Local Notation zmul := (zmul E).
Local Notation sub := (sub E).
Local Notation msm := (msm E).

Lemma msm_cg : forall a a' G, Forall2 cg a a' -> Forall sub G -> msm a G = msm a' G.
Proof.
  intros a a' G H. revert G. induction H as [|x x' a a' Hx H IH]; intros [|P G] S; cbn [Bp_proof1.msm]; try reflexivity. inversion S; subst.
  rewrite IH by assumption. f_equal. apply (zc E L); assumption.
Qed.
Lemma map_cg {A} (f g : A -> Z) I : (forall i, In i I -> f i == g i) -> Forall2 cg (map f I) (map g I).
Proof. induction I as [|i I IH]; intros H; constructor; [apply H; left; reflexivity|apply IH; intros j Hj; apply H; right; exact Hj]. Qed.
Lemma msm_ext {A} (f g : A -> Z) I G : (forall i, In i I -> f i == g i) -> Forall sub G -> msm (map f I) G = msm (map g I) G.
Proof. intros H S. apply msm_cg; [apply map_cg, H|exact S]. Qed.
Lemma msm_add {A} (f g : A -> Z) : forall I G, msm (map (fun i => f i + g i) I) G = msm (map f I) G +' msm (map g I) G.
Proof. induction I as [|i I IH]; intros [|P G]; cbn [map Bp_proof1.msm]; [rewrite (law_id E L); reflexivity..|]. rewrite IH. lin E L. Qed.
Lemma msm_mul {A} c (f : A -> Z) : forall I G, msm (map (fun i => c * f i) I) G = zmul c (msm (map f I) G).
Proof. induction I as [|i I IH]; intros [|P G]; cbn [map Bp_proof1.msm]; [rewrite (zmul_id E L); reflexivity..|]. rewrite IH. lin E L. Qed.
Lemma msm_zero {A} (f : A -> Z) : forall I G, (forall i, In i I -> f i == 0) -> Forall sub G -> msm (map f I) G = 0'.
Proof.
  intros I G H S. rewrite (msm_ext f (fun i => 0 * 0) I G) by first [assumption|intros i Hi; rewrite H by exact Hi; reflexivity]. rewrite msm_mul. apply (zmul_0 E).
Qed.
Lemma sub_map (g : nat -> pt E) I : (forall i, sub (g i)) -> Forall sub (map g I).
Proof. intros H. apply Forall_forall. intros P HP. apply in_map_iff in HP. destruct HP as (i & <- & _). apply H. Qed.

Lemma multiexp_val : forall data Ps acc, Forall2 (dec E) (map snd data) Ps -> Forall (fun d => 0 <= fst d) data ->
  multiexp E acc data = Ok (acc +' msm (map fst data) Ps).
Proof.
  induction data as [|[s k] data IH]; intros Ps acc H N; inversion H as [|? P ? Ps' HD HF]; inversion N as [|? ? N1 N2]; subst; cbn [multiexp map Bp_proof1.msm].
  - rewrite (id_r E L). reflexivity.
  - cbn [snd fst] in *. unfold dec in HD. rewrite HD. cbn [bind]. rewrite (IH Ps') by assumption. unfold point_add, scalarmult. rewrite (smul_zmul E L) by exact N1. rewrite (law_assoc E L). reflexivity.
Qed.
Definition lr_data (wz : Z) (ws : list Z) (LR : list (list Z * list Z)) : list (Z * list Z) :=
  concat (map2 (fun w (LR : list Z * list Z) => [(sc_mul (sc_mul w w) (sc_mul wz 8), fst LR); (sc_mul (sc_mul (sc_inv w) (sc_inv w)) (sc_mul wz 8), snd LR)]) ws LR).
Lemma rounds_sum wz : forall ws LR PL PR, Forall2 (dec E) (map fst LR) PL -> Forall2 (dec E) (map snd LR) PR -> length ws = length LR ->
  Forall sub PL -> Forall sub PR ->
  exists Ps, Forall2 (dec E) (map snd (lr_data wz ws LR)) Ps /\ Forall (fun d : Z * list Z => 0 <= fst d) (lr_data wz ws LR) /\
    msm (map fst (lr_data wz ws LR)) Ps = zmul wz (lrs E ws PL PR).
Proof.
  unfold lr_data. induction ws as [|w ws IH]; intros [|[kl kr] LR] PL PR HL HR Ln SL SR; try discriminate.
  - inversion HL; inversion HR; subst. exists []. cbn. rewrite !(zmul_id E L). repeat split; constructor.
  - inversion HL as [|? P ? PL' D1 F1]; inversion HR as [|? Q ? PR' D2 F2]; subst. inversion SL; inversion SR; subst.
    destruct (IH LR PL' PR') as (Ps & I1 & I2 & I3); try assumption; [cbn in Ln; lia|].
    exists (P :: Q :: Ps). cbn [map2 concat app map fst snd Bp_proof1.msm lrs]. split; [repeat constructor; assumption|].
    split; [repeat (constructor; [apply n_mul|]); exact I2|].
    rewrite I3.
    rewrite (zc E L (sc_mul (sc_mul w w) (sc_mul wz 8)) (w * w * (wz * 8))) by (assumption || (rewrite !c_mul; reflexivity)).
    rewrite (zc E L (sc_mul (sc_mul (sc_inv w) (sc_inv w)) (sc_mul wz 8)) (sc_inv w * sc_inv w * (wz * 8))) by (assumption || (rewrite !c_mul; reflexivity)). lin E L.
Qed.
Lemma combine_fst {A B} : forall (u : list A) (v : list B), length u = length v -> map fst (combine u v) = u.
Proof. induction u as [|a u IH]; intros [|b v] H; try discriminate; [reflexivity|]. cbn [combine map fst]. rewrite IH by (cbn in H; lia). reflexivity. Qed.
Lemma combine_snd {A B} : forall (u : list A) (v : list B), length u = length v -> map snd (combine u v) = v.
Proof. induction u as [|a u IH]; intros [|b v] H; try discriminate; [reflexivity|]. cbn [combine map snd]. rewrite IH by (cbn in H; lia). reflexivity. Qed.
Lemma F2_length {A B} (R : A -> B -> Prop) u v : Forall2 R u v -> length u = length v.
Proof. induction 1; cbn; congruence. Qed.
Lemma gsum_msm : forall zs i, gsum E gs i zs = msm (map fst zs) (map (gG E gs) (seq i (length zs))) +' msm (map snd zs) (map (gH E gs) (seq i (length zs))).
Proof.
  induction zs as [|[g h] zs IH]; intros i; cbn [gsum map length seq Bp_proof1.msm]; [rewrite (law_id E L); reflexivity|]. rewrite IH. cbn [fst snd]. lin E L.
Qed.
Lemma list_map {A} (d : A) : forall v n, length v = n -> v = map (fun i => nth i v d) (seq 0 n).
Proof.
  intros v n <-. induction v as [|x v IH]; [reflexivity|]. cbn [length seq map]. f_equal. rewrite <- seq_shift, map_map. exact IH.
Qed.
Lemma mapM_ok {A B} (f : A -> res B) g : forall I, (forall i, In i I -> f i = Ok (g i)) -> mapM f I = Ok (map g I).
Proof. induction I as [|i I IH]; intros H; [reflexivity|]. cbn [mapM map]. rewrite H by (left; reflexivity). cbn [bind]. rewrite IH by (intros j Hj; apply H; right; exact Hj). reflexivity. Qed.
Lemma getn_nth (v : list Z) i : (i < length v)%nat -> getn v i = Ok (nth i v 0).
Proof. intros H. unfold getn. rewrite (nth_error_nth' v 0 H). reflexivity. Qed.

Lemma rc_length : forall LR hc ws, round_challenges E hc LR = Ok ws -> length ws = length LR.
Proof.
  induction LR as [|[a b] LR IH]; intros hc ws H; cbn [round_challenges] in H; [inversion H; reflexivity|]. cbv zeta in H.
  destruct (negb _); cbn [guard bind] in H; [|discriminate]. apply bind_ok_inv in H. destruct H as (ws' & H1 & H2).
  assert (ws = mash E hc [a; b] :: ws') as -> by congruence. cbn [length]. rewrite (IH _ _ H1). reflexivity.
Qed.

Theorem contrib_eq p d ws wy wz M k : opens E p d -> dsub E d -> bp_blocks (length (bp_V p)) = Ok (M, k) -> (length (bp_V p) <= Z.to_nat M)%nat ->
  Z.of_nat (length (bp_L p)) = 6 + k -> length (bp_R p) = length (bp_L p) ->
  ch_y E p <> 0 -> ch_z E p <> 0 -> ch_x E p <> 0 -> ch_ip E p <> 0 ->
  round_challenges E (ch_ip E p) (combine (bp_L p) (bp_R p)) = Ok ws ->
  contrib E gs (p, (wy, wz)) = Ok (zmul wy (W1 E (Z.to_nat M) p d) +' zmul wz (W2 E gs (Z.to_nat M) p d ws)).
Proof.
  intros (OV & OA & OS & OT1 & OT2 & OL & OR) (SV & SA & SS & ST1 & ST2 & SL & SR) EB HV HL HR Hy Hz Hx Hip RC.
  unfold contrib, verify_step. destruct (bp_blocks_ok (length (bp_V p))) as (M' & k' & EB' & EM & Hk & _).
  rewrite EB in EB'. assert (M' = M /\ k' = k) as [-> ->] by (split; congruence). clear EB'.
  rewrite EB. cbn [bind]. rewrite (proj2 (Z.eqb_eq _ _) HL). cbn [guard bind]. cbv zeta.
  fold (ch_y E p). fold (ch_z E p). fold (ch_x E p). fold (ch_ip E p).
  assert (EMN : (Z.to_nat M * BP_N)%nat = Nat.pow 2 (length (bp_L p))).
  { rewrite EM, blocks_nat by lia. rewrite <- HL, Nat2Z.id. reflexivity. }
  assert (Lws : length ws = length (bp_L p)) by (rewrite (rc_length _ _ _ RC), combine_length, HR; apply Nat.min_id).
  assert (MP : (1 <= Z.to_nat M)%nat) by (pose proof (Z.pow_pos_nonneg 2 k ltac:(lia) ltac:(lia)); lia).
  rewrite (proj2 (Z.eqb_neq _ _) Hy), (proj2 (Z.eqb_neq _ _) Hz), (proj2 (Z.eqb_neq _ _) Hx), (proj2 (Z.eqb_neq _ _) Hip). cbn [negb guard bind].
  rewrite (mapM_ok _ (fun j => sc_mul (nth (j + 2) (powers (Z.to_nat M + 3) 1 (ch_z E p)) 0) (sc_mul wy 8)))
    by (intros j Hj; apply in_seq in Hj; rewrite getn_nth by (rewrite powers_length; lia); reflexivity). cbn [bind].
  set (y := ch_y E p) in *. set (z := ch_z E p) in *. set (x := ch_x E p) in *. set (xip := ch_ip E p) in *.
  set (zV := map _ (seq 0 (length (bp_V p)))).
  assert (LzV : length zV = length (bp_V p)) by (unfold zV; rewrite map_length, seq_length; reflexivity).
  assert (LdV : length (dV E d) = length (bp_V p)) by (symmetry; apply (F2_length _ _ _ OV)).
  rewrite (multiexp_val _ (dV E d ++ [dT1 E d; dT2 E d; dA E d; dS E d])).
  2: { rewrite map_app. apply Forall2_app; [|cbn [map snd]; repeat constructor; assumption]. rewrite combine_snd by exact LzV. exact OV. }
  2: { apply Forall_app. split.
       - apply Forall_forall. intros [s kk] Hs. apply in_combine_l in Hs. unfold zV in Hs. apply in_map_iff in Hs. destruct Hs as (j & <- & _). apply n_mul.
       - repeat constructor; cbn [fst]; apply n_mul. }
  cbn [bind]. rewrite RC. cbn [bind].
  fold (lr_data wz ws (combine (bp_L p) (bp_R p))).
  destruct (rounds_sum wz ws (combine (bp_L p) (bp_R p)) (dL E d) (dR E d)) as (Ps & R1 & R2 & R3).
  { rewrite combine_fst by congruence. exact OL. }
  { rewrite combine_snd by congruence. exact OR. }
  { rewrite combine_length, HR, Nat.min_id. exact Lws. }
  { exact SL. } { exact SR. }
  rewrite (multiexp_val _ Ps _ R1 R2), R3.
  cbn [bind]. unfold val, st0. cbn [v_acc v_z1 v_z3 v_y0 v_y1 v_zs gsum]. f_equal. rewrite (sub_gens_val E L gs GS). unfold point_add.
  rewrite map_app, combine_fst by exact LzV. rewrite (msm_app E L) by congruence. cbn [map fst Bp_proof1.msm].
  assert (EV : msm zV (dV E d) = zmul wy (msm (map (fun j => 8 * z ^ Z.of_nat (2 + j)) (seq 0 (length (dV E d)))) (dV E d))).
  { rewrite <- msm_mul. unfold zV. rewrite LdV. apply msm_ext; [|exact SV]. intros j Hj. apply in_seq in Hj. rewrite !c_mul, powers_nth by lia.
    replace (j + 2)%nat with (2 + j)%nat by lia. apply cg_eq. ring. }
  rewrite EV. rewrite gsum_msm, gh_length. set (gh := gh_scalars _ _ _ _ _ _ _ _ _ _ _).
  assert (Lgh : length gh = (Z.to_nat M * BP_N)%nat) by apply gh_length.
  set (a := le_val 256 (bp_a p)) in *. set (b := le_val 256 (bp_b p)) in *. set (I := seq 0 (Z.to_nat M * BP_N)).
  assert (RNG : forall i, In i I -> (i < Z.to_nat M * BP_N)%nat /\ (2 + i / BP_N < Z.to_nat M + 3)%nat).
  { intros i Hi. apply in_seq in Hi. split; [lia|]. assert (i / BP_N < Z.to_nat M)%nat by (apply Nat.div_lt_upper_bound; [discriminate|rewrite Nat.mul_comm; lia]). lia. }
  assert (EG : msm (map fst gh) (map (gG E gs) I) = msm (map (gcoef ws a z) I) (map (gG E gs) I)).
  { rewrite (list_map (0, 0) gh _ Lgh), map_map. apply msm_ext; [|apply sub_map; intros i; apply GS]. intros i Hi. destruct (RNG i Hi) as [R R'].
    destruct (gh_nth ws (Z.to_nat M + 3) a b z y (sc_inv y) (Z.to_nat M * BP_N) i 0 1 1) as [G1 _]; [exact R|rewrite Lws, EMN; cbn; lia|exact R'|reflexivity|reflexivity|].
    exact G1. }
  assert (EH : msm (map snd gh) (map (gH E gs) I) = msm (map (hcoef ws b y z) I) (map (gH E gs) I)).
  { rewrite (list_map (0, 0) gh _ Lgh), map_map. apply msm_ext; [|apply sub_map; intros i; apply GS]. intros i Hi. destruct (RNG i Hi) as [R R'].
    destruct (gh_nth ws (Z.to_nat M + 3) a b z y (sc_inv y) (Z.to_nat M * BP_N) i 0 1 1) as [_ G1]; [exact R|rewrite Lws, EMN; cbn; lia|exact R'|reflexivity|reflexivity|].
    fold gh in G1. rewrite G1. unfold hcoef, zz. cbn [Nat.add]. apply cg_eq. ring. }
  rewrite EG, EH. unfold W1, W2. cbv zeta. fold y z x xip a b I.
  set (T := le_val 256 (bp_t p)). set (TX := le_val 256 (bp_taux p)). set (MU := le_val 256 (bp_mu p)).
  rewrite (zc E L (sc_mul x (sc_mul wy 8)) (wy * (8 * x)) (dT1 E d) ST1) by (rewrite !c_mul; apply cg_eq; ring).
  rewrite (zc E L (sc_mul (sc_mul x x) (sc_mul wy 8)) (wy * (8 * (x * x))) (dT2 E d) ST2) by (rewrite !c_mul; apply cg_eq; ring).
  rewrite (zc E L (sc_mul wz 8) (wz * 8) (dA E d) SA) by (rewrite !c_mul; apply cg_eq; ring).
  rewrite (zc E L (sc_mul x (sc_mul wz 8)) (wz * (8 * x)) (dS E d) SS) by (rewrite !c_mul; apply cg_eq; ring).
  rewrite (zc E L (sc_mulsub TX wy 0 - sc_muladd MU wz 0) (wy * - TX + wz * - MU) (Gb E) (sub_G E L)) by (rewrite c_mulsub, c_muladd; apply cg_eq; ring).
  match goal with |- context [zmul (sc_muladd ?u wz 0 - sc_muladd ?v wy 0) (Hb E)] =>
    rewrite (zc E L (sc_muladd u wz 0 - sc_muladd v wy 0) (wz * (xip * (T - a * b)) + wy * (delta (Z.to_nat M) y z - T)) (Hb E) (sub_H E L)) end.
  2: { rewrite !c_muladd, c_mul, c_mulsub, c_sub, c_muladd, c_kloop by lia. rewrite c_mulsub, powers_nth by lia.
       rewrite c_power_sum by (change BP_N with 64%nat; lia). unfold delta.
       rewrite (Zs_exteq (Z.to_nat M) (fun i => z ^ Z.of_nat (1 + i + 2) * (2 ^ 64 - 1)) (fun j => z ^ Z.of_nat (3 + j) * (2 ^ 64 - 1))) by (intros i _; do 3 f_equal; lia).
       change (Z.of_nat 2) with 2. rewrite Z.pow_2_r. apply cg_eq. ring. }
  lin E L.
Qed.
End Eqn.
