(** Bulletproofs: congruences modulo l, sums over generators, one round of the inner product argument. *)
From Verif Require Import Py PyLemmas Digits Ints_model Primes Ec_model Ec_spec Ec_proof Mlsag_model Bp_model.
From Coq Require Import Setoid Morphisms Znumtheory.
Ltac Zify.zify_post_hook ::= idtac.

(** ** congruence modulo l *)
Definition cg (a b : Z) : Prop := a mod l = b mod l.
Infix "==" := cg (at level 70).
#[global] Instance cg_equiv : Equivalence cg.
Proof. split; [intros a; reflexivity|intros a b H; symmetry; exact H|intros a b c H1 H2; exact (eq_trans H1 H2)]. Qed.
#[global] Instance cg_add : Proper (cg ==> cg ==> cg) Z.add.
Proof. intros a b H c d K. unfold cg in *. rewrite Zplus_mod, H, K, <- Zplus_mod. reflexivity. Qed.
#[global] Instance cg_mul : Proper (cg ==> cg ==> cg) Z.mul.
Proof. intros a b H c d K. unfold cg in *. rewrite Zmult_mod, H, K, <- Zmult_mod. reflexivity. Qed.
#[global] Instance cg_sub : Proper (cg ==> cg ==> cg) Z.sub.
Proof. intros a b H c d K. unfold cg in *. rewrite Zminus_mod, H, K, <- Zminus_mod. reflexivity. Qed.
#[global] Instance cg_opp : Proper (cg ==> cg) Z.opp.
Proof. intros a b H. rewrite <- !Z.sub_0_l, H. reflexivity. Qed.
Lemma cg_eq a b : a = b -> a == b. Proof. intros ->. reflexivity. Qed.
Lemma cg_mod a : a mod l == a. Proof. unfold cg. apply Zmod_mod. Qed.
Lemma c_add a b : sc_add a b == a + b. Proof. apply cg_mod. Qed.
Lemma c_sub a b : sc_sub a b == a - b. Proof. apply cg_mod. Qed.
Lemma c_mul a b : sc_mul a b == a * b. Proof. apply cg_mod. Qed.
Lemma c_muladd a b c : sc_muladd a b c == c + a * b. Proof. unfold sc_muladd. rewrite cg_mod, cg_mod. reflexivity. Qed.
Lemma c_mulsub a b c : sc_mulsub a b c == c - a * b. Proof. unfold sc_mulsub. rewrite cg_mod, cg_mod. reflexivity. Qed.
Lemma sc_rng a : scalar (a mod l). Proof. apply Z.mod_pos_bound, l_pos. Qed.
Lemma n_add a b : scalar (sc_add a b). Proof. apply sc_rng. Qed.
Lemma n_sub a b : scalar (sc_sub a b). Proof. apply sc_rng. Qed.
Lemma n_mul a b : scalar (sc_mul a b). Proof. apply sc_rng. Qed.
Lemma n_muladd a b c : scalar (sc_muladd a b c). Proof. apply sc_rng. Qed.
Lemma n_mulsub a b c : scalar (sc_mulsub a b c). Proof. apply sc_rng. Qed.
Lemma scalar_0 : scalar 0. Proof. split; [lia|apply l_pos]. Qed.
Lemma scalar_1 : scalar 1. Proof. split; [lia|reflexivity]. Qed.
Lemma pow_pos_spec m b e : pow_pos m b e = b ^ Z.pos e mod m.
Proof.
  induction e as [e IH|e IH|]; cbn [pow_pos].
  - rewrite IH. rewrite Pos2Z.inj_xI, Z.pow_add_r, Z.pow_1_r, Z.pow_twice_r by lia. rewrite <- Zmult_mod, Zmult_mod_idemp_l. reflexivity.
  - rewrite IH. rewrite Pos2Z.inj_xO, Z.pow_twice_r, <- Zmult_mod. reflexivity.
  - rewrite Z.pow_1_r. reflexivity.
Qed.
Lemma l_is : l = 2 ^ 252 + 27742317777372353535851937790883648493. Proof. reflexivity. Qed.
Lemma l_prime' : prime l. Proof. rewrite l_is. exact prime_l. Qed.
Lemma sc_inv_spec w : sc_inv w = w ^ (l - 2) mod l.
Proof. unfold sc_inv. remember (l - 2) as e eqn:He. destruct e as [|e|e]; [discriminate He| |discriminate He]. apply pow_pos_spec. Qed.
Lemma n_inv w : scalar (sc_inv w). Proof. rewrite sc_inv_spec. apply sc_rng. Qed.
Lemma c_inv w : w mod l <> 0 -> w * sc_inv w == 1.
Proof.
  intros H. rewrite sc_inv_spec, cg_mod. replace (w * w ^ (l - 2)) with (w ^ (l - 1)).
  - unfold cg. rewrite fermat; [reflexivity|exact l_prime'|]. intros D. apply H. apply Z.mod_divide; [discriminate|exact D].
  - replace (l - 1) with (1 + (l - 2)) by ring. rewrite Z.pow_add_r, Z.pow_1_r; [reflexivity|discriminate|vm_compute; discriminate].
Qed.
#[global] Opaque sc_inv.
#[global] Arguments sc_add : simpl never.
#[global] Arguments sc_mul : simpl never.

Definition nn (a : list Z) : Prop := Forall scalar a.
Fixpoint ip (a b : list Z) : Z := match a, b with x :: a, y :: b => x * y + ip a b | _, _ => 0 end.
Lemma c_ip : forall a b acc, inner_product acc a b == acc + ip a b.
Proof.
  induction a as [|x a IH]; intros [|y b] acc; cbn [inner_product ip]; try (rewrite Z.add_0_r; reflexivity).
  rewrite IH, c_muladd. apply cg_eq. ring.
Qed.
Lemma n_ip : forall a b acc, scalar acc -> scalar (inner_product acc a b).
Proof. induction a as [|x a IH]; intros [|y b] acc H; cbn [inner_product]; try exact H. apply IH, n_muladd. Qed.
Lemma map2_length {A B C} (f : A -> B -> C) : forall x y, length (map2 f x y) = Nat.min (length x) (length y).
Proof. induction x as [|a x IH]; intros [|b y]; cbn; try reflexivity. rewrite IH. reflexivity. Qed.
Lemma nn_fold : forall a1 a2 w v, nn (scalar_fold a1 a2 w v).
Proof. induction a1 as [|x a1 IH]; intros [|y a2] w v; constructor; [apply n_add|apply IH]. Qed.
Lemma nn_scalars (a : list Z) : nn a -> Forall (fun x => 0 <= x) a.
Proof. apply Forall_impl. intros x [H _]. exact H. Qed.

Section Msm.
Context (E : ecops) (L : ec_laws E).
Local Notation "A +' B" := (padd E A B) (at level 50, left associativity).
Local Notation "0'" := (pid E).
Local Notation zmul := (zmul E).
Local Notation sub := (sub E).

Lemma zc a b P : sub P -> a == b -> zmul a P = zmul b P.
Proof. apply (zmul_congr E L). Qed.
Fixpoint msm (a : list Z) (G : list (pt E)) : pt E := match a, G with x :: a, P :: G => zmul x P +' msm a G | _, _ => 0' end.
Lemma sub_msm : forall a G, Forall sub G -> sub (msm a G).
Proof.
  induction a as [|x a IH]; intros [|P G] H; cbn [msm]; [exact (sub_id E L)..|]. inversion H; subst.
  apply (sub_add E L); [apply (sub_zmul E L); assumption|apply IH; assumption].
Qed.
Lemma vexp_msm : forall A B a b acc, length A = length a -> length B = length a -> length b = length a -> nn a -> nn b ->
  vector_exponent E acc A B a b = acc +' (msm a A +' msm b B).
Proof.
  intros A B a. revert A B. induction a as [|x a IH]; intros [|P A] [|Q B] [|y b] acc L1 L2 L3 N1 N2; try discriminate; cbn [vector_exponent msm].
  - lin E L.
  - inversion N1; inversion N2; subst. rewrite IH by (try assumption; cbn in *; lia). unfold add_keys3, scalarmult, point_add.
    rewrite !(smul_zmul E L) by (match goal with H : scalar ?x |- 0 <= ?x => apply H end). lin E L.
Qed.
Lemma map2_nil_r {A B C} (f : A -> B -> C) x : map2 f x [] = [].
Proof. destruct x; reflexivity. Qed.
Lemma round_msm : forall a1 a2 G1 G2 w v, length a2 = length a1 -> length G1 = length a1 -> length G2 = length a1 ->
  scalar w -> scalar v -> w * v == 1 -> Forall sub G1 -> Forall sub G2 ->
  msm (scalar_fold a1 a2 w v) (hadamard_fold E G1 G2 v w) =
  msm a1 G1 +' (msm a2 G2 +' (zmul (w * w) (msm a1 G2) +' zmul (v * v) (msm a2 G1))).
Proof.
  induction a1 as [|x a1 IH]; intros [|y a2] [|P G1] [|Q G2] w v L1 L2 L3 Hw Hv WV S1 S2; try discriminate.
  - cbn [scalar_fold hadamard_fold map2 msm]. rewrite !(zmul_id E L). lin E L.
  - unfold scalar_fold, hadamard_fold. cbn [map2 msm]. fold (scalar_fold a1 a2 w v). fold (hadamard_fold E G1 G2 v w).
    inversion S1; inversion S2; subst. rewrite IH by (try assumption; cbn in *; lia).
    unfold add_keys3, scalarmult, point_add. rewrite !(smul_zmul E L) by (apply Hw || apply Hv).
    assert (SP : sub (zmul v P +' zmul w Q)) by (apply (sub_add E L); apply (sub_zmul E L); assumption).
    rewrite (zc _ (x * w + y * v) _ SP) by (rewrite c_add, !c_mul; reflexivity).
    rewrite (zmul_padd E L). rewrite <- !(zmul_mul E L).
    rewrite (zc ((x * w + y * v) * v) (x + y * v * v) P) by (first [assumption|transitivity (x * (w * v) + y * v * v); [apply cg_eq; ring|rewrite WV; apply cg_eq; ring]]).
    rewrite (zc ((x * w + y * v) * w) (y + x * w * w) Q) by (first [assumption|transitivity (y * (w * v) + x * w * w); [apply cg_eq; ring|rewrite WV; apply cg_eq; ring]]).
    lin E L.
Qed.
Lemma round_ip : forall a1 a2 b1 b2 w v, length a2 = length a1 -> length b1 = length a1 -> length b2 = length a1 -> w * v == 1 ->
  ip (scalar_fold a1 a2 w v) (scalar_fold b1 b2 v w) == ip a1 b1 + ip a2 b2 + w * w * ip a1 b2 + v * v * ip a2 b1.
Proof.
  induction a1 as [|x a1 IH]; intros [|y a2] [|s b1] [|t b2] w v L1 L2 L3 WV; try discriminate.
  - cbn [scalar_fold map2 ip]. apply cg_eq. ring.
  - unfold scalar_fold. cbn [map2 ip]. fold (scalar_fold a1 a2 w v). fold (scalar_fold b1 b2 v w). rewrite IH by (try assumption; cbn in *; lia).
    rewrite !c_add, !c_mul.
    transitivity (x * s * (w * v) + y * t * (w * v) + w * w * (x * t) + v * v * (y * s) + (ip a1 b1 + ip a2 b2 + w * w * ip a1 b2 + v * v * ip a2 b1)); [apply cg_eq; ring|].
    rewrite WV. apply cg_eq. ring.
Qed.
Lemma sub_hfold : forall G1 G2 a b, scalar a -> scalar b -> Forall sub G1 -> Forall sub G2 -> Forall sub (hadamard_fold E G1 G2 a b).
Proof.
  induction G1 as [|P G1 IH]; intros [|Q G2] a b Ha Hb S1 S2; unfold hadamard_fold; cbn [map2]; constructor.
  - inversion S1; inversion S2; subst. unfold add_keys3, point_add, scalarmult. rewrite !(smul_zmul E L) by (apply Ha || apply Hb). apply (sub_add E L); apply (sub_zmul E L); assumption.
  - inversion S1; inversion S2; subst. apply IH; assumption.
Qed.
Lemma msm_app : forall a a' G G', length a = length G -> msm (a ++ a') (G ++ G') = msm a G +' msm a' G'.
Proof.
  induction a as [|x a IH]; intros a' [|P G] G' H; try discriminate; cbn [app msm]; [rewrite (law_id E L); reflexivity|].
  rewrite IH by (cbn in H; lia). lin E L.
Qed.
Lemma ip_app : forall a a' b b', length a = length b -> ip (a ++ a') (b ++ b') = ip a b + ip a' b'.
Proof. induction a as [|x a IH]; intros a' [|y b] b' H; try discriminate; cbn [app ip]; [ring|]. rewrite IH by (cbn in H; lia). ring. Qed.
Lemma msm_scale c : forall a G, msm (map (Z.mul c) a) G = zmul c (msm a G).
Proof.
  induction a as [|x a IH]; intros [|P G]; cbn [map msm]; [symmetry; exact (zmul_id E L c)..|].
  rewrite IH. lin E L.
Qed.
Lemma msm_hfold : forall c G1 G2 a b, length G1 = length c -> length G2 = length c -> scalar a -> scalar b ->
  msm c (hadamard_fold E G1 G2 a b) = zmul a (msm c G1) +' zmul b (msm c G2).
Proof.
  induction c as [|x c IH]; intros [|P G1] [|Q G2] a b L1 L2 Ha Hb; try discriminate.
  - cbn [msm]. rewrite !(zmul_id E L). lin E L.
  - unfold hadamard_fold. cbn [map2 msm]. fold (hadamard_fold E G1 G2 a b). rewrite IH by (try assumption; cbn in *; lia).
    unfold add_keys3, point_add, scalarmult. rewrite !(smul_zmul E L) by (apply Ha || apply Hb). lin E L.
Qed.

(** the scalars with which the final generators depend on the initial ones *)
Fixpoint cG (ws : list Z) : list Z := match ws with [] => [1] | w :: ws => map (Z.mul (sc_inv w)) (cG ws) ++ map (Z.mul w) (cG ws) end.
Fixpoint cH (ws : list Z) : list Z := match ws with [] => [1] | w :: ws => map (Z.mul w) (cH ws) ++ map (Z.mul (sc_inv w)) (cH ws) end.
Lemma cG_length ws : length (cG ws) = Nat.pow 2 (length ws).
Proof. induction ws as [|w ws IH]; [reflexivity|]. cbn [cG length Nat.pow]. rewrite app_length, !map_length, IH. lia. Qed.
Lemma cH_length ws : length (cH ws) = Nat.pow 2 (length ws).
Proof. induction ws as [|w ws IH]; [reflexivity|]. cbn [cH length Nat.pow]. rewrite app_length, !map_length, IH. lia. Qed.

(** the weighted round commitments: Σ 8 w² L + 8 w⁻² R *)
Fixpoint lrs (ws : list Z) (PL PR : list (pt E)) : pt E :=
  match ws, PL, PR with
  | w :: ws, P :: PL, Q :: PR => zmul (8 * (w * w)) P +' (zmul (8 * (sc_inv w * sc_inv w)) Q +' lrs ws PL PR)
  | _, _, _ => 0'
  end.
Lemma inv_eight_8 : inv_eight * 8 == 1. Proof. vm_compute. reflexivity. Qed.
Lemma scalar_inv8 : scalar inv_eight. Proof. apply sc_rng. Qed.

Lemma loop_ok x_ip : scalar x_ip -> forall r s s', prove_loop E r x_ip s = Ok s' ->
  length (s_a E s) = Nat.pow 2 r -> length (s_b E s) = Nat.pow 2 r -> length (s_G E s) = Nat.pow 2 r -> length (s_H E s) = Nat.pow 2 r ->
  nn (s_a E s) -> nn (s_b E s) -> Forall sub (s_G E s) -> Forall sub (s_H E s) ->
  exists ws PL PR a b, length ws = r /\ length PL = r /\ length PR = r /\
    s_L E s' = s_L E s ++ map (encp E) PL /\ s_R E s' = s_R E s ++ map (encp E) PR /\
    Forall sub PL /\ Forall sub PR /\ s_a E s' = [a] /\ s_b E s' = [b] /\ scalar a /\ scalar b /\
    Forall (fun w => scalar w /\ w <> 0) ws /\
    round_challenges E (s_hc E s) (combine (map (encp E) PL) (map (encp E) PR)) = Ok ws /\
    msm (s_a E s) (s_G E s) +' (msm (s_b E s) (s_H E s) +' (zmul (ip (s_a E s) (s_b E s) * x_ip) (Hb E) +' lrs ws PL PR)) =
    zmul a (msm (cG ws) (s_G E s)) +' (zmul b (msm (cH ws) (s_H E s)) +' zmul (a * b * x_ip) (Hb E)).
Proof.
  intros Hx. induction r as [|r IH]; intros s s' H La Lb LG LH Na Nb SG SH.
  - cbn [prove_loop] in H. assert (s' = s) as -> by congruence.
    destruct (s_a E s) as [|a [|? ?]] eqn:Ea; try discriminate. destruct (s_b E s) as [|b [|? ?]] eqn:Eb; try discriminate.
    destruct (s_G E s) as [|G [|? ?]] eqn:EG; try discriminate. destruct (s_H E s) as [|P [|? ?]] eqn:EP; try discriminate.
    inversion Na; inversion Nb; subst. exists [], [], [], a, b. cbn [map app length combine round_challenges]. rewrite !app_nil_r.
    repeat (split; [first [reflexivity|assumption|constructor]|]). cbn [msm ip lrs cG cH]. lin E L.
  - cbn [prove_loop] in H. apply bind_ok_inv in H. destruct H as (s1 & H1 & H). unfold loop_body in H1. cbv zeta in H1.
    set (n := Nat.pow 2 r) in *. assert (E2 : Nat.pow 2 (S r) = (n + n)%nat) by (unfold n; cbn; lia). rewrite E2 in La, Lb, LG, LH.
    pose proof (firstn_skipn n (s_a E s)) as Sa. pose proof (firstn_skipn n (s_b E s)) as Sb.
    pose proof (firstn_skipn n (s_G E s)) as SG'. pose proof (firstn_skipn n (s_H E s)) as SH'.
    assert (La1 : length (firstn n (s_a E s)) = n) by (rewrite firstn_length; lia). assert (La2 : length (skipn n (s_a E s)) = n) by (rewrite skipn_length; lia).
    assert (Lb1 : length (firstn n (s_b E s)) = n) by (rewrite firstn_length; lia). assert (Lb2 : length (skipn n (s_b E s)) = n) by (rewrite skipn_length; lia).
    assert (LG1 : length (firstn n (s_G E s)) = n) by (rewrite firstn_length; lia). assert (LG2 : length (skipn n (s_G E s)) = n) by (rewrite skipn_length; lia).
    assert (LH1 : length (firstn n (s_H E s)) = n) by (rewrite firstn_length; lia). assert (LH2 : length (skipn n (s_H E s)) = n) by (rewrite skipn_length; lia).
    revert H1 Sa Sb SG' SH' La1 La2 Lb1 Lb2 LG1 LG2 LH1 LH2.
    generalize (firstn n (s_a E s)) (skipn n (s_a E s)) (firstn n (s_b E s)) (skipn n (s_b E s)) (firstn n (s_G E s)) (skipn n (s_G E s)) (firstn n (s_H E s)) (skipn n (s_H E s)).
    intros a1 a2 b1 b2 G1 G2 H1' H2' H1 Sa Sb SG' SH' La1 La2 Lb1 Lb2 LG1 LG2 LH1 LH2.
    rewrite <- Sa in Na |- *. rewrite <- Sb in Nb |- *. rewrite <- SG' in SG |- *. rewrite <- SH' in SH |- *.
    apply Forall_app in Na, Nb, SG, SH. destruct Na as [Na1 Na2], Nb as [Nb1 Nb2], SG as [SG1 SG2], SH as [SH1 SH2].
    set (cL := inner_product 0 a1 b2) in *. set (cR := inner_product 0 a2 b1) in *.
    set (QL := point_add E (vector_exponent E 0' G2 H1' a1 b2) (scalarmult E (Hb E) (sc_mul cL x_ip))) in *.
    set (QR := point_add E (vector_exponent E 0' G1 H2' a2 b1) (scalarmult E (Hb E) (sc_mul cR x_ip))) in *.
    assert (EL : QL = msm a1 G2 +' (msm b2 H1' +' zmul (ip a1 b2 * x_ip) (Hb E))).
    { unfold QL, point_add, scalarmult. rewrite vexp_msm by (assumption || lia). rewrite (smul_zmul E L) by apply n_mul.
      rewrite (zc (sc_mul cL x_ip) (ip a1 b2 * x_ip)) by (first [exact (sub_H E L)|unfold cL; rewrite c_mul, c_ip; apply cg_eq; ring]). lin E L. }
    assert (ER : QR = msm a2 G1 +' (msm b1 H2' +' zmul (ip a2 b1 * x_ip) (Hb E))).
    { unfold QR, point_add, scalarmult. rewrite vexp_msm by (assumption || lia). rewrite (smul_zmul E L) by apply n_mul.
      rewrite (zc (sc_mul cR x_ip) (ip a2 b1 * x_ip)) by (first [exact (sub_H E L)|unfold cR; rewrite c_mul, c_ip; apply cg_eq; ring]). lin E L. }
    assert (SL : sub QL) by (rewrite EL; apply (sub_add E L); [apply sub_msm; assumption|apply (sub_add E L); [apply sub_msm; assumption|apply (sub_zmul E L), (sub_H E L)]]).
    assert (SR : sub QR) by (rewrite ER; apply (sub_add E L); [apply sub_msm; assumption|apply (sub_add E L); [apply sub_msm; assumption|apply (sub_zmul E L), (sub_H E L)]]).
    unfold inv8, scalarmult in H1. rewrite !(smul_zmul E L) in H1 by apply scalar_inv8.
    set (w := mash E (s_hc E s) [encp E (zmul inv_eight QL); encp E (zmul inv_eight QR)]) in *.
    destruct (w =? 0) eqn:W; cbn [negb guard bind] in H1; [discriminate|]. apply Z.eqb_neq in W.
    assert (Sw : scalar w) by apply sc_rng. pose proof (n_inv w) as Sv.
    assert (WV : w * sc_inv w == 1) by (apply c_inv; rewrite Z.mod_small by exact Sw; exact W).
    assert (VW : sc_inv w * w == 1) by (rewrite Z.mul_comm; exact WV).
    set (v := sc_inv w) in *. injection H1 as <-.
    apply IH in H; cbn [s_a s_b s_G s_H]; try (unfold scalar_fold, hadamard_fold; rewrite map2_length; lia); try apply nn_fold; try (apply sub_hfold; assumption).
    destruct H as (ws & PL & PR & a & b & Lw & LL & LR & HL & HR & SPL & SPR & Ha & Hb & Sca & Scb & Fw & RC & EQ).
    cbn [s_a s_b s_G s_H s_hc s_L s_R] in *.
    exists (w :: ws), (zmul inv_eight QL :: PL), (zmul inv_eight QR :: PR), a, b. cbn [length map].
    split; [lia|]. split; [lia|]. split; [lia|]. split; [rewrite HL, <- app_assoc; reflexivity|]. split; [rewrite HR, <- app_assoc; reflexivity|].
    split; [constructor; [apply (sub_zmul E L); exact SL|exact SPL]|]. split; [constructor; [apply (sub_zmul E L); exact SR|exact SPR]|].
    split; [exact Ha|]. split; [exact Hb|]. split; [exact Sca|]. split; [exact Scb|]. split; [constructor; [split; assumption|exact Fw]|].
    split; [cbn [combine round_challenges]; fold w; rewrite (proj2 (Z.eqb_neq _ _) W); cbn [negb guard bind]; rewrite RC; reflexivity|].
    assert (Ln : Nat.pow 2 (length ws) = n) by (rewrite Lw; reflexivity).
    cbn [lrs cG cH]. fold v.
    rewrite !msm_app by (rewrite ?map_length, ?cG_length, ?cH_length, ?Ln; lia). rewrite !ip_app by lia. rewrite !msm_scale.
    rewrite (msm_hfold (cG ws)) in EQ by first [assumption|rewrite cG_length; lia]. rewrite (msm_hfold (cH ws)) in EQ by first [assumption|rewrite cH_length; lia].
    rewrite round_msm in EQ by first [assumption|lia]. rewrite (round_msm b1 b2) in EQ by first [assumption|lia].
    assert (IPE : zmul (ip (scalar_fold a1 a2 w v) (scalar_fold b1 b2 v w) * x_ip) (Ec_model.Hb E) = zmul ((ip a1 b1 + ip a2 b2 + w * w * ip a1 b2 + v * v * ip a2 b1) * x_ip) (Ec_model.Hb E)).
    { apply zc; [exact (sub_H E L)|]. rewrite (round_ip a1 a2 b1 b2) by first [assumption|lia]. reflexivity. }
    rewrite IPE in EQ.
    rewrite <- EQ.
    rewrite <- !(zmul_mul E L). rewrite (zc (8 * (w * w) * inv_eight) (w * w) QL SL), (zc (8 * (v * v) * inv_eight) (v * v) QR SR).
    2,3: match goal with |- 8 * ?u * inv_eight == _ => transitivity (u * (inv_eight * 8)); [apply cg_eq; ring|rewrite inv_eight_8; apply cg_eq; ring] end.
    rewrite EL, ER. lin E L.
Qed.
End Msm.
