(** Bulletproofs: what the verifier computes, as a sum of contributions of the proofs. *)
From Verif Require Import Py PyLemmas Digits Ints_model Ints_proof2 Ec_model Ec_spec Ec_proof Mlsag_model Bp_model Bp_proof1 Bp_proof2 Bp_proof3.
From Coq Require Import Setoid Morphisms Permutation.
Ltac Zify.zify_post_hook ::= idtac.

Lemma comp_m_ok ln : forall fuel k, 0 <= k -> match comp_m fuel (2 ^ k) k ln with
  | Ok (M, k') => M = 2 ^ k' /\ k <= k' /\ (k' <= 5 \/ k' = k) /\ (ln <= M \/ 16 < M)
  | Err _ => k + Z.of_nat fuel <= 4 end.
Proof.
  induction fuel as [|fuel IH]; intros k Hk; cbn [comp_m]; unfold BP_M.
  - destruct (Z.leb_spec (2 ^ k) 16) as [A|A]; destruct (Z.ltb_spec (2 ^ k) ln) as [B|B]; cbn [andb];
      [|repeat split; try lia; right; reflexivity..].
    rewrite Z.add_0_r. apply (Z.pow_le_mono_r_iff 2); [lia|lia|]. exact A.
  - destruct (Z.leb_spec (2 ^ k) 16) as [A|A]; destruct (Z.ltb_spec (2 ^ k) ln) as [B|B]; cbn [andb]; [|repeat split; try lia; right; reflexivity..].
    rewrite Z.shiftl_mul_pow2, Z.mul_1_l by lia. pose proof (IH (k + 1) ltac:(lia)) as I.
    assert (K4 : k <= 4) by (apply (Z.pow_le_mono_r_iff 2); [lia|lia|exact A]).
    destruct (comp_m fuel (2 ^ (k + 1)) (k + 1) ln) as [[M k']|e]; [|lia].
    destruct I as (I1 & I2 & I3 & I4). repeat split; try assumption; try lia.
Qed.
Lemma bp_blocks_ok n : exists M k, bp_blocks n = Ok (M, k) /\ M = 2 ^ k /\ 0 <= k <= 5 /\ (Z.of_nat n <= M \/ 16 < M).
Proof.
  unfold bp_blocks. pose proof (comp_m_ok (Z.of_nat n) 6 0 ltac:(lia)) as H. change (2 ^ 0) with 1 in H.
  destruct (comp_m 6 1 0 (Z.of_nat n)) as [[M k]|e]; [|lia]. exists M, k. destruct H as (H1 & H2 & H3 & H4). repeat split; try assumption; lia.
Qed.
Lemma blocks_nat k : 0 <= k -> (Z.to_nat (2 ^ k) * BP_N)%nat = Nat.pow 2 (Z.to_nat (6 + k)).
Proof.
  intros H. rewrite Z2Nat.inj_add by lia. rewrite Nat.pow_add_r. change (2 ^ Z.to_nat 6)%nat with BP_N. rewrite Nat.mul_comm. f_equal.
  rewrite <- (Z2Nat.id k) at 1 by exact H. change 2 with (Z.of_nat 2) at 1. rewrite <- Nat2Z.inj_pow. apply Nat2Z.id.
Qed.

Section Ver.
Context (E : ecops) (L : ec_laws E) (gs : gens E).
Local Notation "A +' B" := (padd E A B) (at level 50, left associativity).
Local Notation "0'" := (pid E).
Local Notation zmul := (zmul E).
Local Notation sub := (sub E).
Definition gens_ok : Prop := forall i, sub (gG E gs i) /\ sub (gH E gs i).
Context (GS : gens_ok).

Fixpoint gsum (i : nat) (zs : list (Z * Z)) : pt E := match zs with [] => 0' | (g, h) :: zs => zmul g (gG E gs i) +' (zmul h (gH E gs i) +' gsum (S i) zs) end.
Lemma sub_gens_val wz : forall gh i acc, sub_gens E acc gs i wz gh = acc +' zmul (- wz) (gsum i gh).
Proof.
  induction gh as [|[g h] gh IH]; intros i acc; cbn [sub_gens gsum]; [rewrite (zmul_id E L), (id_r E L); reflexivity|].
  rewrite IH. unfold point_sub, scalarmult. rewrite !(smul_zmul E L) by apply n_mul.
  rewrite (zc E L (sc_mul g wz) (g * wz)) by (apply GS || apply c_mul). rewrite (zc E L (sc_mul h wz) (h * wz)) by (apply GS || apply c_mul). lin E L.
Qed.
Lemma sub_scalars_length wz : forall zs gh, length (sub_scalars wz zs gh) = length zs.
Proof. induction zs as [|[a b] zs IH]; intros [|[g h] gh]; cbn [sub_scalars length]; try reflexivity. rewrite IH. reflexivity. Qed.
Lemma sub_scalars_scal wz : forall zs gh, Forall (fun gh => scalar (fst gh) /\ scalar (snd gh)) zs -> Forall (fun gh => scalar (fst gh) /\ scalar (snd gh)) (sub_scalars wz zs gh).
Proof.
  induction zs as [|[a b] zs IH]; intros [|[g h] gh] H; cbn [sub_scalars]; try assumption. inversion H; subst.
  constructor; [split; apply n_mulsub|apply IH; assumption].
Qed.
Lemma sub_scalars_val wz : forall gh zs i, (length gh <= length zs)%nat -> gsum i (sub_scalars wz zs gh) = gsum i zs +' zmul (- wz) (gsum i gh).
Proof.
  induction gh as [|[g h] gh IH]; intros [|[a b] zs] i H; cbn [length] in H; try lia; cbn [sub_scalars gsum].
  - rewrite (zmul_id E L), (id_r E L). reflexivity.
  - rewrite (zmul_id E L), (id_r E L). reflexivity.
  - rewrite IH by lia. rewrite (zc E L (sc_mulsub g wz a) (a - g * wz)) by (apply GS || apply c_mulsub). rewrite (zc E L (sc_mulsub h wz b) (b - h * wz)) by (apply GS || apply c_mulsub). lin E L.
Qed.
Lemma add_gens_val : forall zs i acc, Forall (fun gh => scalar (fst gh) /\ scalar (snd gh)) zs -> add_gens E acc gs i zs = acc +' gsum i zs.
Proof.
  induction zs as [|[a b] zs IH]; intros i acc H; cbn [add_gens gsum]; [rewrite (id_r E L); reflexivity|]. inversion H as [|? ? [A B] ?]; subst.
  rewrite IH by assumption. unfold point_add, scalarmult. rewrite !(smul_zmul E L) by (apply A || apply B). lin E L.
Qed.

Definition val (st : vstate E) : pt E :=
  v_acc E st +' (zmul (v_z3 E st - v_y1 E st) (Hb E) +' (zmul (v_y0 E st - v_z1 E st) (Gb E) +' gsum 0 (v_zs E st))).
Definition st0 : vstate E := {| v_acc := 0'; v_z1 := 0; v_z3 := 0; v_y0 := 0; v_y1 := 0; v_zs := [] |}.
Definition contrib (pw : bproof * (Z * Z)) : res (pt E) := let* st := verify_step E gs true st0 pw in Ok (val st).
Definition good (st : vstate E) : Prop := Forall (fun gh => scalar (fst gh) /\ scalar (snd gh)) (v_zs E st).

Lemma step_val single st pw : (single = false -> (Nat.pow 2 (length (bp_L (fst pw))) <= length (v_zs E st))%nat) -> good st ->
  match contrib pw with
  | Err e => verify_step E gs single st pw = Err e
  | Ok c => exists st', verify_step E gs single st pw = Ok st' /\ val st' = val st +' c /\ length (v_zs E st') = length (v_zs E st) /\ good st'
  end.
Proof.
  destruct pw as [p [wy wz]]. cbn [fst]. intros Hl Hg. unfold contrib, verify_step.
  destruct (bp_blocks_ok (length (bp_V p))) as (M & k & EB & EM & Hk & _). rewrite EB. cbn [bind].
  destruct (Z.of_nat (length (bp_L p)) =? 6 + k) eqn:EL; cbn [guard bind]; [|reflexivity]. apply Z.eqb_eq in EL.
  assert (EMN : (Z.to_nat M * BP_N)%nat = Nat.pow 2 (length (bp_L p))).
  { rewrite EM, blocks_nat by lia. rewrite <- EL, Nat2Z.id. reflexivity. }
  rewrite EMN. cbv zeta.
  repeat (match goal with |- context [guard (negb (?b =? 0)) _] => let e := fresh in destruct (b =? 0) eqn:e; cbn [negb guard bind]; [reflexivity|] end).
  match goal with |- context [mapM ?f ?s] => destruct (mapM f s) as [zV|e]; cbn [bind]; [|reflexivity] end.
  match goal with |- context [multiexp E ?a ?b] => destruct (multiexp E a b) as [m1|e]; cbn [bind]; [|reflexivity] end.
  match goal with |- context [round_challenges E ?a ?b] => destruct (round_challenges E a b) as [ws|e]; cbn [bind]; [|reflexivity] end.
  match goal with |- context [gh_scalars ?n ?i ?ws ?zp ?a ?b ?z ?y ?yi ?u ?v] => set (gh := gh_scalars n i ws zp a b z y yi u v) in *;
    assert (GL : length gh = n) by apply gh_length end.
  match goal with |- context [multiexp E ?a ?b] => destruct (multiexp E a b) as [m2|e]; cbn [bind]; [|reflexivity] end.
  eexists. split; [reflexivity|]. unfold val, good, st0. cbn [v_acc v_z1 v_z3 v_y0 v_y1 v_zs gsum].
  set (T := le_val 256 (bp_taux p)). set (MU := le_val 256 (bp_mu p)).
  match goal with |- context [sc_muladd ?a wz (v_z3 E st)] => set (Z3 := a) end.
  match goal with |- context [sc_muladd ?a wy (v_y1 E st)] => set (Y1 := a) end.
  rewrite (zc E L (sc_muladd Z3 wz (v_z3 E st) - sc_muladd Y1 wy (v_y1 E st)) ((v_z3 E st - v_y1 E st) + (Z3 * wz - Y1 * wy)));
    [|exact (sub_H E L)|rewrite !c_muladd; apply cg_eq; ring].
  rewrite (zc E L (sc_muladd Z3 wz 0 - sc_muladd Y1 wy 0) (Z3 * wz - Y1 * wy)); [|exact (sub_H E L)|rewrite !c_muladd; apply cg_eq; ring].
  rewrite (zc E L (sc_mulsub T wy (v_y0 E st) - sc_muladd MU wz (v_z1 E st)) ((v_y0 E st - v_z1 E st) + (- (T * wy) - MU * wz)));
    [|exact (sub_G E L)|rewrite c_mulsub, c_muladd; apply cg_eq; ring].
  rewrite (zc E L (sc_mulsub T wy 0 - sc_muladd MU wz 0) (- (T * wy) - MU * wz)); [|exact (sub_G E L)|rewrite c_mulsub, c_muladd; apply cg_eq; ring].
  unfold point_add. destruct single; rewrite !sub_gens_val.
  - split; [lin E L|]. split; [reflexivity|exact Hg].
  - rewrite sub_scalars_val by (rewrite GL; apply Hl; reflexivity). rewrite sub_scalars_length. split; [lin E L|]. split; [reflexivity|apply sub_scalars_scal, Hg].
Qed.

Fixpoint psum (cs : list (pt E)) : pt E := match cs with [] => 0' | c :: cs => c +' psum cs end.
Lemma fold_val single : forall pws st, (single = false -> Forall (fun pw => (Nat.pow 2 (length (bp_L (fst pw))) <= length (v_zs E st))%nat) pws) -> good st ->
  match mapM contrib pws with
  | Err e => foldM (verify_step E gs single) pws st = Err e
  | Ok cs => exists st', foldM (verify_step E gs single) pws st = Ok st' /\ val st' = val st +' psum cs /\ good st' /\ length (v_zs E st') = length (v_zs E st)
  end.
Proof.
  induction pws as [|pw pws IH]; intros st Hl Hg; cbn [mapM foldM psum].
  - exists st. rewrite (id_r E L). repeat split; assumption.
  - pose proof (step_val single st pw) as S. destruct (contrib pw) as [c|e]; cbn [bind].
    + destruct S as (st' & -> & V & Ln & G); [intros Es; specialize (Hl Es); inversion Hl; assumption|exact Hg|]. cbn [bind].
      pose proof (IH st') as I. destruct (mapM contrib pws) as [cs|e]; cbn [bind].
      * destruct I as (st2 & F & V2 & G2 & L2); [intros Es; specialize (Hl Es); inversion Hl; subst; rewrite Ln; assumption|exact G|].
        exists st2. split; [exact F|]. split; [|split; [exact G2|congruence]]. cbn [psum]. rewrite V2, V. lin E L.
      * apply I; [intros Es; specialize (Hl Es); inversion Hl; subst; rewrite Ln; assumption|exact G].
    + rewrite S; [reflexivity|intros Es; specialize (Hl Es); inversion Hl; assumption|exact Hg].
Qed.
Lemma max_ge (ps : list bproof) : forall m p, In p ps -> (length (bp_L p) <= fold_left (fun m p => Nat.max m (length (bp_L p))) ps m)%nat.
Proof.
  assert (G : forall ps m, (m <= fold_left (fun m p => Nat.max m (length (bp_L p))) ps m)%nat).
  { induction ps0 as [|q ps0 IH]; intros m; cbn [fold_left]; [lia|]. specialize (IH (Nat.max m (length (bp_L q)))). lia. }
  induction ps as [|q ps IH]; intros m p H; [destruct H|]. destruct H as [->|H]; cbn [fold_left].
  - specialize (G ps (Nat.max m (length (bp_L p)))). lia.
  - apply IH, H.
Qed.
Definition verdict (ps : list bproof) (ws : list (Z * Z)) : res bool :=
  let* _ := mapM bp_check ps in
  let* _ := guard (Nat.ltb (fold_left (fun m p => Nat.max m (length (bp_L p))) ps 0%nat) 32) ValueError in
  let* cs := mapM contrib (combine ps ws) in
  if pt_eqb E (psum cs) 0' then Ok true else Err ValueError.
Theorem verify_is ps ws so : verify_batch E gs ps ws so = verdict ps ws.
Proof.
  unfold verify_batch, verdict. destruct (mapM bp_check ps) as [u|e]; cbn [bind]; [|reflexivity].
  set (mx := fold_left _ ps 0%nat). destruct (Nat.ltb mx 32); cbn [guard bind]; [|reflexivity].
  set (single := Nat.eqb (length ps) 1 && so).
  set (zs := if single then [] else repeat (0, 0) (Nat.pow 2 mx)).
  assert (SZ : forall n, Forall (fun gh => scalar (fst gh) /\ scalar (snd gh)) (repeat (0, 0) n)).
  { intros n. apply Forall_forall. intros x Hx. apply repeat_spec in Hx. subst x. split; apply scalar_0. }
  assert (GZ : forall n i, gsum i (repeat (0, 0) n) = 0').
  { induction n as [|n IH]; intros i; [reflexivity|]. cbn [repeat gsum]. rewrite IH, !(zmul_0 E), !(id_r E L). reflexivity. }
  match goal with |- context [foldM _ _ ?s] => set (s0 := s) end.
  assert (V0 : val s0 = 0').
  { unfold val, s0. cbn [v_acc v_z1 v_z3 v_y0 v_y1 v_zs]. replace (gsum 0 zs) with 0'; [change (0 - 0) with 0; lin E L|]. unfold zs. destruct single; [reflexivity|rewrite GZ; reflexivity]. }
  pose proof (fold_val single (combine ps ws) s0) as F. destruct (mapM contrib (combine ps ws)) as [cs|e]; cbn [bind].
  - destruct F as (st & -> & V & G & Ln).
    + intros Es. apply Forall_forall. intros [p w] Hp. cbn [fst]. apply in_combine_l in Hp. unfold s0. cbn [v_zs]. unfold zs. rewrite Es, repeat_length.
      apply Nat.pow_le_mono_r; [lia|]. apply max_ge, Hp.
    + unfold good, s0. cbn [v_zs]. unfold zs. destruct single; [constructor|apply SZ].
    + cbn [bind]. rewrite V0, (law_id E L) in V. rewrite <- V. unfold val, point_add, scalarmult, scalarmult_base. rewrite !(smul_zmul E L) by apply n_sub.
      rewrite (zc E L _ _ (Hb E) (sub_H E L) (c_sub _ _)), (zc E L _ _ (Gb E) (sub_G E L) (c_sub _ _)).
      destruct single eqn:Es.
      * unfold s0 in Ln. cbn [v_zs] in Ln. unfold zs in Ln. cbn [length] in Ln. destruct (v_zs E st); [|discriminate]. cbn [gsum]. rewrite (id_r E L). reflexivity.
      * rewrite add_gens_val by exact G. rewrite <- !(law_assoc E L). reflexivity.
  - rewrite F; [reflexivity| |].
    + intros Es. apply Forall_forall. intros [p w] Hp. cbn [fst]. apply in_combine_l in Hp. unfold s0. cbn [v_zs]. unfold zs. rewrite Es, repeat_length.
      apply Nat.pow_le_mono_r; [lia|]. apply max_ge, Hp.
    + unfold good, s0. cbn [v_zs]. unfold zs. destruct single; [constructor|apply SZ].
Qed.
End Ver.
