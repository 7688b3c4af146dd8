From Verif Require Import Py PyLemmas Digits Ints_model Ec_model Ec_spec Ec_proof Sigs_proof Mlsag_model Mlsag_spec Mlsag_proof Clsag_proof KeySep_proof Borromean_model Borromean_spec.

(** ** bits *)
Lemma d2b_loop_ok : forall k n pre fuel, 0 <= n < 2 ^ Z.of_nat k -> (k < fuel)%nat ->
  d2b_loop fuel n (zlen pre) (pre ++ repeat 0 k) = Ok (pre ++ le_digits 2 k n).
Proof.
  induction k as [|k IH]; intros n pre fuel Hn Hf.
  - change (2 ^ Z.of_nat 0) with 1 in Hn. replace n with 0 by lia. destruct fuel; reflexivity.
  - destruct fuel as [|fuel]; [lia|]. cbn [d2b_loop]. destruct (Z.eqb_spec n 0) as [->|Hz].
    + f_equal. f_equal. change (repeat 0 (S k)) with (0 :: repeat 0 k). cbn [le_digits].
      change (0 mod 2) with 0. change (0 / 2) with 0. f_equal.
      clear. induction k as [|k IH]; [reflexivity|]. cbn [repeat le_digits]. change (0 mod 2) with 0. change (0 / 2) with 0. f_equal. exact IH.
    + cbn [repeat]. rewrite py_set_mid. cbn [bind]. cbn [le_digits].
      replace (Z.land n 1) with (n mod 2) by (symmetry; change 1 with (Z.ones 1); rewrite Z.land_ones by lia; reflexivity).
      replace (Z.shiftr n 1) with (n / 2) by (rewrite Z.shiftr_div_pow2 by lia; reflexivity).
      replace (zlen pre + 1) with (zlen (pre ++ [n mod 2])) by (unfold zlen; rewrite app_length; cbn [length]; lia).
      change (pre ++ n mod 2 :: repeat 0 k) with (pre ++ [n mod 2] ++ repeat 0 k). rewrite app_assoc.
      rewrite IH; [rewrite <- app_assoc; reflexivity| |lia].
      replace (2 ^ Z.of_nat (S k)) with (2 * 2 ^ Z.of_nat k) in Hn by (rewrite <- Z.pow_succ_r by lia; f_equal; lia).
      split; [apply Z.div_pos; lia|]. apply Z.div_lt_upper_bound; lia.
Qed.
Lemma d2b_ok n k : 0 <= n < 2 ^ Z.of_nat k -> d2b n k = Ok (le_digits 2 k n).
Proof. intros H. unfold d2b. apply (d2b_loop_ok k n [] (S k) H). lia. Qed.
Lemma d2b_loop_err : forall k n pre fuel, n < 0 \/ 2 ^ Z.of_nat k <= n -> (k < fuel)%nat ->
  d2b_loop fuel n (zlen pre) (pre ++ repeat 0 k) = Err IndexError.
Proof.
  induction k as [|k IH]; intros n pre fuel Hn Hf.
  - change (2 ^ Z.of_nat 0) with 1 in Hn. destruct fuel as [|fuel]; [lia|]. cbn [d2b_loop repeat].
    destruct (Z.eqb_spec n 0) as [->|Hz]; [lia|]. rewrite app_nil_r.
    unfold py_set, py_idx. pose proof (Zle_0_nat (length pre)). unfold zlen.
    rewrite (proj2 (Z.leb_le 0 (Z.of_nat (length pre)))) by lia. rewrite (proj2 (Z.ltb_ge (Z.of_nat (length pre)) (Z.of_nat (length pre)))) by lia.
    rewrite (proj2 (Z.ltb_ge (Z.of_nat (length pre)) 0)) by lia. reflexivity.
  - destruct fuel as [|fuel]; [lia|]. cbn [d2b_loop].
    assert (P2 : 2 ^ Z.of_nat (S k) = 2 * 2 ^ Z.of_nat k) by (rewrite <- Z.pow_succ_r by lia; f_equal; lia).
    rewrite P2 in Hn. pose proof (Z.pow_pos_nonneg 2 (Z.of_nat k) ltac:(lia) ltac:(lia)) as Pp.
    destruct (Z.eqb_spec n 0) as [->|Hz]; [lia|]. cbn [repeat]. rewrite py_set_mid. cbn [bind].
    replace (Z.shiftr n 1) with (n / 2) by (rewrite Z.shiftr_div_pow2 by lia; reflexivity).
    replace (zlen pre + 1) with (zlen (pre ++ [Z.land n 1])) by (unfold zlen; rewrite app_length; cbn [length]; lia).
    change (pre ++ Z.land n 1 :: repeat 0 k) with (pre ++ [Z.land n 1] ++ repeat 0 k). rewrite app_assoc.
    apply IH; [|lia]. destruct Hn as [Hn|Hn]; [left; apply Z.div_lt_upper_bound; lia|right; apply Z.div_le_lower_bound; lia].
Qed.
Lemma d2b_err n k : n < 0 \/ 2 ^ Z.of_nat k <= n -> d2b n k = Err IndexError.
Proof. intros H. unfold d2b. apply (d2b_loop_err k n [] (S k) H). lia. Qed.

Section P.
Context (E : ecops) (L : ec_laws E).
Local Notation G := (Gb E).

(** ** the Borromean signature *)
Inductive bok : list Z -> list (pt E) -> list (pt E) -> list Z -> list Z -> list Z -> Prop :=
| bok_nil : bok [] [] [] [] [] []
| bok_cons x P Q b a s xs Ps Qs bs al sr :
    scalar x -> scalar a -> scalar s -> (if b =? 0 then P = smul E G x else Q = smul E G x) ->
    bok xs Ps Qs bs al sr -> bok (x :: xs) (P :: Ps) (Q :: Qs) (b :: bs) (a :: al) (s :: sr).

Lemma mulsub_point a x c P : scalar a -> scalar x -> scalar c -> P = smul E G x ->
  add_keys2 E (sc_mulsub x c a) c P = smul E G a.
Proof.
  intros Ha Hx Hc ->. unfold add_keys2, point_add, scalarmult_base, scalarmult. rewrite sc_mulsub_val.
  rewrite (smul_mod E L _ _ (sub_G E L)). rewrite !(smul_zmul E L) by (apply Ha || apply Hx || apply Hc).
  rewrite <- (zmul_mul E L). rewrite <- (zmul_add E L). f_equal. ring.
Qed.
Lemma vb_complete ee xs Ps Qs bs al sr : scalar ee -> bok xs Ps Qs bs al sr -> forall h s1 s0 s1',
  gb_first E al sr Qs bs = (h, s1) -> gb_second E ee xs al sr s1 Ps bs = (s0, s1') ->
  vb_points E Ps Qs s0 s1' ee = Ok h /\ scalars (length Ps) s0 /\ scalars (length Ps) s1'.
Proof.
  intros He B. induction B as [|x P Q b a s xs Ps Qs bs al sr Hx Ha Hs Hk B IH]; intros h s1 s0 s1' Hf Hg.
  - cbn in Hf. apply pair_equal_spec in Hf. destruct Hf as [<- <-]. cbn in Hg. apply pair_equal_spec in Hg.
    destruct Hg as [<- <-]. split; [reflexivity|split; split; constructor].
  - cbn [gb_first] in Hf. destruct (gb_first E al sr Qs bs) as [h0 t1] eqn:Ef. cbn [gb_second] in Hg.
    destruct (b =? 0) eqn:Eb.
    + apply pair_equal_spec in Hf. destruct Hf as [<- <-]. cbn [gb_second] in Hg.
      destruct (gb_second E ee xs al sr t1 Ps bs) as [t0 t1'] eqn:Eg.
      apply pair_equal_spec in Hg. destruct Hg as [<- <-].
      destruct (IH h0 t1 t0 t1' eq_refl Eg) as (V & (N0 & F0) & (N1 & F1)).
      split; [|unfold scalars; cbn [length]; rewrite N0, N1; split; (split; [reflexivity|constructor; [assumption || apply mod_scalar|assumption]])].
      cbn [vb_points]. rewrite V. cbn [bind]. rewrite (mulsub_point a x ee P Ha Hx He Hk). reflexivity.

    + apply pair_equal_spec in Hf. destruct Hf as [<- <-]. cbn [gb_second] in Hg.
      destruct (gb_second E ee xs al sr t1 Ps bs) as [t0 t1'] eqn:Eg.
      apply pair_equal_spec in Hg. destruct Hg as [<- <-].
      destruct (IH h0 t1 t0 t1' eq_refl Eg) as (V & (N0 & F0) & (N1 & F1)).
      split; [|unfold scalars; cbn [length]; rewrite N0, N1; split; (split; [reflexivity|constructor; [assumption || apply mod_scalar|assumption]])].
      cbn [vb_points]. rewrite V. cbn [bind]. rewrite (mulsub_point a x _ Q Ha Hx (hts_scalar _ _) Hk). reflexivity.

Qed.

(** ** commitments to the bits *)
Lemma gen_Hpow_length n : forall P, length (gen_Hpow_from E n P) = n.
Proof. induction n as [|n IH]; intros P; cbn [gen_Hpow_from length]; [reflexivity|]. rewrite IH. reflexivity. Qed.

Definition psum0 (ps : list (pt E)) : pt E := fold_right (padd E) (pid E) ps.
Lemma fold_left_psum ps : forall s, fold_left (fun s c => point_add E s c) ps s = padd E s (psum0 ps).
Proof.
  induction ps as [|p ps IH]; intros s; cbn [fold_left psum0 fold_right]; [symmetry; apply (id_r E L)|].
  rewrite IH. unfold point_add. fold (psum0 ps). symmetry. apply (law_assoc E L).
Qed.

Lemma sc_add_scalar a b : scalar (sc_add a b).
Proof. apply mod_scalar. Qed.

Lemma po_ok lm : mask_ok lm ->
  forall n i ra bb al sr P a ais Cis CiHs a',
  length ra = n -> length bb = n -> length al = n -> length sr = n ->
  Forall scalar ra -> Forall scalar al -> Forall scalar sr -> Forall (fun b => b = 0 \/ b = 1) bb -> scalar a ->
  (i + n = ATOMS)%nat ->
  po_loop E lm i ra bb (gen_Hpow_from E n P) a = (ais, Cis, CiHs, a') ->
  bok ais Cis CiHs bb al sr /\ scalar a' /\ (n <> O -> forall m, lm = Some m -> a' = m) /\
  psum0 Cis = padd E (zmul E (a' - a) G) (zmul E (le_val 2 bb) P) /\
  vr_loop E n Cis P (pid E) = Ok (CiHs, psum0 Cis) /\ length ais = n /\ length Cis = n.
Proof.
  intros Hm. induction n as [|n IH]; intros i ra bb al sr P a ais Cis CiHs a' Lr Lb La Ls Fr Fa Fs Fb Ha Hi Hp.
  - destruct ra; [|discriminate]. destruct bb; [|discriminate]. destruct al; [|discriminate]. destruct sr; [|discriminate].
    cbn [po_loop] in Hp. apply pair_equal_spec in Hp. destruct Hp as [Hp <-]. apply pair_equal_spec in Hp. destruct Hp as [Hp <-].
    apply pair_equal_spec in Hp. destruct Hp as [<- <-].
    split; [constructor|]. split; [exact Ha|]. split; [intros C; congruence|]. split; [|repeat split; reflexivity].
    cbn [psum0 fold_right le_val]. rewrite Z.sub_diag, !(zmul_0 E). symmetry. apply (law_id E L).
  - destruct ra as [|r ra]; [discriminate|]. destruct bb as [|b bb]; [discriminate|]. destruct al as [|al0 al]; [discriminate|].
    destruct sr as [|s sr]; [discriminate|]. cbn [po_loop gen_Hpow_from] in Hp.
    set (ai := match lm with Some m => if (i =? ATOMS - 1)%nat then sc_sub m a else r | None => r end) in Hp.
    assert (Sai : scalar ai).
    { unfold ai. inversion Fr; subst. destruct lm; [|assumption]. destruct (i =? ATOMS - 1)%nat; [apply mod_scalar|assumption]. }
    assert (Last : n = O -> forall m, lm = Some m -> sc_add a ai = m).
    { intros -> m Em. unfold ai. rewrite Em. rewrite Em in Hm; unfold mask_ok in Hm. replace (i =? ATOMS - 1)%nat with true by (symmetry; apply Nat.eqb_eq; lia).
      unfold sc_add, sc_sub. rewrite Zplus_mod_idemp_r. replace (a + (m - a)) with m by ring. apply scalar_small, Hm. }
    clearbody ai.
    destruct (po_loop E lm (S i) ra bb (gen_Hpow_from E n (point_double E P)) (sc_add a ai)) as [[[ais0 Cis0] CiHs0] a0] eqn:Ep.
    apply pair_equal_spec in Hp. destruct Hp as [Hp <-]. apply pair_equal_spec in Hp. destruct Hp as [Hp <-].
    apply pair_equal_spec in Hp. destruct Hp as [<- <-].
    inversion Fr as [|? ? Sr Fr0]; inversion Fa as [|? ? Sa Fa0]; inversion Fs as [|? ? Ss Fs0]; inversion Fb as [|? ? Sb Fb0]; subst.
    destruct (IH (S i) ra bb al sr (point_double E P) (sc_add a ai) ais0 Cis0 CiHs0 a0) as (B & S' & Lm & Sum & V & N1 & N2);
      [cbn in *; lia|cbn in *; lia|cbn in *; lia|cbn in *; lia|assumption|assumption|assumption|assumption|apply sc_add_scalar|lia|exact Ep|].
    split; [|split; [exact S'|split; [|split]]].
    + constructor; try assumption. destruct (b =? 0); [reflexivity|].
      unfold point_sub, point_add, scalarmult_base. lin E L.
    + intros _ m Em. destruct n as [|n]; [|apply Lm; [congruence|exact Em]].
      destruct ra; [|discriminate]. cbn [po_loop] in Ep. apply pair_equal_spec in Ep. destruct Ep as [_ <-].
      apply Last; [reflexivity|exact Em].
    + cbn [psum0 fold_right le_val]. fold (psum0 Cis0). rewrite Sum. unfold point_double, point_add, scalarmult_base.
      rewrite (smul_zmul E L) by apply Sai.
      replace (zmul E (a0 - a) G) with (padd E (zmul E ai G) (zmul E (a0 - sc_add a ai) G)).
      2: { rewrite <- (zmul_add E L). apply (zmul_congr E L); [apply (sub_G E L)|].
           unfold sc_add. rewrite Z.add_sub_assoc. rewrite Zminus_mod_idemp_r. f_equal. ring. }
      destruct Sb as [->| ->]; cbn [Z.eqb]; lin E L.
    + cbn [vr_loop]. split; [|cbn [length]; lia].
      assert (Vg : forall n Cis P s t H, vr_loop E n Cis P s = Ok (H, t) -> forall s', vr_loop E n Cis P (padd E s' s) = Ok (H, padd E s' t)).
      { clear -L. induction n as [|n IH]; intros Cis P s t H Hv s'; cbn [vr_loop] in *.
        - apply ok_inj in Hv. apply pair_equal_spec in Hv. destruct Hv as [<- <-]. reflexivity.
        - destruct Cis as [|c Cis]; [discriminate|].
          destruct (vr_loop E n Cis (point_double E P) (point_add E s c)) as [[H1 t1]|] eqn:Ev; [|discriminate]. cbn [bind] in Hv.
          apply ok_inj in Hv. apply pair_equal_spec in Hv. destruct Hv as [<- <-].
          unfold point_add in *. rewrite <- (law_assoc E L). rewrite (IH _ _ _ _ _ Ev s'). reflexivity. }
      unfold point_add at 1. rewrite (law_id E L).
      pose proof (Vg _ _ _ _ _ _ V (if b =? 0 then scalarmult_base E ai else padd E (scalarmult_base E ai) P)) as W.
      rewrite (id_r E L) in W. unfold point_add. rewrite W. reflexivity.
Qed.

(** ** the three provers *)
Ltac peq H := apply pair_equal_spec in H; destruct H as [H <-].
Lemma pm_first_po lm : forall n i ra al sr bb P a C,
  length ra = n -> length bb = n -> length al = n -> length sr = n ->
  pm_first E lm i ra al sr bb P a C =
  let '(ai, Ci, CiH, a') := po_loop E lm i ra bb (gen_Hpow_from E n P) a in
  let '(h, s1) := gb_first E al sr CiH bb in
  (ai, Ci, s1, h, a', fold_left (fun s c => point_add E s c) Ci C).
Proof.
  induction n as [|n IH]; intros i ra al sr bb P a C Lr Lb La Ls.
  - destruct ra; [|discriminate]. destruct bb; [|discriminate]. destruct al; [|discriminate]. destruct sr; [|discriminate]. reflexivity.
  - destruct ra as [|r ra]; [discriminate|]. destruct bb as [|b bb]; [discriminate|]. destruct al as [|a0 al]; [discriminate|].
    destruct sr as [|s sr]; [discriminate|]. cbn [pm_first po_loop gen_Hpow_from].
    rewrite IH by (cbn [length] in *; lia).
    destruct (po_loop E lm (S i) ra bb _ _) as [[[ais Cis] CiHs] a']. cbn [gb_first].
    destruct (gb_first E al sr CiHs bb) as [h s1]. destruct (b =? 0); reflexivity.
Qed.
Lemma mem_orig amount lm ra al sr : length ra = ATOMS -> length al = ATOMS -> length sr = ATOMS ->
  prove_range_mem E amount lm ra al sr = prove_range_orig E amount lm ra al sr.
Proof.
  intros Lr La Ls. unfold prove_range_mem, prove_range_orig. destruct (d2b amount ATOMS) as [bb|e] eqn:Ed; [|reflexivity].
  cbn [bind]. assert (Lb : length bb = ATOMS).
  { destruct (Z_lt_le_dec amount 0) as [Hn|Hn]; [rewrite d2b_err in Ed by (left; exact Hn); discriminate|].
    destruct (Z_lt_le_dec amount (2 ^ Z.of_nat ATOMS)) as [Hl|Hl]; [|rewrite d2b_err in Ed by (right; exact Hl); discriminate].
    rewrite d2b_ok in Ed by lia. apply ok_inj in Ed. subst bb. apply le_digits_length. }
  unfold gen_Hpow. rewrite (pm_first_po lm ATOMS) by assumption.
  destruct (po_loop E lm 0 ra bb _ 0) as [[[ais Cis] CiHs] a']. unfold gen_borromean.
  destruct (gb_first E al sr CiHs bb) as [h s1]. destruct (gb_second _ _ _ _ _ _ _ _) as [s0 s1']. reflexivity.
Qed.

Lemma bit_digits n amount i : le_digits 2 (S n) (amount / 2 ^ Z.of_nat i) =
  Z.land (Z.shiftr amount (Z.of_nat i)) 1 :: le_digits 2 n (amount / 2 ^ Z.of_nat (S i)).
Proof.
  cbn [le_digits]. f_equal.
  - rewrite Z.shiftr_div_pow2 by lia. change 1 with (Z.ones 1). rewrite Z.land_ones by lia. reflexivity.
  - f_equal. rewrite Z.div_div by lia. f_equal. rewrite Z.mul_comm, <- Z.pow_succ_r by lia. f_equal. lia.
Qed.
Lemma pc_first_po amount lm : forall n i ra al sr P a C,
  length ra = n -> length al = n -> length sr = n ->
  pc_first E amount lm n i ra al sr P a C =
  let bb := le_digits 2 n (amount / 2 ^ Z.of_nat i) in
  let '(ai, Ci, CiH, a') := po_loop E lm i ra bb (gen_Hpow_from E n P) a in
  let '(h, s1) := gb_first E al sr CiH bb in
  (map enc_sc ai, map enc_sc al, map (encp E) Ci, map enc_sc s1, h, a', fold_left (fun s c => point_add E s c) Ci C).
Proof.
  induction n as [|n IH]; intros i ra al sr P a C Lr La Ls.
  - destruct ra; [|discriminate]. destruct al; [|discriminate]. destruct sr; [|discriminate]. reflexivity.
  - destruct ra as [|r ra]; [discriminate|]. destruct al as [|a0 al]; [discriminate|].
    destruct sr as [|s sr]; [discriminate|]. rewrite bit_digits. cbn [pc_first gen_Hpow_from po_loop].
    rewrite IH by (cbn [length] in *; lia). cbv zeta. change (ATOMS - 1)%nat with 63%nat.
    destruct (po_loop E lm (S i) ra _ _ _) as [[[ais Cis] CiHs] a'] eqn:Ep. cbn [gb_first].
    destruct (gb_first E al sr CiHs _) as [h s1] eqn:Eg.
    destruct (Z.land _ 1 =? 0); [|reflexivity].
    cbn [map fold_left]. replace (point_add E (scalarmult_base E _) (pid E)) with
      (scalarmult_base E match lm with Some m => if (i =? 63)%nat then sc_sub m a else r | None => r end) by (symmetry; apply (id_r E L)).
    reflexivity.
Qed.
Lemma pc_second_gb amount ee : forall n i ai al sr s1 Ci,
  length ai = n -> length al = n -> length sr = n -> length s1 = n -> length Ci = n ->
  Forall scalar ai -> Forall scalar al ->
  pc_second E amount i ee (map enc_sc ai) (map enc_sc al) (map (encp E) Ci) (map enc_sc s1) sr =
  let '(s0, s1') := gb_second E ee ai al sr s1 Ci (le_digits 2 n (amount / 2 ^ Z.of_nat i)) in
  Ok (map enc_sc s0, map enc_sc s1').
Proof.
  induction n as [|n IH]; intros i ai al sr s1 Ci Li La Ls L1 Lc Fi Fa.
  - destruct ai; [|discriminate]. reflexivity.
  - destruct ai as [|x ai]; [discriminate|]. destruct al as [|a al]; [discriminate|]. destruct sr as [|s sr]; [discriminate|].
    destruct s1 as [|y s1]; [discriminate|]. destruct Ci as [|c Ci]; [discriminate|]. rewrite bit_digits. cbn [map pc_second gb_second].
    inversion Fi; inversion Fa; subst. rewrite IH by (assumption || (cbn [length] in *; lia)).
    destruct (gb_second E ee ai al sr s1 Ci _) as [s0 s1']. rewrite !enc_sc_val, !scalar_small by assumption.
    rewrite (law_dec E L). cbn [bind]. destruct (Z.land _ 1 =? 0); reflexivity.
Qed.

Lemma gb_lengths : forall n al sr Q bb, length al = n -> length sr = n -> length Q = n -> length bb = n ->
  length (snd (gb_first E al sr Q bb)) = n.
Proof.
  induction n as [|n IH]; intros al sr Q bb La Ls Lq Lb.
  - destruct al; [|discriminate]. reflexivity.
  - destruct al; [discriminate|]. destruct sr; [discriminate|]. destruct Q; [discriminate|]. destruct bb; [discriminate|].
    cbn [gb_first]. specialize (IH al sr Q bb). destruct (gb_first E al sr Q bb) as [h s1].
    destruct (_ =? 0); cbn [snd length] in *; rewrite IH by lia; reflexivity.
Qed.
Lemma bok_lengths xs Ps Qs bs al sr : bok xs Ps Qs bs al sr -> length Ps = length xs /\ length Qs = length xs /\ length bs = length xs /\ Forall scalar xs.
Proof. intros B. induction B; cbn [length]; [repeat split; constructor|]. destruct IHB as (-> & -> & -> & F). repeat split; constructor; assumption. Qed.

Lemma digits_bits n v : Forall (fun b : Z => (b = 0) \/ (b = 1)) (le_digits 2 n v).
Proof.
  revert v. induction n as [|n IH]; intros v; cbn [le_digits]; constructor; [|apply IH].
  pose proof (Z.mod_pos_bound v 2 ltac:(lia)). lia.
Qed.

Lemma orig_complete amount lm ra al sr :
  0 <= amount < 2 ^ 64 -> mask_ok lm ->
  scalars 64 ra -> scalars 64 al -> scalars 64 sr ->
  exists C a R, prove_range_orig E amount lm ra al sr = Ok (C, a, R) /\
    C = commit E a amount /\ scalar a /\ (forall m, lm = Some m -> a = m) /\
    ver_range E (Some C) R = Ok true /\ ver_range E None R = Ok true /\
    (forall C', C' <> C -> ver_range E (Some C') R = Ok false) /\
    scalars 64 (rs_s0 E R) /\ scalars 64 (rs_s1 E R) /\ scalar (rs_ee E R) /\ length (rs_Ci E R) = 64%nat.
Proof.
  intros Hv Hm (Lr & Fr) (La & Fa) (Ls & Fs). unfold prove_range_orig.
  rewrite (d2b_ok amount ATOMS Hv). cbn [bind]. set (bb := le_digits 2 ATOMS amount).
  assert (Lb : length bb = ATOMS) by apply le_digits_length.
  destruct (po_loop E lm 0 ra bb (gen_Hpow E ATOMS) 0) as [[[ai Ci] CiH] a] eqn:Ep.
  destruct (po_ok lm Hm ATOMS 0%nat ra bb al sr (Hb E) 0 ai Ci CiH a) as (B & Sa & Lm & Sum & V & N1 & N2);
    try assumption; try (apply digits_bits); try (split; reflexivity); try reflexivity.
  unfold gen_borromean. destruct (gb_first E al sr CiH bb) as [h s1] eqn:Ef.
  destruct (gb_second E (hash_to_scalar E h) ai al sr s1 Ci bb) as [s0 s1'] eqn:Eg.
  destruct (vb_complete (hash_to_scalar E h) _ _ _ _ _ _ (hts_scalar E h) B h s1 s0 s1' Ef Eg) as (Vb & X0 & X1).
  eexists _, _, _. split; [reflexivity|].
  assert (ECs : sum_Ci E Ci = psum0 Ci) by (unfold sum_Ci; rewrite fold_left_psum; apply (law_id E L)).
  rewrite ECs. split; [|split; [exact Sa|split; [intros m Em; apply Lm; [discriminate|exact Em]|]]].
  - rewrite Sum, Z.sub_0_r. unfold bb. rewrite le_val_digits by lia. rewrite Z.mod_small by exact Hv.
    unfold commit. rewrite !(smul_zmul E L) by (apply Sa || apply Hv). reflexivity.
  - unfold ver_range. cbn [rs_Ci rs_s0 rs_s1 rs_ee]. rewrite V. cbn [bind]. unfold ver_borromean. rewrite Vb. cbn [bind]. rewrite Z.eqb_refl.
    rewrite (proj2 (law_eqb E L _ _) eq_refl). split; [reflexivity|split; [reflexivity|]].
    split; [|rewrite N2 in X0, X1; repeat split; (apply X0 || apply X1 || apply (hts_scalar E h) || exact N2)].
    intros C' HC. destruct (pt_eqb E (psum0 Ci) C') eqn:Eq; [|reflexivity]. apply (law_eqb E L) in Eq. congruence.
Qed.
Lemma chunked_orig amount lm ra al sr :
  mask_ok lm ->
  scalars 64 ra -> scalars 64 al -> scalars 64 sr ->
  prove_range_chunked E amount lm ra al sr =
  match prove_range_orig E (amount mod 2 ^ 64) lm ra al sr with Ok (C, a, R) => Ok (C, a, enc_rs E R) | Err e => Err e end.
Proof.
  intros Hm (Lr & Fr) (La & Fa) (Ls & Fs). unfold prove_range_chunked, prove_range_orig.
  assert (Hv : 0 <= amount mod 2 ^ 64 < 2 ^ 64) by (apply Z.mod_pos_bound; reflexivity).
  rewrite (d2b_ok (amount mod 2 ^ 64) ATOMS Hv). cbn [bind].
  rewrite (pc_first_po amount lm 64) by assumption. change (amount / 2 ^ Z.of_nat 0) with (amount / 1). rewrite Z.div_1_r. cbv zeta.
  assert (Eb : le_digits 2 ATOMS (amount mod 2 ^ 64) = le_digits 2 64 amount).
  { change (2 ^ 64) with (2 ^ Z.of_nat 64). rewrite <- (le_val_digits 2 64 amount) by lia.
    pose proof (le_digits_val 2 (le_digits 2 64 amount) ltac:(lia) (le_digits_ok 2 64 amount ltac:(lia))) as Q.
    rewrite le_digits_length in Q. exact Q. }
  rewrite Eb. set (bb := le_digits 2 64 amount) in *. unfold gen_Hpow. change ATOMS with 64%nat.
  assert (Lb : length bb = 64%nat) by apply le_digits_length.
  destruct (po_loop E lm 0 ra bb (gen_Hpow_from E 64 (Hb E)) 0) as [[[ai Ci] CiH] a] eqn:Ep.
  destruct (po_ok lm Hm 64%nat 0%nat ra bb al sr (Hb E) 0 ai Ci CiH a) as (B & Sa & _ & _ & _ & N1 & N2);
    try assumption; try (apply digits_bits); try (split; reflexivity); try reflexivity.
  destruct (bok_lengths _ _ _ _ _ _ B) as (P1 & P2 & P3 & Fi).
  pose proof (gb_lengths 64 al sr CiH bb La Ls ltac:(lia) Lb) as L1.
  unfold gen_borromean. destruct (gb_first E al sr CiH bb) as [h s1] eqn:Ef. cbn [snd] in L1.
  rewrite (pc_second_gb amount (hash_to_scalar E h) 64 0) by assumption.
  change (amount / 2 ^ Z.of_nat 0) with (amount / 1). rewrite Z.div_1_r. fold bb.
  destruct (gb_second E (hash_to_scalar E h) ai al sr s1 Ci bb) as [s0 s1'] eqn:Eg. reflexivity.
Qed.
End P.
