(** The register level of the inner product argument computes the values of Bp_model. *)
From Verif Require Import Py PyLemmas Digits Ints_model Primes KeySep_proof Clsag_proof Ec_model Ec_spec Ec_proof Mlsag_model Bp_model Bp_proof1 Keyv_model Keyv_spec Keyv_proof Keyv_proof2 Regs_model.
Ltac Zify.zify_post_hook ::= idtac.

Lemma skipn_nth {A} (d : A) : forall k (xs : list A), (k < length xs)%nat -> skipn k xs = nth k xs d :: skipn (S k) xs.
Proof. induction k as [|k IH]; intros [|x xs] H; cbn [length] in H; try lia; [reflexivity|]. cbn [skipn nth]. apply IH. lia. Qed.
Lemma nth_map {A B} (f : A -> B) d e : forall k xs, (k < length xs)%nat -> nth k (map f xs) e = f (nth k xs d).
Proof. induction k as [|k IH]; intros [|x xs] H; cbn [length] in H; try lia; [reflexivity|]. cbn [map nth]. apply IH. lia. Qed.
Lemma nth_skip {A} (d : A) : forall i xs j, (i <= j)%nat -> nth (j - i) (skipn i xs) d = nth j xs d.
Proof.
  induction i as [|i IH]; intros xs j HJ; [rewrite Nat.sub_0_r; reflexivity|]. destruct j as [|j]; [lia|]. cbn [Nat.sub]. destruct xs as [|x xs]; [cbn [skipn]; destruct (j - i)%nat; reflexivity|].
  cbn [skipn nth]. apply IH. lia.
Qed.
Lemma map_skipn {A B} (f : A -> B) : forall k xs, map f (skipn k xs) = skipn k (map f xs).
Proof. induction k as [|k IH]; intros [|x xs]; try reflexivity. cbn [skipn map]. apply IH. Qed.

Lemma kto k a i : holds k a -> (i < length a)%nat -> keyv_to k (Z.of_nat i) = Ok (nth i a []).
Proof.
  intros H HI. rewrite (to_at k a _ H) by (unfold zlen; lia). destruct (at_in a (Z.of_nat i)) as [-> _]; [unfold zlen; lia|]. unfold pos_of. replace (Z.of_nat i <? 0) with false by lia.
  rewrite Nat2Z.id. reflexivity.
Qed.
Lemma kwrite k p x q b : holds k (p ++ x :: q) -> key b -> exists k', keyv_read k (Z.of_nat (length p)) b 0 = (k', Ok tt) /\ holds k' (p ++ b :: q).
Proof.
  intros H KB. destruct (read_put k _ (Z.of_nat (length p)) b H ltac:(unfold zlen; lia) KB) as [E1 E2]. pose proof (put_at_end p x q b) as P. unfold zlen in P. rewrite P in E1, E2.
  unfold unit_op in E1, E2. cbn [fst snd] in E1, E2. destruct (keyv_read k (Z.of_nat (length p)) b 0) as [k' r]. cbn [fst snd] in E1, E2. exists k'. split; [|exact E2].
  destruct r as [[]|e]; [reflexivity|discriminate].
Qed.
Lemma kshrink k a n : holds k a -> (n <= length a)%nat -> (n <= 32 \/ n mod 32 = 0)%nat -> exists k', keyv_resize k (Z.of_nat n) false false = (k', Ok tt) /\ holds k' (firstn n a).
Proof.
  intros H HN H32. destruct (resize_shrinks k a (Z.of_nat n) false H) as [E1 E2].
  - unfold zlen. lia.
  - destruct H32 as [Q|Q]; [left; lia|right]. change 32 with (Z.of_nat 32). rewrite <- Nat2Z.inj_mod, Q. reflexivity.
  - rewrite Nat2Z.id in E2. unfold unit_op in E1, E2. cbn [fst snd] in E1, E2. destruct (keyv_resize k (Z.of_nat n) false false) as [k' r]. cbn [fst snd] in E1, E2. exists k'.
    split; [|exact E2]. destruct r as [[]|e]; [reflexivity|discriminate].
Qed.
Lemma enc_key v : key (enc_sc v).
Proof. unfold key, enc_sc. apply le_digits_length. Qed.
Lemma sto k xs s e i : holds k (map enc_sc xs) -> Forall scalar xs -> (i < e - s)%nat -> (e <= length xs)%nat ->
  exists x, sliced_to k (Z.of_nat s) (Z.of_nat e) (Z.of_nat i) = Ok x /\ le_val 256 x = nth (s + i) xs 0.
Proof.
  intros H F HI HE. unfold sliced_to. rewrite idxize_in by lia. replace (Z.of_nat i <? 0) with false by lia. cbn [bind]. rewrite <- Nat2Z.inj_add.
  rewrite (kto k _ _ H) by (rewrite map_length; lia). eexists. split; [reflexivity|]. rewrite (nth_map enc_sc 0) by lia. apply enc_sc_val. rewrite Forall_forall in F. apply F, nth_In. lia.
Qed.

Section Proof.
Context (E : ecops) (L : ec_laws E) (enc32 : forall P, length (encp E P) = 32%nat) (gs : gens E) (y : Z) (SY : scalar y).
Local Notation pt := (pt E).
Local Notation regs := (regs E).
Local Notation add3 := (add_keys3 E).

(** registers evaluations leave alone *)
Definition keeps (r r' : regs) : Prop := c1 E r' = c1 E r /\ c2 E r' = c2 E r /\ c3 E r' = c3 E r /\ c4 E r' = c4 E r /\ p2 E r' = p2 E r /\ p3 E r' = p3 E r.
Lemma keeps_refl r : keeps r r. Proof. repeat split. Qed.
(** what a vector of points stands for *)
Definition stands (v : vec) (Ps : list pt) : Prop :=
  match v with
  | Stored k => holds k (map (encp E) Ps)
  | Precomp n isG => n = zlen Ps /\ forall i, (i < length Ps)%nat -> gen E gs isG (Z.of_nat i) = nth i Ps (pid E)
  | Scaled n pw own => n = zlen Ps /\ kp_size pw = n /\ kp_x pw = y /\
      forall i, (i < length Ps)%nat -> nth i Ps (pid E) = scalarmult E (gen E gs false (Z.of_nat i)) (y ^ Z.of_nat i mod l)
  end.
(** the next index it can be read at *)
Definition ready (v : vec) (i : nat) : Prop :=
  match v with Scaled _ pw _ => i = 0%nat \/ (kp_last pw + 1 = Z.of_nat i /\ kp_cur pw = y ^ kp_last pw mod l /\ 0 <= kp_last pw) | _ => True end.
Definition scratch (v : vec) : bool := match v with Scaled _ _ own => negb own | _ => false end.
Definition steady (v : vec) : bool := match v with Scaled _ _ _ => false | _ => true end.

Lemma pre_ok n isG i r : 0 <= i < n -> exists r', pre_to E gs n isG i r = Ok (r', encp E (gen E gs isG i)) /\ keeps r r' /\ p1 E r' = p1 E r.
Proof.
  intros H. unfold pre_to. rewrite idxize_in by lia. replace (i <? 0) with false by lia. cbn [bind]. cbv zeta. destruct (i <? BP_PRE).
  - exists r. split; [reflexivity|]. split; [apply keeps_refl|reflexivity].
  - eexists. split; [reflexivity|]. split; [repeat split|reflexivity].
Qed.
Lemma vec_to_ok v Ps i r : stands v Ps -> ready v i -> (i < length Ps)%nat ->
  exists v' r', vec_to E gs v (Z.of_nat i) r = Ok (v', r', encp E (nth i Ps (pid E))) /\ stands v' Ps /\ ready v' (S i) /\ keeps r r' /\
    (scratch v = false -> p1 E r' = p1 E r) /\ scratch v' = scratch v /\ (steady v = true -> v' = v) /\ steady v' = steady v.
Proof.
  intros ST RD HI. destruct v as [k|n isG|n pw own]; cbn [vec_to].
  - cbn [stands] in ST. rewrite (kto k _ _ ST) by (rewrite map_length; exact HI). cbn [bind]. exists (Stored k), r. rewrite (nth_map (encp E) (pid E)) by exact HI.
    split; [reflexivity|]. split; [exact ST|]. split; [exact I|]. split; [apply keeps_refl|]. repeat split.
  - destruct ST as [SZ HV]. destruct (pre_ok n isG (Z.of_nat i) r) as (r' & -> & K & P1); [unfold zlen in SZ; lia|]. cbn [bind]. exists (Precomp n isG), r'. rewrite HV by exact HI.
    split; [reflexivity|]. split; [exact (conj SZ HV)|]. split; [exact I|]. split; [exact K|]. split; [intros _; exact P1|]. repeat split.
  - destruct ST as (SZ & S1 & S2 & HV). assert (BI : 0 <= Z.of_nat i < n) by (unfold zlen in SZ; lia). rewrite idxize_in by lia. replace (Z.of_nat i <? 0) with false by lia. cbn [bind].
    destruct (pre_ok n false (Z.of_nat i) r BI) as (r' & -> & K & P1). cbn [bind].
    assert (G : kpow_get pw (Z.of_nat i) = (kp_with pw (y ^ Z.of_nat i mod l) (Z.of_nat i), Ok (y ^ Z.of_nat i mod l))).
    { unfold kpow_get. rewrite S1, S2. rewrite idxize_in by lia. replace (Z.of_nat i <? 0) with false by lia. destruct (Z.eqb_spec (Z.of_nat i) 0) as [E0|E0].
      { rewrite E0, Z.pow_0_r, (Z.mod_small 1) by (split; [discriminate|reflexivity]). reflexivity. }
      destruct (Z.eqb_spec (Z.of_nat i) 1) as [E1|E1]. { rewrite E1, Z.pow_1_r, (Z.mod_small y) by exact SY. reflexivity. }
      destruct RD as [RD|(RD & RC & R0)]; [lia|]. replace (Z.of_nat i =? kp_last pw) with false by lia. replace (Z.of_nat i =? kp_last pw + 1) with true by lia. rewrite RC, mul_pow by exact R0. rewrite RD. reflexivity. }
    rewrite G. cbn [bind]. rewrite (law_dec E L). cbn [bind]. cbv zeta.
    eexists. eexists. split; [rewrite <- HV by exact HI; reflexivity|]. split; [|split].
    + cbn [stands kp_size kp_x kp_with]. exact (conj SZ (conj S1 (conj S2 HV))).
    + cbn [ready kp_last kp_cur kp_with]. right. split; [clear; lia|]. split; [reflexivity|clear; lia].
    + split; [destruct own; [exact K|exact K]|]. split; [destruct own; [intros _; exact P1|discriminate]|]. split; [reflexivity|]. split; [discriminate|reflexivity].
Qed.
Lemma view_ok v Ps s e i r : stands v Ps -> ready v (s + i) -> (i < e - s)%nat -> (e <= length Ps)%nat ->
  exists v' r', view_to E gs v (Z.of_nat s) (Z.of_nat e) (Z.of_nat i) r = Ok (v', r', encp E (nth (s + i) Ps (pid E))) /\ stands v' Ps /\ ready v' (S (s + i)) /\ keeps r r' /\
    (scratch v = false -> p1 E r' = p1 E r) /\ scratch v' = scratch v /\ (steady v = true -> v' = v) /\ steady v' = steady v.
Proof.
  intros ST RD HI HE. unfold view_to. rewrite idxize_in by lia. replace (Z.of_nat i <? 0) with false by lia. cbn [bind]. rewrite <- Nat2Z.inj_add. apply vec_to_ok; try assumption. lia.
Qed.

(** inner products *)
Lemma ip_loop_ok ka xs kb ys sa ea sb eb : holds ka (map enc_sc xs) -> holds kb (map enc_sc ys) -> Forall scalar xs -> Forall scalar ys ->
  (ea <= length xs)%nat -> (eb <= length ys)%nat -> forall n i r, (i + n <= ea - sa)%nat -> (i + n <= eb - sb)%nat ->
  exists r', ip_loop E n (Z.of_nat i) ka (Z.of_nat sa) (Z.of_nat ea) kb (Z.of_nat sb) (Z.of_nat eb) r = Ok r' /\
    c1 E r' = inner_product (c1 E r) (firstn n (skipn (sa + i) xs)) (firstn n (skipn (sb + i) ys)).
Proof.
  intros HA HB FA FB LA LB. induction n as [|n IH]; intros i r H1 H2; [exists r; split; reflexivity|]. cbn [ip_loop].
  destruct (sto ka xs sa ea i HA FA ltac:(lia) LA) as (x & -> & EX). cbn [bind]. destruct (sto kb ys sb eb i HB FB ltac:(lia) LB) as (w & -> & EW). cbn [bind].
  replace (Z.of_nat i + 1) with (Z.of_nat (S i)) by lia. destruct (IH (S i) (set_c1 E (set_c3 E (set_c2 E r (le_val 256 x)) (le_val 256 w)) (sc_muladd (c2 E (set_c3 E (set_c2 E r (le_val 256 x)) (le_val 256 w))) (c3 E (set_c3 E (set_c2 E r (le_val 256 x)) (le_val 256 w))) (c1 E (set_c3 E (set_c2 E r (le_val 256 x)) (le_val 256 w))))) ltac:(lia) ltac:(lia)) as (r' & -> & EC).
  exists r'. split; [reflexivity|]. rewrite EC. cbn [c1 c2 c3 set_c1 set_c2 set_c3]. rewrite (skipn_nth 0 (sa + i) xs), (skipn_nth 0 (sb + i) ys) by lia. cbn [firstn inner_product].
  rewrite EX, EW. rewrite !Nat.add_succ_r. reflexivity.
Qed.
Lemma ip_code_ok ka xs kb ys sa ea sb eb r : holds ka (map enc_sc xs) -> holds kb (map enc_sc ys) -> Forall scalar xs -> Forall scalar ys ->
  (ea <= length xs)%nat -> (eb <= length ys)%nat -> (sa <= ea)%nat -> (sb <= eb)%nat -> (ea - sa = eb - sb)%nat ->
  exists r', ip_code E ka (Z.of_nat sa) (Z.of_nat ea) kb (Z.of_nat sb) (Z.of_nat eb) r =
    Ok (r', enc_sc (inner_product 0 (firstn (ea - sa) (skipn sa xs)) (firstn (ea - sa) (skipn sb ys)))).
Proof.
  intros HA HB FA FB LA LB S1 S2 EQ. unfold ip_code. replace (Z.of_nat ea - Z.of_nat sa =? Z.of_nat eb - Z.of_nat sb) with true by (symmetry; apply Z.eqb_eq; lia). cbn [guard bind].
  replace (Z.to_nat (Z.of_nat ea - Z.of_nat sa)) with (ea - sa)%nat by lia.
  destruct (ip_loop_ok ka xs kb ys sa ea sb eb HA HB FA FB LA LB (ea - sa) 0 (set_c1 E r 0) ltac:(lia) ltac:(lia)) as (r' & E1 & EC). change (Z.of_nat 0) with 0 in E1. rewrite E1. cbn [bind].
  exists r'. rewrite EC, !Nat.add_0_r. reflexivity.
Qed.

(** sums of multiples *)
Lemma vexp_loop_ok Ps Qs ka xs kb ys sA eA sB eB sa ea sb eb : holds ka (map enc_sc xs) -> holds kb (map enc_sc ys) -> Forall scalar xs -> Forall scalar ys ->
  (ea <= length xs)%nat -> (eb <= length ys)%nat -> (eA <= length Ps)%nat -> (eB <= length Qs)%nat ->
  forall n i A B r, (i + n <= ea - sa)%nat -> (i + n <= eb - sb)%nat -> (i + n <= eA - sA)%nat -> (i + n <= eB - sB)%nat ->
  stands A Ps -> stands B Qs -> ready A (sA + i) -> ready B (sB + i) ->
  exists A' B' r', vexp_loop E gs n (Z.of_nat i) A (Z.of_nat sA) (Z.of_nat eA) B (Z.of_nat sB) (Z.of_nat eB) ka (Z.of_nat sa) (Z.of_nat ea) kb (Z.of_nat sb) (Z.of_nat eb) r = Ok (A', B', r') /\
    p2 E r' = vector_exponent E (p2 E r) (firstn n (skipn (sA + i) Ps)) (firstn n (skipn (sB + i) Qs)) (firstn n (skipn (sa + i) xs)) (firstn n (skipn (sb + i) ys)) /\
    stands A' Ps /\ stands B' Qs /\ ready B' (sB + i + n) /\ scratch B' = scratch B /\ (steady A = true -> A' = A) /\ (steady B = true -> B' = B) /\ steady B' = steady B.
Proof.
  intros HA HB FA FB LA LB LP LQ. induction n as [|n IH]; intros i A B r N1 N2 N3 N4 SA SB RA RB.
  { exists A, B, r. rewrite Nat.add_0_r. cbn [vexp_loop firstn vector_exponent]. repeat split; try assumption; reflexivity. }
  cbn [vexp_loop]. destruct (sto ka xs sa ea i HA FA ltac:(lia) LA) as (x & -> & EX). cbn [bind]. set (r1 := set_c1 E r (le_val 256 x)).
  destruct (view_ok A Ps sA eA i r1 SA RA ltac:(lia) LP) as (A1 & r2 & -> & SA1 & RA1 & K1 & _ & _ & TA & TA'). rewrite (law_dec E L). cbn [bind].
  destruct (sto kb ys sb eb i HB FB ltac:(lia) LB) as (w & -> & EW). cbn [bind]. set (r3 := set_c2 E (set_p3 E r2 _) (le_val 256 w)).
  destruct (view_ok B Qs sB eB i r3 SB RB ltac:(lia) LQ) as (B1 & r4 & -> & SB1 & RB1 & K2 & _ & CB & TB & TB'). rewrite (law_dec E L). cbn [bind].
  replace (Z.of_nat i + 1) with (Z.of_nat (S i)) by lia. rewrite <- Nat.add_succ_r in RA1, RB1.
  set (r5 := set_p2 E _ _). destruct (IH (S i) A1 B1 r5 ltac:(lia) ltac:(lia) ltac:(lia) ltac:(lia) SA1 SB1 RA1 RB1) as (A' & B' & r' & -> & EP & SA' & SB' & RB' & CB' & UA & UB & UB'). exists A', B', r'.
  split; [reflexivity|]. split; [|split; [exact SA'|split; [exact SB'|split; [replace (sB + i + S n)%nat with (sB + S i + n)%nat by lia; exact RB'|split; [rewrite CB'; exact CB|]]]]].
  - rewrite EP. rewrite (skipn_nth (pid E) (sA + i) Ps), (skipn_nth (pid E) (sB + i) Qs), (skipn_nth 0 (sa + i) xs), (skipn_nth 0 (sb + i) ys) by lia. cbn [firstn vector_exponent]. rewrite !Nat.add_succ_r.
    f_equal. unfold r5. destruct K1 as (Ka & Kb & Kc & Kd & Ke & Kf), K2 as (Ja & Jb & Jc & Jd & Je & Jf). cbn [p1 p2 p3 p4 c1 c2 set_p1 set_p2 set_p3 set_p4 set_c1 set_c2].
    rewrite Ja, Jb, Je, Jf. unfold r3. cbn [p1 p2 p3 p4 c1 c2 set_p1 set_p2 set_p3 set_p4 set_c1 set_c2]. rewrite Ka, Ke. unfold r1. cbn [p2 c1 set_c1]. rewrite EX, EW. reflexivity.
  - split; [intros TT; rewrite (UA (eq_trans TA' TT)); exact (TA TT)|]. split; [intros TT; rewrite (UB (eq_trans TB' TT)); exact (TB TT)|]. rewrite UB'. exact TB'.
Qed.
Lemma vexp_code_ok Ps Qs ka xs kb ys sA sB sa sb n A B r : holds ka (map enc_sc xs) -> holds kb (map enc_sc ys) -> Forall scalar xs -> Forall scalar ys ->
  (sa + n <= length xs)%nat -> (sb + n <= length ys)%nat -> (sA + n <= length Ps)%nat -> (sB + n <= length Qs)%nat ->
  stands A Ps -> stands B Qs -> ready A sA -> ready B sB ->
  exists A' B' r', vexp_code E gs A (Z.of_nat sA) (Z.of_nat (sA + n)) B (Z.of_nat sB) (Z.of_nat (sB + n)) ka (Z.of_nat sa) (Z.of_nat (sa + n)) kb (Z.of_nat sb) (Z.of_nat (sb + n)) r = Ok (A', B', r') /\
    b0 E r' = encp E (vector_exponent E (pid E) (firstn n (skipn sA Ps)) (firstn n (skipn sB Qs)) (firstn n (skipn sa xs)) (firstn n (skipn sb ys))) /\
    stands A' Ps /\ stands B' Qs /\ ready B' (sB + n) /\ scratch B' = scratch B /\ (steady A = true -> A' = A) /\ (steady B = true -> B' = B) /\ steady B' = steady B.
Proof.
  intros HA HB FA FB LA LB LP LQ SA SB RA RB. unfold vexp_code. replace (Z.to_nat (Z.of_nat (sa + n) - Z.of_nat sa)) with n by lia.
  destruct (vexp_loop_ok Ps Qs ka xs kb ys sA (sA + n) sB (sB + n) sa (sa + n) sb (sb + n) HA HB FA FB LA LB LP LQ n 0 A B (set_p2 E r (pid E)) ltac:(lia) ltac:(lia) ltac:(lia) ltac:(lia) SA SB ltac:(rewrite Nat.add_0_r; exact RA) ltac:(rewrite Nat.add_0_r; exact RB))
    as (A' & B' & r' & E1 & EP & Q). change (Z.of_nat 0) with 0 in E1. rewrite E1. exists A', B', (set_b0 E r' (encp E (p2 E r'))). split; [reflexivity|]. rewrite !Nat.add_0_r in EP. rewrite !Nat.add_0_r in Q.
  split; [|exact Q]. cbn [b0 set_b0]. rewrite EP. reflexivity.
Qed.

Lemma close_ok c x r P : scalar c -> scalar x -> b0 E r = encp E P ->
  exists r', close_code E (enc_sc c) (enc_sc x) r = Ok r' /\ b0 E r' = inv8 E (point_add E P (scalarmult E (Hb E) (sc_mul c x))).
Proof.
  intros SC SX HB. unfold close_code. cbv zeta. cbn [p1 p2 p3 c1 c2 c3 b0 set_p1 set_p2 set_p3 set_c1 set_c2 set_c3 set_b0]. rewrite HB, !(law_dec E L). cbn [bind].
  rewrite (law_dec E L). cbn [bind]. eexists. split; [reflexivity|]. cbn [p1 p2 p3 c1 c2 c3 b0 set_p1 set_p2 set_p3 set_c1 set_c2 set_c3 set_b0].
  rewrite !enc_sc_val by (assumption || apply n_mul). rewrite (Z.mod_small (sc_mul c x)) by apply n_mul. reflexivity.
Qed.

(** folding in place *)
Lemma sfold_loop_ok xs h a b : length xs = (2 * h)%nat -> Forall scalar xs -> forall n i done v r, (i + n = h)%nat -> length done = i ->
  holds v (map enc_sc done ++ map enc_sc (skipn i xs)) -> c1 E r = a -> c2 E r = b ->
  exists v' r', sfold_loop E n (Z.of_nat i) (Z.of_nat h) v r = Ok (v', r') /\
    holds v' (map enc_sc (done ++ scalar_fold (firstn n (skipn i xs)) (firstn n (skipn (h + i) xs)) a b) ++ map enc_sc (skipn h xs)).
Proof.
  intros LX FX. induction n as [|n IH]; intros i done v r HI HD HV C1 C2.
  { exists v, r. split; [reflexivity|]. cbn [firstn scalar_fold map2]. rewrite app_nil_r. rewrite Nat.add_0_r in HI. rewrite <- HI. exact HV. }
  cbn [sfold_loop]. assert (LV : length (map enc_sc done ++ map enc_sc (skipn i xs)) = (2 * h)%nat) by (rewrite app_length, !map_length, skipn_length; lia).
  assert (N : forall j, (i <= j < 2 * h)%nat -> nth j (map enc_sc done ++ map enc_sc (skipn i xs)) [] = enc_sc (nth j xs 0)).
  { intros j HJ. rewrite app_nth2 by (rewrite map_length; lia). rewrite map_length, HD, (nth_map enc_sc 0) by (rewrite skipn_length; lia). f_equal.
    apply nth_skip. lia. }
  rewrite (kto v _ i HV) by lia. cbn [bind]. rewrite <- Nat2Z.inj_add. rewrite (kto v _ (h + i) HV) by lia. cbn [bind]. rewrite !N by lia.
  set (r1 := set_b0 E _ _). assert (EB : b0 E r1 = enc_sc (sc_add (sc_mul (nth i xs 0) a) (sc_mul (nth (h + i) xs 0) b))).
  { unfold r1. cbn [c1 c2 c3 c4 b0 set_c1 set_c2 set_c3 set_c4 set_b0]. rewrite Forall_forall in FX. rewrite !enc_sc_val by (apply FX, nth_In; lia). rewrite C1, C2. reflexivity. }
  assert (C1' : c1 E r1 = a) by exact C1. assert (C2' : c2 E r1 = b) by exact C2. rewrite EB. clearbody r1.
  rewrite (skipn_nth 0 i xs) in HV by lia. cbn [map] in HV. destruct (kwrite v (map enc_sc done) _ _ _ HV (enc_key (sc_add (sc_mul (nth i xs 0) a) (sc_mul (nth (h + i) xs 0) b)))) as (v1 & EW & HV1).
  rewrite map_length, HD in EW. rewrite EW. replace (Z.of_nat i + 1) with (Z.of_nat (S i)) by lia.
  destruct (IH (S i) (done ++ [sc_add (sc_mul (nth i xs 0) a) (sc_mul (nth (h + i) xs 0) b)]) v1 r1 ltac:(lia) ltac:(rewrite app_length; cbn [length]; lia) ltac:(rewrite map_app, <- app_assoc; exact HV1) C1' C2') as (v' & r' & -> & HV').
  exists v', r'. split; [reflexivity|]. rewrite (skipn_nth 0 i xs), (skipn_nth 0 (h + i) xs) by lia. cbn [firstn scalar_fold map2]. rewrite <- app_assoc in HV'. cbn [app] in HV'. rewrite Nat.add_succ_r in HV'. exact HV'.
Qed.
Lemma sfold_code_ok v xs h a b r : holds v (map enc_sc xs) -> length xs = (2 * h)%nat -> Forall scalar xs -> scalar a -> scalar b -> (h <= 32 \/ h mod 32 = 0)%nat ->
  exists v' r', sfold_code E v (enc_sc a) (enc_sc b) (Z.of_nat h) r = Ok (v', r') /\ holds v' (map enc_sc (scalar_fold (firstn h xs) (skipn h xs) a b)).
Proof.
  intros HV LX FX SA SB H32. unfold sfold_code. cbv zeta. assert (SZ : kv_size v = Z.of_nat (2 * h)) by (destruct HV as (_ & -> & _); unfold zlen; rewrite map_length, LX; reflexivity).
  rewrite SZ. replace (Z.of_nat (2 * h) / 2) with (Z.of_nat h) by (rewrite Nat2Z.inj_mul, Z.mul_comm; symmetry; apply Z.div_mul; discriminate). rewrite Nat2Z.id.
  set (r1 := set_c2 E _ _). destruct (sfold_loop_ok xs h a b LX FX h 0 [] v r1 ltac:(lia) eq_refl HV) as (v1 & r2 & E1 & HV1).
  { unfold r1. cbn [c1 set_c1 set_c2]. apply enc_sc_val, SA. } { unfold r1. cbn [c2 set_c2]. apply enc_sc_val, SB. }
  change (Z.of_nat 0) with 0 in E1. rewrite E1. cbn [bind]. cbn [app skipn] in HV1. rewrite Nat.add_0_r in HV1. rewrite (firstn_all2 (skipn h xs)) in HV1 by (rewrite skipn_length; lia).
  set (F := scalar_fold (firstn h xs) (skipn h xs) a b) in *. assert (LF : length F = h) by (unfold F, scalar_fold; rewrite map2_length, firstn_length, skipn_length; lia).
  destruct (kshrink v1 _ h HV1) as (v2 & -> & HV2); [rewrite app_length, !map_length, skipn_length; lia|exact H32|]. exists v2, r2. split; [reflexivity|].
  rewrite firstn_app, firstn_all2 in HV2 by (rewrite map_length; lia). rewrite map_length, LF, Nat.sub_diag in HV2. cbn [firstn] in HV2. rewrite app_nil_r in HV2. exact HV2.
Qed.

(** folding points: into a new vector *)
Lemma hfold_out_ok Ps h a b : length Ps = (2 * h)%nat -> forall n i done rest v vR d r, (i + n = h)%nat -> length done = i -> length rest = n ->
  stands v Ps -> ready v i -> match vR with None => steady v = true | Some w => stands w Ps /\ ready w (h + i) /\ scratch w = false end ->
  holds d (map (encp E) done ++ rest) -> c1 E r = a -> c2 E r = b ->
  exists v' d' r', hfold_loop E gs n (Z.of_nat i) (Z.of_nat h) v vR (Some d) r = Ok (v', Some d', r') /\
    holds d' (map (encp E) (done ++ hadamard_fold E (firstn n (skipn i Ps)) (firstn n (skipn (h + i) Ps)) a b)).
Proof.
  intros LP. induction n as [|n IH]; intros i done rest v vR d r HI HD HRs SV RV HW HDd C1 C2.
  { exists v, d, r. split; [reflexivity|]. cbn [firstn hadamard_fold map2]. rewrite app_nil_r. destruct rest; [|discriminate]. rewrite app_nil_r in HDd. exact HDd. }
  cbn [hfold_loop]. destruct (vec_to_ok v Ps i r SV RV ltac:(lia)) as (v1 & r1 & -> & SV1 & RV1 & (Ka & Kb & _) & _ & _ & TV & TV'). rewrite (law_dec E L). cbn [bind]. set (r2 := set_p1 E r1 _).
  destruct rest as [|x rest]; [discriminate|]. cbn [length] in HRs.
  assert (STEP : exists v2 vR2 r3, (match vR with
                 | None => match vec_to E gs v1 (Z.of_nat h + Z.of_nat i) r2 with Ok (v, r, k) => Ok (v, None, r, k) | Err e => Err e end
                 | Some w => match vec_to E gs w (Z.of_nat i + Z.of_nat h) r2 with Ok (w, r, k) => Ok (v1, Some w, r, k) | Err e => Err e end
                 end) = Ok (v2, vR2, r3, encp E (nth (h + i) Ps (pid E))) /\ keeps r2 r3 /\ p1 E r3 = p1 E r2 /\ stands v2 Ps /\ ready v2 (S i) /\
                 match vR2 with None => steady v2 = true | Some w => stands w Ps /\ ready w (h + S i) /\ scratch w = false end).
  { destruct vR as [w|].
    - destruct HW as (SW & RW & CW). replace (Z.of_nat i + Z.of_nat h) with (Z.of_nat (h + i)) by lia. destruct (vec_to_ok w Ps (h + i) r2 SW RW ltac:(lia)) as (w1 & r3 & -> & SW1 & RW1 & K2 & P1 & CW1 & _).
      exists v1, (Some w1), r3. split; [reflexivity|]. split; [exact K2|]. split; [exact (P1 CW)|]. split; [exact SV1|]. split; [exact RV1|]. rewrite Nat.add_succ_r. split; [exact SW1|]. split; [exact RW1|]. rewrite CW1. exact CW.
    - assert (S1 : steady v1 = true) by (rewrite TV'; exact HW). assert (RD : forall j, ready v1 j) by (intros j; destruct v1; [exact I|exact I|discriminate]). rewrite <- Nat2Z.inj_add.
      destruct (vec_to_ok v1 Ps (h + i) r2 SV1 (RD _) ltac:(lia)) as (v2 & r3 & -> & SV2 & _ & K2 & P1 & _ & T2 & _). exists v2, None, r3. specialize (T2 S1). subst v2.
      split; [reflexivity|]. split; [exact K2|]. split; [apply P1; destruct v1; [reflexivity|reflexivity|discriminate]|]. split; [exact SV1|]. split; [apply RD|exact S1]. }
  destruct STEP as (v2 & vR2 & r3 & -> & (Ja & Jb & _) & P1 & SV2 & RV2 & HW2). rewrite (law_dec E L). cbn [bind].
  set (Q := add_keys3 E a (nth i Ps (pid E)) b (nth (h + i) Ps (pid E))). set (r4 := set_b0 E _ _).
  assert (EB : b0 E r4 = encp E Q).
  { unfold r4, Q. cbn [p1 p2 p3 c1 c2 b0 set_p1 set_p2 set_p3 set_b0]. rewrite Ja, Jb, P1. unfold r2. cbn [p1 c1 c2 set_p1]. rewrite Ka, Kb, C1, C2. reflexivity. }
  assert (C1' : c1 E r4 = a) by (unfold r4; cbn [c1 set_p2 set_p3 set_b0]; rewrite Ja; unfold r2; cbn [c1 set_p1]; rewrite Ka; exact C1).
  assert (C2' : c2 E r4 = b) by (unfold r4; cbn [c2 set_p2 set_p3 set_b0]; rewrite Jb; unfold r2; cbn [c2 set_p1]; rewrite Kb; exact C2).
  rewrite EB. clearbody r4. destruct (kwrite d (map (encp E) done) x rest (encp E Q) HDd (enc32 Q)) as (d1 & EW & HD1). rewrite map_length, HD in EW. rewrite EW. replace (Z.of_nat i + 1) with (Z.of_nat (S i)) by lia.
  destruct (IH (S i) (done ++ [Q]) rest v2 vR2 d1 r4 ltac:(lia) ltac:(rewrite app_length; cbn [length]; lia) ltac:(lia) SV2 RV2 HW2 ltac:(rewrite map_app, <- app_assoc; exact HD1) C1' C2') as (v' & d' & r' & -> & HD').
  exists v', d', r'. split; [reflexivity|]. rewrite (skipn_nth (pid E) i Ps), (skipn_nth (pid E) (h + i) Ps) by lia. cbn [firstn hadamard_fold map2]. rewrite <- app_assoc in HD'. cbn [app] in HD'. rewrite Nat.add_succ_r in HD'. exact HD'.
Qed.
(** in place *)
Lemma hfold_in_ok Ps h a b : length Ps = (2 * h)%nat -> forall n i done k r, (i + n = h)%nat -> length done = i ->
  holds k (map (encp E) (done ++ skipn i Ps)) -> c1 E r = a -> c2 E r = b ->
  exists k' r', hfold_loop E gs n (Z.of_nat i) (Z.of_nat h) (Stored k) None None r = Ok (Stored k', None, r') /\
    holds k' (map (encp E) ((done ++ hadamard_fold E (firstn n (skipn i Ps)) (firstn n (skipn (h + i) Ps)) a b) ++ skipn h Ps)).
Proof.
  intros LP. induction n as [|n IH]; intros i done k r HI HD HK C1 C2.
  { exists k, r. split; [reflexivity|]. cbn [firstn hadamard_fold map2]. rewrite app_nil_r. rewrite Nat.add_0_r in HI. rewrite <- HI. exact HK. }
  cbn [hfold_loop vec_to]. assert (LV : length (done ++ skipn i Ps) = (2 * h)%nat) by (rewrite app_length, skipn_length; lia).
  assert (N : forall j, (i <= j < 2 * h)%nat -> nth j (map (encp E) (done ++ skipn i Ps)) [] = encp E (nth j Ps (pid E))).
  { intros j HJ. rewrite (nth_map (encp E) (pid E)) by lia. f_equal. rewrite app_nth2 by lia. rewrite HD.
    apply nth_skip. lia. }
  rewrite (kto k _ i HK) by (rewrite map_length; lia). cbn [bind]. rewrite N by lia. rewrite (law_dec E L). cbn [bind vec_to]. rewrite <- Nat2Z.inj_add. rewrite (kto k _ (h + i) HK) by (rewrite map_length; lia). cbn [bind].
  rewrite N by lia. rewrite (law_dec E L). cbn [bind]. set (Q := add_keys3 E a (nth i Ps (pid E)) b (nth (h + i) Ps (pid E))). set (r4 := set_b0 E _ _).
  assert (EB : b0 E r4 = encp E Q) by (unfold r4, Q; cbn [p1 p2 p3 c1 c2 b0 set_p1 set_p2 set_p3 set_b0]; rewrite C1, C2; reflexivity).
  assert (C1' : c1 E r4 = a) by exact C1. assert (C2' : c2 E r4 = b) by exact C2. rewrite EB. clearbody r4.
  rewrite (skipn_nth (pid E) i Ps) in HK by lia. rewrite map_app in HK. cbn [map] in HK. destruct (kwrite k (map (encp E) done) _ _ (encp E Q) HK (enc32 Q)) as (k1 & EW & HK1). rewrite map_length, HD in EW. rewrite EW.
  replace (Z.of_nat i + 1) with (Z.of_nat (S i)) by lia. destruct (IH (S i) (done ++ [Q]) k1 r4 ltac:(lia) ltac:(rewrite app_length; cbn [length]; lia) ltac:(rewrite <- app_assoc, map_app; exact HK1) C1' C2') as (k' & r' & -> & HK').
  exists k', r'. split; [reflexivity|]. rewrite (skipn_nth (pid E) i Ps), (skipn_nth (pid E) (h + i) Ps) by lia. cbn [firstn hadamard_fold map2].
  rewrite <- (app_assoc done [Q]) in HK'. cbn [app] in HK'. rewrite Nat.add_succ_r in HK'. exact HK'.
Qed.
Lemma stands_size v Ps : stands v Ps -> vec_size v = zlen Ps.
Proof. destruct v as [k|n g|n pw own]; cbn [stands vec_size]; [intros (_ & -> & _); unfold zlen; rewrite map_length; reflexivity|intros [-> _]; reflexivity|intros [-> _]; reflexivity]. Qed.
Lemma half_double h : Z.of_nat (2 * h) / 2 = Z.of_nat h.
Proof. rewrite Nat2Z.inj_mul, Z.mul_comm. apply Z.div_mul. discriminate. Qed.
Lemma had_length h Ps a b : length Ps = (2 * h)%nat -> length (hadamard_fold E (firstn h Ps) (skipn h Ps) a b) = h.
Proof. intros H. unfold hadamard_fold. rewrite map2_length, firstn_length, skipn_length. lia. Qed.
Lemma hfold_code_ok v vR into Ps h a b r : length Ps = (2 * h)%nat -> stands v Ps -> ready v 0 -> scalar a -> scalar b -> (h <= 32 \/ h mod 32 = 0)%nat ->
  match into, vR with
  | Some d, None => steady v = true /\ exists ks, holds d ks /\ length ks = h
  | Some d, Some w => (stands w Ps /\ ready w h /\ scratch w = false) /\ exists ks, holds d ks /\ length ks = h
  | None, None => exists k, v = Stored k
  | None, Some _ => False
  end ->
  exists k' r', hfold_code E gs v vR into (enc_sc a) (enc_sc b) (Z.of_nat h) r = Ok (Stored k', r') /\ holds k' (map (encp E) (hadamard_fold E (firstn h Ps) (skipn h Ps) a b)).
Proof.
  intros LP SV RV SA SB H32 HM. unfold hfold_code. cbv zeta. rewrite (stands_size v Ps SV). unfold zlen. rewrite LP, half_double, Nat2Z.id. set (r1 := set_c2 E _ _).
  assert (C1 : c1 E r1 = a) by (unfold r1; cbn [c1 set_c1 set_c2]; apply enc_sc_val, SA). assert (C2 : c2 E r1 = b) by (unfold r1; cbn [c2 set_c2]; apply enc_sc_val, SB). clearbody r1.
  set (F := hadamard_fold E (firstn h Ps) (skipn h Ps) a b). assert (LF : length F = h) by (apply had_length, LP).
  assert (FE : firstn h (skipn h Ps) = skipn h Ps) by (apply firstn_all2; rewrite skipn_length; lia).
  destruct into as [d|].
  - assert (HD : exists ks, holds d ks /\ length ks = h) by (destruct vR; tauto). destruct HD as (ks & HD & LK).
    assert (HW : match vR with None => steady v = true | Some w => stands w Ps /\ ready w (h + 0) /\ scratch w = false end) by (rewrite Nat.add_0_r; destruct vR; tauto).
    destruct (hfold_out_ok Ps h a b LP h 0 [] ks v vR d r1 ltac:(lia) eq_refl LK SV RV HW HD C1 C2) as (v' & d' & r' & E1 & HD'). change (Z.of_nat 0) with 0 in E1. rewrite E1.
    cbn [app skipn] in HD'. rewrite Nat.add_0_r, FE in HD'. fold F in HD'. destruct (kshrink d' _ h HD') as (d2 & -> & HD2); [rewrite map_length; lia|exact H32|]. exists d2, r'. split; [reflexivity|].
    rewrite firstn_all2 in HD2 by (rewrite map_length; lia). exact HD2.
  - destruct vR as [w|]; [destruct HM|]. destruct HM as (k & ->). destruct (hfold_in_ok Ps h a b LP h 0 [] k r1 ltac:(lia) eq_refl SV C1 C2) as (k' & r' & E1 & HK). change (Z.of_nat 0) with 0 in E1. rewrite E1.
    cbn [app skipn] in HK. rewrite Nat.add_0_r, FE in HK. fold F in HK. destruct (kshrink k' _ h HK) as (d2 & -> & HD2); [rewrite map_length, app_length, skipn_length; lia|exact H32|]. exists d2, r'. split; [reflexivity|].
    rewrite map_app, firstn_app, firstn_all2 in HD2 by (rewrite map_length; lia). rewrite map_length, LF, Nat.sub_diag in HD2. cbn [firstn] in HD2. rewrite app_nil_r in HD2. exact HD2.
Qed.
End Proof.
