(** C76: the registers and buffers the steps of a range proof share do not disturb it. *)
From Verif Require Import Py PyLemmas Digits Ints_model Primes KeySep_proof Clsag_proof Ec_model Ec_spec Ec_proof Ec_toy Mlsag_model Bp_model Bp_proof1 Bp_proof2 Bp_proof4 Bp_proof6 Keyv_model Keyv_spec Keyv_proof Keyv_proof2 Regs_model Regs_proof Regs_proof2 Prop_Bp.
Ltac Zify.zify_post_hook ::= idtac.

(** [v] has the keys [ks], as seen from outside *)
Definition reads (v : keyv) (ks : list (list Z)) : Prop := kv_size v = zlen ks /\ forall i, (i < length ks)%nat -> keyv_to v (Z.of_nat i) = Ok (nth i ks []).

Lemma written_from : forall xs done v, holds v (map enc_sc done ++ repeat zero_key (length xs)) -> holds (keyv_after v (writes (Z.of_nat (length done)) xs)) (map enc_sc (done ++ xs)).
Proof.
  induction xs as [|x xs IH]; intros done v H; [cbn [length repeat] in H; rewrite app_nil_r in H |- *; exact H|]. cbn [writes keyv_after fold_left keyv_step length repeat] in *.
  destruct (kwrite v (map enc_sc done) _ _ _ H (enc_key x)) as (v' & EW & H'). rewrite map_length in EW. rewrite EW. cbn [unit_op fst snd]. fold (keyv_after v' (writes (Z.of_nat (length done) + 1) xs)).
  replace (Z.of_nat (length done) + 1) with (Z.of_nat (length (done ++ [x]))) by (rewrite app_length; cbn [length]; lia). replace (done ++ x :: xs) with ((done ++ [x]) ++ xs) by (rewrite <- app_assoc; reflexivity).
  apply IH. rewrite map_app, <- app_assoc. exact H'.
Qed.
Lemma written_holds xs : holds (written xs) (map enc_sc xs).
Proof. apply (written_from xs [] (keyv_new (zlen xs))). pose proof (new_holds (zlen xs) ltac:(unfold zlen; lia)) as H. unfold zlen at 2 in H. rewrite Nat2Z.id in H. exact H. Qed.
Lemma written_reads xs : reads (written xs) (map enc_sc xs).
Proof. pose proof (written_holds xs) as H. split; [destruct H as (_ & H & _); exact H|]. intros i HI. apply kto; assumption. Qed.
Lemma holds_reads v a : holds v a -> reads v a.
Proof. intros H. split; [destruct H as (_ & H & _); exact H|]. intros i HI. apply kto; assumption. Qed.
Lemma powers_at n : forall i c x, (i < n)%nat -> nth i (powers n c x) 0 = (if Nat.eqb i 0 then c else c * x ^ Z.of_nat i mod l).
Proof.
  induction n as [|n IH]; intros i c x H; [lia|]. destruct i as [|i]; [reflexivity|]. cbn [powers nth Nat.eqb]. rewrite IH by lia. destruct (Nat.eqb_spec i 0) as [->|N].
  - rewrite Z.pow_1_r. reflexivity.
  - unfold sc_mul. rewrite Z.mul_mod_idemp_l by discriminate. rewrite Nat2Z.inj_succ, Z.pow_succ_r by lia. rewrite Z.mul_assoc. reflexivity.
Qed.
Lemma map2_nth {A B C} (f : A -> B -> C) da db dc : forall i xs ys, (i < length xs)%nat -> (i < length ys)%nat -> nth i (map2 f xs ys) dc = f (nth i xs da) (nth i ys db).
Proof. induction i as [|i IH]; intros [|x xs] [|z ys] H1 H2; cbn [length] in *; try lia; [reflexivity|]. cbn [map2 nth]. apply IH; lia. Qed.

(** Whatever the registers hold at first, the loop over buffers and registers returns what the loop over values returns: the points of every round and the last two scalars, or the same refusal. *)
Theorem C76_loop : forall (E : ecops) (gs : gens E) (logMN : nat) (lv rv : list Z) (y x_ip hc : Z) (r : regs E),
  ec_laws E -> (forall P, length (encp E P) = 32%nat) ->
  length lv = (2 ^ logMN)%nat -> length rv = (2 ^ logMN)%nat -> Forall scalar lv -> Forall scalar rv -> scalar y -> scalar x_ip ->
  let gG := map (gG E gs) (seq 0 (2 ^ logMN)) in
  let gH := map (gH E gs) (seq 0 (2 ^ logMN)) in
  match prove_loop E logMN x_ip {| s_a := lv; s_b := rv; s_G := gG; s_H := map2 (fun P e => scalarmult E P e) gH (powers (2 ^ logMN) 1 (sc_inv y)); s_hc := hc; s_L := []; s_R := [] |} with
  | Ok s => exists L R a b, loop_code E gs logMN (written lv) (written rv) (enc_sc y) (enc_sc x_ip) (enc_sc hc) r = Ok (L, R, enc_sc a, enc_sc b) /\
      s_a E s = [a] /\ s_b E s = [b] /\ reads L (s_L E s) /\ reads R (s_R E s) /\ length (s_L E s) = logMN /\ length (s_R E s) = logMN
  | Err e => loop_code E gs logMN (written lv) (written rv) (enc_sc y) (enc_sc x_ip) (enc_sc hc) r = Err e
  end.
Proof.
  intros E gs logMN lv rv y x_ip hc r LW E32 LA LB SA SB SY SX gG0 gH0. unfold loop_code. cbv zeta. unfold invert_code. cbv zeta. cbn [c1 c2 b0 set_c1 set_c2 set_b0].
  rewrite (enc_sc_val y) by exact SY. assert (SI : scalar (sc_inv y)) by apply n_inv. rewrite (enc_sc_val (sc_inv y)) by exact SI. set (yi := sc_inv y) in *. clearbody yi. rewrite two_pow.
  set (n := (2 ^ logMN)%nat) in *. set (gHy := map2 (fun P e => scalarmult E P e) gH0 (powers n 1 yi)).
  assert (LG : length gG0 = n) by (unfold gG0; rewrite map_length, seq_length; reflexivity). assert (LH0 : length gH0 = n) by (unfold gH0; rewrite map_length, seq_length; reflexivity).
  assert (LH : length gHy = n) by (unfold gHy; rewrite map2_length, LH0, powers_length; lia).
  set (r1 := set_b0 E _ _). set (pw := kpow_new (Z.of_nat n) yi).
  assert (STH : forall own, stands E gs yi (Scaled (Z.of_nat n) pw own) gHy).
  { intros own. cbn [stands]. split; [unfold zlen; rewrite LH; reflexivity|]. split; [reflexivity|]. split; [reflexivity|]. intros i HI. rewrite LH in HI. unfold gHy.
    rewrite (map2_nth _ (pid E) 0 (pid E)) by (rewrite ?LH0, ?powers_length; exact HI). f_equal.
    - unfold gH0, gen. rewrite (nth_map _ 0%nat) by (rewrite seq_length; exact HI). rewrite seq_nth by exact HI. rewrite Nat2Z.id. reflexivity.
    - rewrite powers_at by exact HI. destruct (Nat.eqb_spec i 0) as [->|N]; [rewrite Z.pow_0_r; symmetry; apply Z.mod_small; split; [discriminate|reflexivity]|]. rewrite Z.mul_1_l. reflexivity. }
  assert (NK : holds (keyv_new (Z.of_nat logMN)) (repeat zero_key logMN)) by (pose proof (new_holds (Z.of_nat logMN) ltac:(lia)) as Q; rewrite Nat2Z.id in Q; exact Q).
  set (m := {| m_r := r1; m_a := written lv; m_b := written rv; m_G := Precomp (Z.of_nat n) true; m_H := Scaled (Z.of_nat n) pw false; m_HR := Some (Scaled (Z.of_nat n) pw true);
    m_hc := enc_sc hc; m_L := keyv_new (Z.of_nat logMN); m_R := keyv_new (Z.of_nat logMN) |}).
  set (s := {| s_a := lv; s_b := rv; s_G := gG0; s_H := gHy; s_hc := hc; s_L := []; s_R := [] |}).
  assert (R0 : rel E gs yi 0 logMN m s).
  { constructor; cbn [m s m_a m_b m_G m_H m_hc m_L m_R m_HR s_a s_b s_G s_H s_hc s_L s_R]; try assumption.
    - apply written_holds.
    - apply written_holds.
    - cbn [stands]. split; [unfold zlen; rewrite LG; reflexivity|]. intros i HI. rewrite LG in HI. unfold gG0, gen. rewrite (nth_map _ 0%nat) by (rewrite seq_length; exact HI). rewrite seq_nth by exact HI. rewrite Nat2Z.id. reflexivity.
    - apply STH.
    - reflexivity.
    - exists (repeat zero_key logMN). split; [exact NK|]. split; [reflexivity|apply repeat_length].
    - exists (repeat zero_key logMN). split; [exact NK|]. split; [reflexivity|apply repeat_length].
    - split; [reflexivity|]. split; [reflexivity|]. exists (Z.of_nat n), pw. split; [reflexivity|apply STH]. }
  pose proof (rounds_ok E LW E32 gs yi SI x_ip SX logMN 0 m s R0) as RO. change (Z.of_nat 0) with 0 in RO. destruct (prove_loop E logMN x_ip s) as [s1|e]; [|rewrite RO; reflexivity].
  destruct RO as (m1 & -> & [RA RB _ _ LA1 LB1 _ _ _ _ _ (restL & HL & LL & LrL) (restR & HR & LR & LrR) _]). cbn [bind]. cbn [Nat.add] in LL, LR.
  destruct restL; [|discriminate]. destruct restR; [|discriminate]. rewrite app_nil_r in HL, HR. cbn [Nat.pow] in LA1, LB1.
  destruct (s_a E s1) as [|a [|? ?]]; [discriminate| |discriminate]. destruct (s_b E s1) as [|b [|? ?]]; [discriminate| |discriminate].
  pose proof (kto _ _ 0 RA ltac:(cbn [map length]; lia)) as TA. pose proof (kto _ _ 0 RB ltac:(cbn [map length]; lia)) as TB. change (Z.of_nat 0) with 0 in TA, TB. rewrite TA, TB. cbn [bind map nth].
  exists (m_L E m1), (m_R E m1), a, b. split; [reflexivity|]. split; [reflexivity|]. split; [reflexivity|]. split; [apply holds_reads, HL|]. split; [apply holds_reads, HR|]. split; assumption.
Qed.
Print Assumptions C76_loop.

Lemma reads_keys v ks : reads v ks -> keys_of v = Ok ks.
Proof.
  intros [SZ H]. unfold keys_of. rewrite SZ. unfold zlen. rewrite Nat2Z.id. assert (G : forall n s, (s + n = length ks)%nat -> mapM (keyv_to v) (map Z.of_nat (seq s n)) = Ok (skipn s ks)).
  { induction n as [|n IH]; intros s HS; [rewrite skipn_all2 by lia; reflexivity|]. cbn [seq map mapM]. rewrite H by lia. cbn [bind]. rewrite IH by lia. cbn [bind]. rewrite (skipn_nth [] s ks) by lia. reflexivity. }
  apply (G (length ks) 0%nat). reflexivity.
Qed.
Lemma map2_scalars {A B} (f : A -> B -> Z) : (forall a b, scalar (f a b)) -> forall xs ys, Forall scalar (map2 f xs ys).
Proof. intros H. induction xs as [|x xs IH]; intros [|z ys]; cbn [map2]; constructor; [apply H|apply IH]. Qed.

(** So the range proof the code assembles is the one of C36 and C37, whatever the registers were left with. *)
Theorem C76_proof : forall (E : ecops) (gs : gens E) (sv gamma : list Z) (rd : prand) (r : regs E),
  ec_laws E -> (forall P, length (encp E P) = 32%nat) -> (1 <= length sv <= 32)%nat -> random_ok (length sv) rd ->
  prove_batch_code E gs sv gamma rd r = prove_batch E gs sv gamma rd.
Proof.
  intros E gs sv gamma rd r LW E32 HN RO. unfold prove_batch_code, prove_batch. destruct (guard (Nat.eqb (length sv) (length gamma)) ValueError) as [[]|e]; [|reflexivity]. cbn [bind].
  destruct (guard (negb (Nat.eqb (length sv) 0)) ValueError) as [[]|e]; [|reflexivity]. cbn [bind].
  destruct (blocks_small _ HN) as (k & EB & LE). destruct (bp_blocks_ok (length sv)) as (M' & k' & EB' & EM & Hk & _). rewrite EB in EB'. injection EB' as EM' Ek. subst k'. rewrite EB. cbn [bind]. rewrite Nat2Z.id.
  set (MN := (padded (length sv) * BP_N)%nat) in *. assert (EMN : MN = (2 ^ Z.to_nat (k + 6))%nat).
  { unfold MN. apply Nat2Z.inj. rewrite Nat2Z.inj_mul, EM', EM, Nat2Z.inj_pow, Z2Nat.id by (clear - Hk; lia). change (Z.of_nat BP_N) with (2 ^ 6). change (Z.of_nat 2) with 2. rewrite Z.pow_add_r by (clear - Hk; lia). reflexivity. }
  destruct RO as (_ & _ & _ & _ & LSL & LSR & _). rewrite Nat.mul_comm in LSL, LSR. change 64%nat with BP_N in LSL, LSR. fold MN in LSL, LSR. cbv zeta.
  set (aL := map (e_xL (map enc_sc sv) true) (seq 0 MN)). set (aR := map (e_xL (map enc_sc sv) false) (seq 0 MN)).
  match goal with |- (let* _ := guard (negb (?a =? 0)) _ in _) = _ => assert (SY : scalar a) by apply sc_rng; set (y := a) in * end. clearbody y.
  destruct (guard (negb (y =? 0)) AttributeError) as [[]|e]; [|reflexivity]. cbn [bind]. set (z := hash_to_scalar E (enc_sc y)). clearbody z.
  destruct (guard (negb (z =? 0)) AttributeError) as [[]|e]; [|reflexivity]. cbn [bind].
  set (l0 := map (fun a => sc_sub a z) aL). set (r0 := keyr0 aR 0 1 (sc_mul z z) 1 y z). set (r1 := map2 sc_mul (r_sR rd) (powers MN 1 y)).
  assert (Ll0 : length l0 = MN) by (unfold l0, aL; rewrite !map_length, seq_length; reflexivity).
  assert (Lr0 : length r0 = MN) by (unfold r0; rewrite keyr0_length; unfold aR; rewrite map_length, seq_length; reflexivity).
  assert (Lr1 : length r1 = MN) by (unfold r1; rewrite map2_length, powers_length, LSR; apply Nat.min_id).
  destruct (cross_inner_product 0 0 l0 r0 (r_sL rd) r1) as [t1 t2]. set (x := mash E z _). clearbody x. destruct (guard (negb (x =? 0)) AttributeError) as [[]|e]; [|reflexivity]. cbn [bind].
  set (lv := map2 (fun c a => sc_muladd x c a) (r_sL rd) l0). set (rv := map2 (fun d b => sc_muladd x d b) r1 r0).
  assert (Llv : length lv = MN) by (unfold lv; rewrite map2_length, LSL, Ll0; apply Nat.min_id). assert (Lrv : length rv = MN) by (unfold rv; rewrite map2_length, Lr1, Lr0; apply Nat.min_id).
  match goal with |- (let* _ := guard (negb (?a =? 0)) _ in _) = _ => assert (SX : scalar a) by apply sc_rng; set (xip := a) in * end. clearbody xip.
  destruct (guard (negb (xip =? 0)) AttributeError) as [[]|e]; [|reflexivity]. cbn [bind].
  pose proof (C76_loop E gs (Z.to_nat (k + 6)) lv rv y xip xip r LW E32) as C. rewrite <- EMN in C. specialize (C Llv Lrv (map2_scalars _ (fun c a => n_muladd x c a) _ _) (map2_scalars _ (fun c a => n_muladd x c a) _ _) SY SX). cbv zeta in C.
  match type of C with match ?P with _ => _ end => destruct P as [s|e] end; [|rewrite C; reflexivity]. destruct C as (L & R & a & b & -> & Ea & Eb & RL & RR & _). cbn [bind].
  rewrite Ea, Eb, (reads_keys L _ RL), (reads_keys R _ RR). reflexivity.
Qed.
Print Assumptions C76_proof.

(** A case: the toy group, every challenge and y being 1, four elements, two rounds, other values in the registers *)
Definition toy1_gens : gens toy1 := Build_gens toy1 (fun i => smul toy1 (Gb toy1) (Z.of_nat i + 3)) (fun i => smul toy1 (Gb toy1) (5 * Z.of_nat i + 7)).
Definition dirty (c : Z) : regs toy1 :=
  let P := smul toy1 (Gb toy1) c in Build_regs toy1 P P P P c c c c [c] [c].
Definition outcome (r : res (keyv * keyv * list Z * list Z)) : res (list (list Z) * list (list Z) * list Z * list Z) :=
  match r with Err e => Err e | Ok (L, R, a, b) => let* l := keys_of L in let* r := keys_of R in Ok (l, r, a, b) end.
Definition run2 (c : Z) := outcome (loop_code toy1 toy1_gens 2 (written [4; 9; 2; 6]) (written [8; 1; 7; 3]) (enc_sc 1) (enc_sc 6) (enc_sc 6) (dirty c)).
Definition differ (o : res (list (list Z) * list (list Z) * list Z * list Z)) : Prop :=
  match o with Ok (L, R, a, b) => length L = 2%nat /\ length R = 2%nat /\ nth 0 L [] <> nth 1 L [] /\ nth 0 L [] <> nth 0 R [] /\ a <> b | Err _ => False end.
Example C76_case : (forall P, length (encp toy1 P) = 32%nat) /\ differ (run2 1234).
Proof.
  split; [intros P; apply le_digits_length|]. vm_compute. repeat split; discriminate.
Qed.
(** The second evaluation of the points H has a point register of its own for a reason: sharing the first one's, folds go wrong. *)
Definition first_round (own : bool) : res (list (list Z)) :=
  let pw := kpow_new 4 1 in
  let* m := rounds_code toy1 toy1_gens 2 0 (enc_sc 6) (Build_mach toy1 (dirty 0) (written [4; 9; 2; 6]) (written [8; 1; 7; 3]) (Precomp 4 true) (Scaled 4 pw false) (Some (Scaled 4 pw own)) (enc_sc 6) (keyv_new 2) (keyv_new 2)) in
  keys_of (m_L toy1 m).
Definition second_wrong (a b : res (list (list Z))) : Prop := match a, b with Ok L, Ok L2 => nth 0 L2 [] = nth 0 L [] /\ nth 1 L2 [] <> nth 1 L [] | _, _ => False end.
Example C76_shared_register : second_wrong (first_round true) (first_round false).
Proof. vm_compute. repeat split; discriminate. Qed.
