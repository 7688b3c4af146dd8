(** Copies, growth and the saved form of a vector of keys; the lazily evaluated vectors. *)
From Verif Require Import Py PyLemmas Digits Ints_model Ec_model Ec_spec Keyv_model Keyv_spec Keyv_proof.

(** ** Copying from another vector *)
Lemma put_at_end (p : arr) x q b : put (p ++ x :: q) (zlen p) b = (p ++ b :: q, Ok []).
Proof.
  assert (0 <= zlen p) by (unfold zlen; lia). rewrite put_in by (rewrite zlen_app; unfold zlen in *; cbn [length]; lia). unfold pos_of. replace (zlen p <? 0) with false by lia.
  unfold zlen. rewrite Nat2Z.id. f_equal. rewrite firstn_app, Nat.sub_diag, firstn_all. cbn [firstn]. rewrite app_nil_r. f_equal. cbn [app]. f_equal.
  rewrite skipn_app, skipn_all2 by lia. replace (S (length p) - length p)%nat with 1%nat by lia. reflexivity.
Qed.
Lemma skipn_firstn {A} (a r : list A) k : (k <= length a)%nat -> skipn k (firstn k a ++ r) = r.
Proof. intros H. rewrite skipn_app, skipn_all2 by (rewrite firstn_length; lia). rewrite firstn_length. replace (k - _)%nat with 0%nat by lia. reflexivity. Qed.
Lemma copy_ok src a offset : holds src a -> 0 <= offset -> forall r p d, holds d (p ++ r) -> offset + zlen (p ++ r) <= zlen a ->
  exists d', copy_elems (length r) (zlen p) d src offset = (d', Ok tt) /\ holds d' (p ++ firstn (length r) (skipn (Z.to_nat (offset + zlen p)) a)).
Proof.
  intros HS HO. induction r as [|x r IH]; intros p d HD HB.
  - exists d. split; [reflexivity|]. cbn [length firstn]. exact HD.
  - cbn [length copy_elems]. assert (P0 : 0 <= zlen p) by (unfold zlen; lia). assert (HL : zlen p + offset < zlen a) by (rewrite zlen_app in HB; unfold zlen in *; cbn [length] in *; lia).
    rewrite (to_at src a) by (auto; unfold zlen in *; lia). destruct (at_in a (zlen p + offset) ltac:(lia)) as [-> R]. unfold pos_of in *. replace (zlen p + offset <? 0) with false in * by lia.
    set (b := nth (Z.to_nat (zlen p + offset)) a []). pose proof HS as (K & _ & _).
    assert (KB : key b) by (apply key_nth; [exact K|unfold zlen in *; lia]).
    pose proof (read_put d (p ++ x :: r) (zlen p) b HD ltac:(unfold zlen; lia) KB) as [E1 E2]. rewrite put_at_end in E1, E2. unfold unit_op in E1, E2. cbn [fst snd] in E1, E2.
    destruct (keyv_read d (zlen p) b 0) as [d1 [[]|e]]; [|cbn in E1; discriminate]. cbn [fst snd] in *.
    destruct (IH (p ++ [b]) d1) as (d' & C & HD'); [rewrite <- app_assoc; exact E2|rewrite !zlen_app in *; unfold zlen in *; cbn [length] in *; lia|].
    exists d'. split.
    + replace (zlen p + 1) with (zlen (p ++ [b])) by (rewrite zlen_app; reflexivity). exact C.
    + rewrite <- app_assoc in HD'. cbn [app] in HD'. match goal with |- holds _ ?X => match type of HD' with holds _ ?Y => replace X with Y; [exact HD'|] end end. f_equal.
      replace (offset + zlen (p ++ [b])) with (Z.succ (offset + zlen p)) by (rewrite zlen_app; unfold zlen; cbn [length]; lia). rewrite Z2Nat.inj_succ by lia.
      rewrite (cut [] a (Z.to_nat (offset + zlen p))) at 2 by (unfold zlen in *; lia). unfold b.
      rewrite skipn_firstn by (unfold zlen in *; lia). cbn [firstn]. rewrite (Z.add_comm (zlen p)). reflexivity.
Qed.

Lemma init_from_ok v n src a offset : holds src a -> 0 <= n -> 0 <= offset -> offset + n <= zlen a ->
  kv_chunked (keyv_new n) = true \/ kv_chunked src = false ->
  exists v', keyv_init_from v n src offset = (v', Ok tt) /\ holds v' (firstn (Z.to_nat n) (skipn (Z.to_nat offset) a)).
Proof.
  intros HS HN HO HB HC. pose proof (new_holds n HN) as HV. pose proof HS as (K & SZ & D). unfold keyv_init_from, keyv_realloc. unfold kv_chunked in HC.
  destruct (kv_d (keyv_new n)) as [d|cs] eqn:DN.
  - destruct HC as [HC|HC]; [discriminate|]. destruct (kv_d src) as [s|ss]; [|discriminate]. subst s.
    destruct HV as (KV & SV & DV). rewrite DN in DV. subst d.
    set (w := firstn (Z.to_nat n) (skipn (Z.to_nat offset) a)). assert (KW : Forall key w) by (apply keys_firstn, keys_skipn, K).
    assert (LW : length w = Z.to_nat n) by (unfold w; rewrite firstn_length, skipn_length; unfold zlen in *; lia).
    assert (CA : concat a = concat (firstn (Z.to_nat offset) a) ++ concat w ++ concat (skipn (Z.to_nat n) (skipn (Z.to_nat offset) a))).
    { rewrite <- (firstn_skipn (Z.to_nat offset) a) at 1. rewrite concat_app. f_equal. rewrite <- concat_app. unfold w. rewrite firstn_skipn. reflexivity. }
    pose proof (memcpy_mid (concat w) (concat (repeat zero_key (Z.to_nat n))) [] [] (concat (firstn (Z.to_nat offset) a)) (concat (skipn (Z.to_nat n) (skipn (Z.to_nat offset) a))) 0 (Z.shiftl offset 5)) as M.
    rewrite <- CA, !app_nil_r in M. cbn [app] in M. replace (Z.to_nat (Z.shiftl n 5)) with (length (concat w)); [|rewrite (concat_keys _ KW), LW, shl5; lia].
    rewrite M; [| |reflexivity|].
    + eexists. split; [reflexivity|]. split; [exact KW|]. unfold with_d. cbn [kv_size kv_d]. split; [|reflexivity]. cbn [keyv_new kv_size]. unfold zlen. rewrite LW. lia.
    + rewrite !concat_keys; [|exact KW|apply keys_zero]. rewrite LW, repeat_length. reflexivity.
    + rewrite shl5. unfold zlen. rewrite (concat_keys _ (keys_firstn _ _ K)), firstn_length. unfold zlen in *. lia.
  - assert (G : exists d', copy_elems (Z.to_nat n) 0 (keyv_new n) src offset = (d', Ok tt) /\ holds d' (firstn (Z.to_nat n) (skipn (Z.to_nat offset) a))).
    { destruct (copy_ok src a offset HS HO (repeat zero_key (Z.to_nat n)) [] (keyv_new n) HV) as (d' & C & HD); [cbn [app]; unfold zlen in *; rewrite repeat_length; lia|].
      rewrite repeat_length in *. cbn [app] in *. change (zlen (@nil (list Z))) with 0 in *. rewrite Z.add_0_r in HD. exists d'. split; assumption. }
    destruct G as (d' & C & HD). exists d'. destruct (kv_d src); split; assumption.
Qed.

Lemma grow_ok v a n : holds v a -> kv_chunked v = true -> zlen a <= n -> n mod 32 = 0 ->
  exists v', keyv_resize v n false false = (v', Ok tt) /\ holds v' (a ++ repeat zero_key (Z.to_nat (n - zlen a))).
Proof.
  intros HV HC HN H32. pose proof HV as (K & SZ & D). unfold keyv_resize. rewrite SZ. cbv zeta. destruct (zlen a =? n) eqn:E.
  { exists v. split; [reflexivity|]. replace (n - zlen a) with 0 by lia. cbn [repeat Z.to_nat]. rewrite app_nil_r. exact HV. }
  unfold kv_chunked in HC. destruct (kv_d v) as [d|cs]; [discriminate|]. destruct D as (BIG & gs & A & C & F). subst cs. unfold CHSIZE. replace (n <=? 32) with false by lia. replace (zlen a <? n) with true by lia.
  replace (negb (n mod 32 =? 0)) with false by lia. cbn [orb]. eexists. split; [reflexivity|]. split; [apply Forall_app; split; [exact K|apply keys_zero]|]. cbn [kv_size kv_d].
  assert (LN : zlen (a ++ repeat zero_key (Z.to_nat (n - zlen a))) = n) by (rewrite zlen_app; unfold zlen in *; rewrite repeat_length; lia). split; [lia|]. split; [lia|].
  destruct (new_holds (n - zlen a) ltac:(lia)) as (KZ & _ & _).
  assert (LA : zlen a = 32 * Z.of_nat (length gs)) by (subst a; unfold zlen; pose proof (groups_length _ F) as GL; unfold arr in *; rewrite GL; lia).
  exists (gs ++ repeat (repeat zero_key 32) (Z.to_nat ((n - zlen a) / 32))). split; [|split].
  - rewrite concat_app. rewrite <- A. f_equal. assert (G : forall k m, concat (repeat (repeat zero_key m) k) = repeat zero_key (k * m)).
    { intros k m. induction k as [|k IH]; [reflexivity|]. cbn [repeat concat Nat.mul]. rewrite IH, repeat_app. reflexivity. }
    rewrite G. f_equal. lia.
  - rewrite map_app. f_equal. assert (MR : forall (x : arr) k, map (@concat Z) (repeat x k) = repeat (concat x) k) by (intros x k; induction k as [|k IH]; [reflexivity|]; cbn [repeat map]; rewrite IH; reflexivity).
    rewrite MR, concat_zero. reflexivity.
  - apply Forall_app. split; [exact F|]. apply Forall_forall. intros x HX. apply repeat_spec in HX. subst x. apply repeat_length.
Qed.

(** the flag in bit 60 *)
Lemma dump_load v : 0 <= kv_size v < 2 ^ 60 -> exists st, keyv_sdump v = Ok st /\ keyv_sload st = (kv_size v, kv_chunked v, kv_d v).
Proof.
  intros H. unfold keyv_sdump. replace (kv_size v <=? 2 ^ 60) with true by lia. cbn [guard bind]. eexists. split; [reflexivity|]. unfold keyv_sload. cbn [fst snd].
  set (n := kv_size v) in *. set (c := kv_chunked v).
  assert (HB : forall i, 60 <= i -> Z.testbit n i = false).
  { intros i Hi. destruct (Z.eq_dec n 0) as [->|NZ]; [apply Z.testbit_0_l|]. apply Z.bits_above_log2; [lia|]. apply Z.log2_lt_pow2; [lia|]. apply Z.lt_le_trans with (2 ^ 60); [lia|]. apply Z.pow_le_mono_r; lia. }
  assert (T : forall i, Z.testbit (Z.shiftl (if c then 1 else 0) 60) i = c && (i =? 60)).
  { intros i. destruct (Z.lt_ge_cases i 0) as [Q|Q]; [rewrite Z.testbit_neg_r by lia; destruct c; cbn [andb]; lia|]. rewrite Z.shiftl_spec by lia. destruct c; cbn [andb]; [|apply Z.testbit_0_l].
    destruct (Z.eqb_spec i 60) as [->|NE]; [reflexivity|]. destruct (Z.lt_ge_cases (i - 60) 0); [apply Z.testbit_neg_r; lia|]. apply Z.bits_above_log2; [lia|]. cbn. lia. }
  assert (T1 : forall i, Z.testbit (Z.shiftl 1 60) i = (i =? 60)).
  { intros i. destruct (Z.lt_ge_cases i 0) as [Q|Q]; [rewrite Z.testbit_neg_r by lia; lia|]. rewrite Z.shiftl_spec by lia. destruct (Z.eqb_spec i 60) as [->|NE]; [reflexivity|].
    destruct (Z.lt_ge_cases (i - 60) 0); [apply Z.testbit_neg_r; lia|]. apply Z.bits_above_log2; [lia|]. cbn. lia. }
  f_equal. f_equal.
  - apply Z.bits_inj'. intros i Hi. rewrite Z.land_spec, Z.lor_spec, Z.lnot_spec, T, T1 by lia. destruct (Z.eqb_spec i 60) as [->|NE]; [rewrite (HB 60) by lia; rewrite andb_false_r; reflexivity|].
    rewrite andb_false_r, orb_false_r. apply andb_true_r.
  - assert (Q : Z.land (Z.lor n (Z.shiftl (if c then 1 else 0) 60)) (Z.shiftl 1 60) = if c then 2 ^ 60 else 0).
    { apply Z.bits_inj'. intros i Hi. rewrite Z.land_spec, Z.lor_spec, T, T1. destruct (Z.eqb_spec i 60) as [->|NE].
      - rewrite (HB 60) by lia. rewrite orb_false_l, !andb_true_r. destruct c; reflexivity.
      - rewrite andb_false_r. destruct c; [|symmetry; apply Z.testbit_0_l]. rewrite Z.pow2_bits_eqb by lia. symmetry. apply Z.eqb_neq. lia. }
    rewrite Q. destruct c; reflexivity.
Qed.

(** ** Powers *)
Lemma l_pos' : 0 < l. Proof. reflexivity. Qed.
Lemma mul_pow x i : 0 <= i -> sc_mul (x ^ i mod l) x = x ^ (i + 1) mod l.
Proof. intros H. unfold sc_mul. rewrite Z.mul_mod_idemp_l by discriminate. rewrite Z.pow_add_r, Z.pow_1_r by lia. reflexivity. Qed.
Lemma rewind_pow : forall n p, 0 <= kp_last p -> kp_cur p = kp_x p ^ kp_last p mod l ->
  kpow_rewind n p = kp_with p (kp_x p ^ (kp_last p + Z.of_nat n) mod l) (kp_last p + Z.of_nat n).
Proof.
  induction n as [|n IH]; intros p H0 HC; cbn [kpow_rewind].
  - change (Z.of_nat 0) with 0. rewrite Z.add_0_r, <- HC. destruct p; reflexivity.
  - rewrite IH; unfold kp_with; cbn [fst kp_size kp_x kp_cur kp_last]; [|lia|rewrite HC; apply mul_pow; exact H0].
    replace (kp_last p + 1 + Z.of_nat n) with (kp_last p + Z.of_nat (S n)) by lia. reflexivity.
Qed.
Lemma idxize_inv n i k : idxize n i = Ok k -> k = (if i <? 0 then i + n else i) /\ k < n.
Proof. unfold idxize. intros H. apply bind_ok_inv in H. destruct H as ([] & G & H). apply guard_ok_inv in G. assert (E : (if i <? 0 then n + i else i) = k) by congruence. subst k. destruct (i <? 0); lia. Qed.

Definition pinv (size x : Z) (started : bool) (p : kpow) : Prop :=
  kp_size p = size /\ kp_x p = x /\ 0 <= kp_last p /\ (if started then kp_cur p = x ^ kp_last p mod l else kp_last p = 0).
Lemma kpow_step_ok size x started o ops p p' r : scalar x -> pinv size x started p -> pow_used_well x started (o :: ops) -> kpow_step p o = (p', Ok r) ->
  r = pow_answer size x o /\ pinv size x true p' /\ pow_used_well x true ops.
Proof.
  intros SX (PS & PX & P0 & PC) U H. destruct o as [i|n|i v]; cbn [kpow_step pow_used_well pow_answer] in *.
  - unfold kpow_get in H. rewrite PS, PX in H. destruct (idxize size i) as [k|e] eqn:EI; [|discriminate]. apply idxize_inv in EI. destruct EI as [EK KN]. rewrite <- EK.
    destruct (k =? 0) eqn:E0; [apply Z.eqb_eq in E0|destruct (k =? 1) eqn:E1; [apply Z.eqb_eq in E1|destruct (k =? kp_last p) eqn:E2; [apply Z.eqb_eq in E2|destruct (k =? kp_last p + 1) eqn:E3; [apply Z.eqb_eq in E3|]]]];
      cbn [bind] in H; try discriminate; assert (p' = _) as -> by (symmetry; exact (f_equal fst H)); apply (f_equal snd) in H; cbn [snd] in H; assert (r = _) as -> by (symmetry; exact (f_equal (fun x => match x with Ok a => a | Err _ => None end) H)).
    + rewrite E0. split; [reflexivity|]. split; [|exact U]. unfold pinv, kp_with. cbn [fst kp_size kp_x kp_cur kp_last]. repeat split; try assumption; try lia.
    + rewrite E1. rewrite Z.pow_1_r, Z.mod_small by exact SX. split; [reflexivity|]. split; [|exact U]. unfold pinv, kp_with. cbn [fst kp_size kp_x kp_cur kp_last]. repeat split; try assumption; try lia. rewrite Z.pow_1_r, Z.mod_small by exact SX. reflexivity.
    + destruct started; [|exfalso; lia]. rewrite E2, <- PC. split; [reflexivity|]. split; [|exact U]. unfold pinv, kp_with. cbn [fst kp_size kp_x kp_cur kp_last]. repeat split; assumption.
    + destruct started; [|exfalso; lia]. rewrite PC, mul_pow by exact P0. rewrite E3. split; [reflexivity|]. split; [|exact U]. unfold pinv, kp_with. cbn [fst kp_size kp_x kp_cur kp_last]. repeat split; try assumption; lia.
  - destruct U as [-> U]. rewrite (rewind_pow n p P0) in H by (rewrite PX; exact PC). assert (p' = _) as -> by (symmetry; exact (f_equal fst H)). apply (f_equal snd) in H. cbn [snd] in H. assert (r = None) as -> by congruence.
    split; [reflexivity|]. split; [|exact U]. unfold pinv, kp_with. cbn [fst kp_size kp_x kp_cur kp_last]. rewrite PX. repeat split; try assumption; lia.
  - destruct U as (I0 & -> & U). assert (p' = _) as -> by (symmetry; exact (f_equal fst H)). apply (f_equal snd) in H. cbn [snd] in H. assert (r = None) as -> by congruence.
    split; [reflexivity|]. split; [|exact U]. unfold pinv, kpow_set_state, kp_with. cbn [fst kp_size kp_x kp_cur kp_last]. repeat split; try assumption.
Qed.
Lemma kpow_history size x : scalar x -> forall ops started p, pinv size x started p -> pow_used_well x started ops ->
  Forall (fun r => is_ok r = true) (kpow_run p ops) -> kpow_run p ops = map (fun o => Ok (pow_answer size x o)) ops.
Proof.
  intros SX. induction ops as [|o ops IH]; intros started p HP U F; [reflexivity|]. cbn [kpow_run map] in *. destruct (kpow_step p o) as [p' [r|e]] eqn:E; [|apply Forall_inv in F; discriminate].
  destruct (kpow_step_ok size x started o ops p p' r SX HP U E) as (-> & HP' & U'). f_equal. apply (IH true); [exact HP'|exact U'|]. exact (Forall_inv_tail F).
Qed.
(** a scan from the start does not raise *)
Lemma kpow_scan_from size x : scalar x -> forall n p k, pinv size x true p -> kp_last p = k -> k + Z.of_nat n < size ->
  Forall (fun r => is_ok r = true) (kpow_run p (map (fun i => PGet (k + 1 + Z.of_nat i)) (seq 0 n))).
Proof.
  intros SX. induction n as [|n IH]; intros p k HP HK HN; [constructor|]. cbn [seq map kpow_run]. change (Z.of_nat 0) with 0. rewrite Z.add_0_r.
  pose proof HP as (PS & PX & P0 & PC). destruct (kpow_step p (PGet (k + 1))) as [p' r] eqn:E.
  assert (HR : is_ok r = true /\ kp_last p' = k + 1).
  { cbn [kpow_step] in E. unfold kpow_get in E. rewrite PS, idxize_in in E by lia. replace (k + 1 <? 0) with false in E by lia. replace (k + 1 =? 0) with false in E by lia.
    destruct (k + 1 =? 1); [|replace (k + 1 =? kp_last p) with false in E by lia; replace (k + 1 =? kp_last p + 1) with true in E by lia]; cbn [bind] in E;
    (assert (p' = _) as -> by (symmetry; exact (f_equal fst E))); (assert (r = _) as -> by (symmetry; exact (f_equal snd E))); split; reflexivity. }
  destruct HR as [HR HL]. destruct r as [r|e]; [|discriminate]. destruct (kpow_step_ok size x true (PGet (k + 1)) [] p p' r SX HP I E) as (_ & HP' & _).
  constructor; [reflexivity|]. rewrite <- seq_shift, map_map. specialize (IH p' (k + 1) HP' HL ltac:(lia)).
  assert (EQ : map (fun i => PGet (k + 1 + Z.of_nat (S i))) (seq 0 n) = map (fun i => PGet (k + 1 + 1 + Z.of_nat i)) (seq 0 n)) by (apply map_ext; intros i; f_equal; lia).
  rewrite EQ. exact IH.
Qed.

(** ** r0 *)
Section R0.
Context (size N : Z) (aR : Z -> Z) (y z : Z) (HN : 0 < N).
Definition rinv (r : kr0) : Prop :=
  kr_size r = size /\ kr_N r = N /\ kr_aR r = aR /\ kr_y r = y /\ kr_z r = z /\ 0 <= kr_last r /\
  kr_yp r = y ^ kr_last r mod l /\ kr_zt r = z ^ (2 + kr_last r / N) mod l /\ kr_p2 r = 2 ^ (kr_last r mod N) mod l /\
  (kr_last r = 0 \/ kr_res r = r0_value N aR y z (kr_last r)).
Lemma eval_value r i : kr_aR r = aR -> kr_z r = z -> kr_eval r i (y ^ i mod l) (z ^ (2 + i / N) mod l) (2 ^ (i mod N) mod l) = r0_value N aR y z i.
Proof.
  intros HA HZ. unfold kr_eval, r0_value, sc_muladd, sc_mul, sc_add. rewrite HA, HZ. set (u := z ^ (2 + i / N)). set (w := 2 ^ (i mod N)). set (q := y ^ i).
  rewrite <- (Zmult_mod u w). rewrite <- (Zmult_mod (aR i + z) q). rewrite <- Zplus_mod. reflexivity.
Qed.
Lemma next_div k : 0 <= k -> (k mod N + 1 = N /\ (k + 1) / N = k / N + 1 /\ (k + 1) mod N = 0) \/ (k mod N + 1 < N /\ (k + 1) / N = k / N /\ (k + 1) mod N = k mod N + 1).
Proof.
  intros H. assert (D : k = N * (k / N) + k mod N) by (apply Z.div_mod; lia). pose proof (Z.mod_pos_bound k N HN) as B.
  destruct (Z.eq_dec (k mod N + 1) N) as [Q|Q]; [left|right]; (split; [lia|]).
  - split; symmetry; [apply (Z.div_unique_pos (k + 1) N _ 0)|apply (Z.mod_unique_pos (k + 1) N (k / N + 1))]; nia.
  - split; symmetry; [apply (Z.div_unique_pos (k + 1) N _ (k mod N + 1))|apply (Z.mod_unique_pos (k + 1) N (k / N))]; nia.
Qed.
Lemma qstep k : 0 <= k -> (if (k + 1) mod N =? 0 then (sc_mul (z ^ (2 + k / N) mod l) z, 1) else (z ^ (2 + k / N) mod l, sc_mul (2 ^ (k mod N) mod l) 2)) =
  (z ^ (2 + (k + 1) / N) mod l, 2 ^ ((k + 1) mod N) mod l).
Proof.
  intros H. pose proof (Z.div_pos k N H HN) as B2. pose proof (Z.mod_pos_bound k N HN) as B. destruct (next_div k H) as [(Q & -> & ->)|(Q & -> & ->)].
  - change (0 =? 0) with true. cbv iota. rewrite mul_pow by (clear Q; lia). rewrite Z.add_assoc, Z.pow_0_r, (Z.mod_small 1) by (split; [lia|reflexivity]). reflexivity.
  - assert (Q2 : (k mod N + 1 =? 0) = false) by (apply Z.eqb_neq; lia). rewrite Q2, mul_pow by lia. reflexivity.
Qed.
Lemma kr0_step r i r' v : rinv r -> kr0_get r i = (r', Ok v) -> v = r0_value N aR y z (if i <? 0 then i + size else i) /\ rinv r'.
Proof.
  intros (RS & RN & RA & RY & RZ & R0 & YP & ZT & P2 & RR) H. unfold kr0_get in H. rewrite RS in H. destruct (idxize size i) as [k|e] eqn:EI; [|discriminate].
  apply idxize_inv in EI. destruct EI as [EK KN]. rewrite <- EK. clear EK.
  destruct (k =? 0) eqn:E0; [apply Z.eqb_eq in E0|destruct (k =? kr_last r + 1) eqn:E1; [apply Z.eqb_eq in E1|destruct (k =? kr_last r) eqn:E2; [apply Z.eqb_eq in E2|]]]; try discriminate.
  - assert (v = _) as -> by (apply (f_equal snd) in H; cbn [snd] in H; symmetry; exact (f_equal (fun x => match x with Ok a => a | Err _ => 0 end) H)). assert (r' = _) as -> by (symmetry; exact (f_equal fst H)). clear H.
    assert (V : kr_eval r k 1 (sc_mul (kr_z r) (kr_z r)) 1 = r0_value N aR y z k).
    { rewrite <- (eval_value r k RA RZ). rewrite E0, Z.div_0_l, Z.mod_0_l by lia. rewrite RZ. unfold sc_mul. change (2 + 0) with 2. rewrite Z.pow_2_r. reflexivity. }
    rewrite V. split; [reflexivity|]. unfold rinv, kr_with. cbn [fst kr_size kr_N kr_aR kr_y kr_z kr_yp kr_zt kr_p2 kr_res kr_last]. rewrite E0, Z.div_0_l, Z.mod_0_l by lia.
    refine (conj RS (conj RN (conj RA (conj RY (conj RZ (conj (Z.le_refl 0) (conj _ (conj _ (conj _ (or_introl eq_refl)))))))))).
    + rewrite Z.pow_0_r. symmetry. apply Z.mod_small. split; [lia|reflexivity].
    + rewrite RZ. unfold sc_mul. change (2 + 0) with 2. rewrite Z.pow_2_r. reflexivity.
    + rewrite Z.pow_0_r. symmetry. apply Z.mod_small. split; [lia|reflexivity].
  - rewrite RN in H. set (yp := sc_mul (kr_yp r) (kr_y r)) in H. assert (EY : yp = y ^ k mod l) by (unfold yp; rewrite YP, RY, E1; apply mul_pow; exact R0).
    set (q := if k mod N =? 0 then (sc_mul (kr_zt r) (kr_z r), 1) else (kr_zt r, sc_mul (kr_p2 r) 2)) in H.
    assert (EQ : q = (z ^ (2 + k / N) mod l, 2 ^ (k mod N) mod l)).
    { unfold q. rewrite ZT, P2, RZ, E1. apply qstep. exact R0. }
    rewrite EQ, EY in H. rewrite (eval_value r k RA RZ) in H.
    assert (v = _) as -> by (apply (f_equal snd) in H; cbn [snd] in H; symmetry; exact (f_equal (fun x => match x with Ok a => a | Err _ => 0 end) H)). assert (r' = _) as -> by (symmetry; exact (f_equal fst H)). clear H.
    split; [reflexivity|]. unfold rinv, kr_with. cbn [fst kr_size kr_N kr_aR kr_y kr_z kr_yp kr_zt kr_p2 kr_res kr_last]. 
    refine (conj RS (conj RN (conj RA (conj RY (conj RZ (conj _ (conj eq_refl (conj eq_refl (conj eq_refl (or_intror eq_refl)))))))))). clear - R0 E1; lia.
  - assert (v = kr_res r) as -> by (apply (f_equal snd) in H; cbn [snd] in H; symmetry; exact (f_equal (fun x => match x with Ok a => a | Err _ => 0 end) H)). assert (r' = _) as -> by (symmetry; exact (f_equal fst H)). clear H.
    destruct RR as [RR|RR]; [exfalso; apply Z.eqb_neq in E0; apply E0; rewrite E2; exact RR|]. split; [rewrite E2; exact RR|]. unfold rinv, kr_with. cbn [fst kr_size kr_N kr_aR kr_y kr_z kr_yp kr_zt kr_p2 kr_res kr_last]. rewrite E2.
    exact (conj RS (conj RN (conj RA (conj RY (conj RZ (conj R0 (conj YP (conj ZT (conj P2 (or_intror RR)))))))))).
Qed.
Lemma kr0_history : forall is_ r, rinv r -> Forall (fun v => is_ok v = true) (kr0_run r is_) ->
  kr0_run r is_ = map (fun i => Ok (r0_value N aR y z (if i <? 0 then i + size else i))) is_.
Proof.
  induction is_ as [|i is_ IH]; intros r HR F; [reflexivity|]. cbn [kr0_run map] in *. destruct (kr0_get r i) as [r' [v|e]] eqn:E; [|apply Forall_inv in F; discriminate].
  destruct (kr0_step r i r' v HR E) as [-> HR']. f_equal. apply IH; [exact HR'|]. exact (Forall_inv_tail F).
Qed.
Lemma kr0_new_inv : rinv (kr0_new size N aR y z).
Proof.
  unfold rinv, kr0_new. cbn [fst kr_size kr_N kr_aR kr_y kr_z kr_yp kr_zt kr_p2 kr_res kr_last]. rewrite Z.div_0_l, Z.mod_0_l by lia.
  refine (conj eq_refl (conj eq_refl (conj eq_refl (conj eq_refl (conj eq_refl (conj (Z.le_refl 0) (conj _ (conj _ (conj _ (or_introl eq_refl)))))))))).
  - rewrite Z.pow_0_r. symmetry. apply Z.mod_small. split; [lia|reflexivity].
  - unfold sc_mul. change (2 + 0) with 2. rewrite Z.pow_2_r. reflexivity.
  - rewrite Z.pow_0_r. symmetry. apply Z.mod_small. split; [lia|reflexivity].
Qed.
Lemma kr0_scan_from : forall n r k, rinv r -> kr_last r = k -> k + Z.of_nat n < size -> Forall (fun v => is_ok v = true) (kr0_run r (map (fun i => k + 1 + Z.of_nat i) (seq 0 n))).
Proof.
  induction n as [|n IH]; intros r k HR HK HB; [constructor|]. cbn [seq map kr0_run]. change (Z.of_nat 0) with 0. rewrite Z.add_0_r.
  pose proof HR as (RS & RN & _ & _ & _ & R0 & _). destruct (kr0_get r (k + 1)) as [r' v] eqn:E.
  assert (HV : is_ok v = true /\ kr_last r' = k + 1).
  { unfold kr0_get in E. rewrite RS, idxize_in in E by lia. replace (k + 1 <? 0) with false in E by lia. replace (k + 1 =? 0) with false in E by lia. replace (k + 1 =? kr_last r + 1) with true in E by lia.
    destruct ((k + 1) mod kr_N r =? 0); cbv zeta iota in E; assert (r' = _) as -> by (symmetry; exact (f_equal fst E)); assert (v = _) as -> by (symmetry; exact (f_equal snd E)); split; reflexivity. }
  destruct HV as [HV HL]. destruct v as [v|e]; [|discriminate]. destruct (kr0_step r (k + 1) r' v HR E) as [_ HR'].
  constructor; [reflexivity|]. rewrite <- seq_shift, map_map. specialize (IH r' (k + 1) HR' HL ltac:(lia)).
  assert (EQ : map (fun i => k + 1 + Z.of_nat (S i)) (seq 0 n) = map (fun i => k + 1 + 1 + Z.of_nat i) (seq 0 n)) by (apply map_ext; intros i; lia).
  rewrite EQ. exact IH.
Qed.
End R0.

(** ** The sum of powers *)
Lemma psum_ok x : forall n k s, 1 <= k -> psum_loop n (x ^ k mod l) (s mod l) x = (s + (sum_powers x (Z.to_nat (k + 1) + n) - sum_powers x (Z.to_nat (k + 1)))) mod l.
Proof.
  induction n as [|n IH]; intros k s HK; cbn [psum_loop].
  - rewrite Nat.add_0_r. f_equal. lia.
  - rewrite mul_pow by lia. replace (sc_add (s mod l) (x ^ (k + 1) mod l)) with ((s + x ^ (k + 1)) mod l) by (unfold sc_add; rewrite <- Zplus_mod; reflexivity).
    rewrite IH by lia. f_equal. replace (Z.to_nat (k + 1 + 1)) with (S (Z.to_nat (k + 1))) by (clear - HK; lia). replace (S (Z.to_nat (k + 1)) + n)%nat with (Z.to_nat (k + 1) + S n)%nat by (clear; lia).
    cbn [sum_powers]. rewrite Z2Nat.id by (clear - HK; lia). ring.
Qed.
Lemma power_sum_ok x n : scalar x -> n <> 1%nat -> power_sum_code x n = sum_powers x n mod l.
Proof.
  intros SX H. destruct n as [|[|n]]; [reflexivity|lia|]. unfold power_sum_code. replace (S (S n) - 2)%nat with n by lia.
  transitivity (psum_loop n (x ^ 1 mod l) ((1 + x) mod l) x); [rewrite Z.pow_1_r, (Z.mod_small x) by exact SX; reflexivity|].
  rewrite psum_ok by lia. f_equal. change (Z.to_nat (1 + 1)) with 2%nat. change (2 + n)%nat with (S (S n)). cbn [sum_powers]. change (Z.of_nat 0) with 0. change (Z.of_nat 1) with 1. rewrite Z.pow_0_r, Z.pow_1_r. lia.
Qed.
