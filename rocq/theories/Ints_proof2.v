From Verif Require Import Py PyLemmas Digits Ints_model Ints_spec Ints_proof.

Lemma le_int_val bs : le_int bs = le_val 256 bs.
Proof. induction bs as [|b bs IH]; [reflexivity|]. cbn [le_int fold_right le_val]. fold (le_int bs). rewrite IH. ring. Qed.
Lemma be_int_val bs : be_int bs = be_val 256 bs.
Proof. reflexivity. Qed.
Lemma be_words_val w bs : be_words w bs = be_val (2 ^ w) bs.
Proof. reflexivity. Qed.

(** scalar encoding *)
Lemma land1 x : Z.land x 1 = x mod 2.
Proof. change 1 with (2 ^ 1 - 1) at 1. rewrite land_mask' by lia. reflexivity. Qed.

Lemma bits_byte y i : 0 <= i -> 
  zsum' (map (fun j => Z.shiftl ((y / 2 ^ (i * 8 + j)) mod 2) j) [0;1;2;3;4;5;6;7]) = (y / 256 ^ i) mod 256.
Proof.
  intros Hi. unfold zsum'. cbn [map fold_left].
  assert (E : forall j, 0 <= j -> y / 2 ^ (i * 8 + j) = (y / 256 ^ i) / 2 ^ j).
  { intros j Hj. rewrite Z.pow_add_r by lia. rewrite <- Z.div_div.
    - f_equal. f_equal. change 256 with (2 ^ 8). rewrite <- Z.pow_mul_r by lia. f_equal. lia.
    - apply Z.pow_nonzero; lia.
    - apply Z.pow_pos_nonneg; lia. }
  rewrite !E by lia. remember (y / 256 ^ i) as z. clear.
  rewrite !Z.shiftl_mul_pow2 by lia.
  change (2 ^ 0) with 1. change (2 ^ 1) with 2. change (2 ^ 2) with 4. change (2 ^ 3) with 8.
  change (2 ^ 4) with 16. change (2 ^ 5) with 32. change (2 ^ 6) with 64. change (2 ^ 7) with 128.
  rewrite Z.div_1_r. lia.
Qed.

Lemma le_digits_alt n y : le_digits 256 n y = map (fun i => (y / 256 ^ Z.of_nat i) mod 256) (seq 0 n).
Proof.
  revert y. induction n as [|n IH]; intros y; [reflexivity|].
  cbn [le_digits seq map]. change (256 ^ Z.of_nat 0) with 1. rewrite Z.div_1_r. f_equal.
  rewrite IH, <- seq_shift, map_map. apply map_ext. intros i.
  rewrite Nat2Z.inj_succ, Z.pow_succ_r by lia. rewrite Z.div_div; [reflexivity|lia|].
  apply Z.pow_pos_nonneg; lia.
Qed.

Lemma encodeint_digits y : encodeint_raw y = Ok (le_digits 256 32 y).
Proof.
  rewrite le_digits_alt. unfold encodeint_raw.
  rewrite (mapM_all_ok _ (fun i => (y / 256 ^ i) mod 256)).
  - unfold zrange. rewrite map_map. reflexivity.
  - intros i Hi. apply In_zrange in Hi.
    rewrite (mapM_all_ok _ (fun j => Z.shiftl ((y / 2 ^ (i * 8 + j)) mod 2) j)).
    + cbn [bind]. f_equal. apply bits_byte. lia.
    + intros j Hj. apply In_zrange in Hj.
      rewrite (py_get_nonneg _ _ ((y / 2 ^ (i * 8 + j)) mod 2)).
      * reflexivity.
      * lia.
      * rewrite nth_error_map. unfold zrange. rewrite nth_error_map.
        assert (Hs : nth_error (seq 0 (Z.to_nat 256)) (Z.to_nat (i * 8 + j)) = Some (Z.to_nat (i * 8 + j))).
        { rewrite (nth_error_nth' _ 0%nat) by (rewrite seq_length; lia). f_equal. rewrite seq_nth by lia. lia. }
        rewrite Hs. cbn [option_map]. f_equal. rewrite Z2Nat.id by lia.
        rewrite land1, Z.shiftr_div_pow2 by lia. reflexivity.
Qed.

Lemma zsum'_gen ls a : fold_left Z.add ls a = a + zsum' ls.
Proof.
  unfold zsum'. revert a. induction ls as [|x ls IH]; intros a; cbn [fold_left]; [lia|].
  rewrite IH, (IH (0 + x)). lia.
Qed.
Lemma zsum'_app a b : zsum' (a ++ b) = zsum' a + zsum' b.
Proof. unfold zsum'. rewrite fold_left_app. apply zsum'_gen. Qed.

Definition bitv (s : list Z) (i : Z) : Z := (nth (Z.to_nat (i / 8)) s 0 / 2 ^ (i mod 8)) mod 2.

Lemma seq8 n : seq 0 (8 * S n) = seq 0 (8 * n) ++ map (fun j => (8 * n + j)%nat) (seq 0 8).
Proof.
  replace (8 * S n)%nat with (8 * n + 8)%nat by lia. rewrite seq_app. f_equal.
  cbn [Nat.add seq map]. rewrite !(Nat.add_comm (8 * n)). reflexivity.
Qed.

Lemma bit_sum s n : (n <= length s)%nat -> bytes_ok s ->
  zsum' (map (fun i => 2 ^ Z.of_nat i * bitv s (Z.of_nat i)) (seq 0 (8 * n))) = le_val 256 (firstn n s).
Proof.
  induction n as [|n IH]; intros Hn Hb; [reflexivity|].
  rewrite seq8, map_app, zsum'_app, IH by (lia || assumption).
  destruct (nth_error s n) as [b|] eqn:E; [|apply nth_error_None in E; lia].
  rewrite (firstn_S_nth _ _ _ E), le_val_app. cbn [le_val].
  rewrite map_map. 
  assert (Hzl : zlen (firstn n s) = Z.of_nat n) by (unfold zlen; rewrite firstn_length; lia).
  rewrite Hzl.
  assert (B : byte_ok b) by (eapply Forall_forall; [exact Hb|]; eapply nth_error_In; exact E).
  rewrite (map_ext_in _ (fun j => 256 ^ Z.of_nat n * (2 ^ Z.of_nat j * ((b / 2 ^ Z.of_nat j) mod 2)))).
  - cbn [seq map]. unfold zsum'. cbn [fold_left].
    change (2 ^ Z.of_nat 0) with 1. change (2 ^ Z.of_nat 1) with 2. change (2 ^ Z.of_nat 2) with 4.
    change (2 ^ Z.of_nat 3) with 8. change (2 ^ Z.of_nat 4) with 16. change (2 ^ Z.of_nat 5) with 32.
    change (2 ^ Z.of_nat 6) with 64. change (2 ^ Z.of_nat 7) with 128.
    rewrite Z.div_1_r. 
    assert (b = b mod 2 + 2 * ((b / 2) mod 2) + 4 * ((b / 4) mod 2) + 8 * ((b / 8) mod 2) + 16 * ((b / 16) mod 2)
      + 32 * ((b / 32) mod 2) + 64 * ((b / 64) mod 2) + 128 * ((b / 128) mod 2)) as B2.
    { unfold byte_ok in B. clear -B. lia. }
    rewrite B2 at 9. ring.
  - intros j Hj. apply in_seq in Hj. unfold bitv.
    replace (Z.of_nat (8 * n + j) / 8) with (Z.of_nat n) by lia.
    replace (Z.of_nat (8 * n + j) mod 8) with (Z.of_nat j) by lia.
    rewrite Nat2Z.id, (nth_error_nth _ _ _ E).
    replace (Z.of_nat (8 * n + j)) with (8 * Z.of_nat n + Z.of_nat j) by lia.
    rewrite Z.pow_add_r by lia. rewrite Z.pow_mul_r by lia. change (2 ^ 8) with 256. ring.
Qed.

Lemma decodeint_raw_val s : bytes_ok s ->
  decodeint_raw s = if (32 <=? zlen s) then Ok (le_val 256 (firstn 32 s)) else Err IndexError.
Proof.
  intros Hb. unfold decodeint_raw. destruct (Z.leb_spec 32 (zlen s)) as [Hs|Hs].
  - rewrite (mapM_all_ok _ (fun i => 2 ^ i * bitv s i)).
    + cbn [bind]. f_equal. unfold zrange. rewrite map_map. change (Z.to_nat 256) with (8 * 32)%nat.
      apply bit_sum; [unfold zlen in Hs; lia|exact Hb].
    + intros i Hi. apply In_zrange in Hi. unfold bit.
      rewrite (py_get_nonneg _ _ (nth (Z.to_nat (i / 8)) s 0)).
      * cbn [bind]. f_equal. f_equal. rewrite land1, Z.shiftr_div_pow2; [reflexivity|].
        apply Z.mod_pos_bound. lia.
      * unfold zlen in *. lia.
      * apply nth_error_nth'. unfold zlen in Hs. lia.
  - assert (G : forall ls, Exists (fun i => bit s i = Err IndexError) ls -> Forall (fun i => 0 <= i) ls ->
        mapM (fun i => let* b := bit s i in Ok (2 ^ i * b)) ls = Err IndexError).
    { induction ls as [|i ls IH]; intros He Hf; inversion He; subst; inversion Hf; subst; cbn [mapM].
      - rewrite H0. reflexivity.
      - destruct (bit s i) as [b|e] eqn:Ei; cbn [bind].
        + rewrite IH by assumption. reflexivity.
        + unfold bit in Ei. destruct (py_get s (i / 8)) as [c|e'] eqn:Eg; cbn [bind] in Ei; [discriminate|].
          unfold py_get in Eg. destruct (py_idx _ _); [destruct (nth_error s n)|]; congruence. }
    rewrite G; [reflexivity| |].
    + apply Exists_exists. exists 255. split; [apply In_zrange; lia|].
      unfold bit. unfold py_get, py_idx. change (255 / 8) with 31.
      destruct (Z.leb_spec 0 31); [|lia]. destruct (Z.ltb_spec 31 (zlen s)); [lia|]. reflexivity.
    + apply Forall_forall. intros i Hi. apply In_zrange in Hi. lia.
Qed.

Lemma scalar_round_trip v off pre : 0 <= v < l -> zlen pre = off -> bytes_ok pre ->
  exists bs, encodeint v = Ok bs /\ length bs = 32%nat /\ bytes_ok bs /\ le_int bs = v /\
    forall rest, bytes_ok rest -> decodeint (pre ++ bs ++ rest) off = Ok v.
Proof.
  intros Hv Ho Hp. exists (le_digits 256 32 v).
  split; [apply encodeint_digits|]. split; [apply le_digits_length|].
  assert (B : bytes_ok (le_digits 256 32 v)) by (apply digits_ok_256, le_digits_ok; lia).
  assert (V : le_val 256 (le_digits 256 32 v) = v).
  { rewrite le_val_digits by lia. apply Z.mod_small. change (256 ^ Z.of_nat 32) with (2 ^ 256).
    unfold l in Hv. lia. }
  split; [exact B|]. split; [rewrite le_int_val; exact V|].
  intros rest Hr. unfold decodeint.
  assert (O : offset_of (pre ++ le_digits 256 32 v ++ rest) off = le_digits 256 32 v ++ rest).
  { unfold offset_of. destruct (Z.eqb_spec off 0) as [Z0|NZ].
    - destruct pre as [|a t]; [reflexivity|]. unfold zlen in Ho. cbn [length] in Ho. lia.
    - apply py_from_app. symmetry. exact Ho. }
  rewrite O. rewrite decodeint_raw_val by (apply bytes_ok_app; auto).
  destruct (Z.leb_spec 32 (zlen (le_digits 256 32 v ++ rest))) as [|F].
  2:{ rewrite zlen_app, le_digits_zlen in F. pose proof (zlen_nonneg rest). lia. }
  cbn [bind]. f_equal. rewrite firstn_app, le_digits_length, firstn_all2, Nat.sub_diag, firstn_O, app_nil_r, V
    by (rewrite le_digits_length; lia).
  apply Z.mod_small. exact Hv.
Qed.

Lemma decodeint_reduces bs : bytes_ok bs -> length bs = 32%nat ->
  decodeint bs 0 = Ok (le_int bs mod l) /\ decodeint_noreduce bs 0 = Ok (le_int bs).
Proof.
  intros Hb Hl. unfold decodeint, decodeint_noreduce, offset_of. cbn [Z.eqb].
  rewrite decodeint_raw_val by exact Hb.
  destruct (Z.leb_spec 32 (zlen bs)) as [|F]; [|unfold zlen in F; lia]. cbn [bind].
  rewrite firstn_all2 by lia. rewrite le_int_val. split; reflexivity.
Qed.
Lemma decodeint_short bs : bytes_ok bs -> (length bs < 32)%nat -> decodeint bs 0 = Err IndexError.
Proof.
  intros Hb Hl. unfold decodeint, offset_of. cbn [Z.eqb]. rewrite decodeint_raw_val by exact Hb.
  destruct (Z.leb_spec 32 (zlen bs)) as [F|]; [unfold zlen in F; lia|]. reflexivity.
Qed.
Lemma encodeint_inj a b bs : 0 <= a < 2 ^ 256 -> 0 <= b < 2 ^ 256 -> encodeint a = Ok bs -> encodeint b = Ok bs -> a = b.
Proof.
  unfold encodeint. rewrite !encodeint_digits. intros Ha Hb E1 E2.
  assert (le_digits 256 32 a = le_digits 256 32 b) as E by congruence.
  apply (f_equal (le_val 256)) in E. rewrite !le_val_digits in E by lia.
  change (256 ^ Z.of_nat 32) with (2 ^ 256) in E. rewrite !Z.mod_small in E by lia. exact E.
Qed.
Lemma sc_check_spec v : (sc_check v = 0 <-> 0 < v < l) /\ (sc_check v = 0 \/ sc_check v = -1).
Proof.
  unfold sc_check, sc_reduce32. pose proof (Z.mod_pos_bound v l ltac:(reflexivity)) as B.
  destruct (Z.eqb_spec (v mod l) 0) as [E|E]; [|destruct (Z.eqb_spec v (v mod l)) as [F|F]].
  - split; [|lia]. split; [lia|]. intros H. rewrite Z.mod_small in E by lia. lia.
  - split; [|lia]. split; [|lia]. intros _. rewrite F. lia.
  - split; [|lia]. split; [lia|]. intros H. rewrite Z.mod_small in F by lia. lia.
Qed.

(** generator *)
Lemma be_bytes_digits n v : be_bytes n v = be_digits 256 n v.
Proof.
  rewrite be_le_digits. revert v. induction n as [|n IH]; intros v; [reflexivity|].
  cbn [be_bytes le_digits rev]. rewrite IH. reflexivity.
Qed.
Lemma to_bytes32_ok v : 0 <= v < 2 ^ 256 -> exists bs, to_bytes32 v = Ok bs /\ is_ctr32 v bs.
Proof.
  intros Hv. unfold to_bytes32. destruct (Z.leb_spec 0 v); [|lia]. destruct (Z.ltb_spec v (2 ^ 256)); [|lia].
  cbn [andb]. eexists. split; [reflexivity|]. rewrite be_bytes_digits. split; [apply be_digits_length|].
  split; [apply digits_ok_256, be_digits_ok; lia|]. rewrite be_int_val, be_val_digits by lia.
  apply Z.mod_small. exact Hv.
Qed.
Lemma is_ctr32_unique v a b : is_ctr32 v a -> is_ctr32 v b -> a = b.
Proof.
  intros (La & Ba & Va) (Lb & Bb & Vb). apply (be_val_inj 256); [lia|apply digits_ok_256; exact Ba|apply digits_ok_256; exact Bb|congruence|].
  rewrite be_int_val in Va, Vb. congruence.
Qed.

Section Gen.
Variable H : list Z -> list Z.
Hypothesis Hlen : forall x, length (H x) = 32%nat.
(** block number k of the key stream *)
Definition block (seed : list Z) (k : nat) : list Z := H (seed ++ be_digits 256 32 (Z.of_nat k + 1)).
Definition stream (seed : list Z) (from n : nat) : list Z := flat_map (block seed) (seq from n).

Lemma stream_length seed from n : length (stream seed from n) = (32 * n)%nat.
Proof.
  unfold stream. revert from. induction n as [|n IH]; intros from; [reflexivity|]. cbn [seq flat_map].
  rewrite app_length, IH. unfold block. rewrite Hlen. lia.
Qed.

Definition at_pos (seed : list Z) (k : nat) : prng := {| pr_seed := seed; pr_state := seed; pr_ctr := Z.of_nat k |}.

Lemma prng_loop_spec seed : forall fuel k num done,
  0 <= num - zlen done <= Z.of_nat fuel * 32 - 32 -> Z.of_nat k + Z.of_nat fuel < 2 ^ 256 ->
  let m := Z.to_nat ((num - zlen done + 31) / 32) in
  prng_loop H fuel (at_pos seed k) num done
  = Ok (at_pos seed (k + m), done ++ firstn (Z.to_nat (num - zlen done)) (stream seed k m)).
Proof.
  induction fuel as [|fuel IH]; intros k num done Hn Hk m; [lia|].
  cbn [prng_loop]. destruct (Z.ltb_spec 0 (num - zlen done)) as [Hp|Hz].
  - unfold prng_gen. cbn [at_pos pr_seed pr_state pr_ctr].
    unfold to_bytes32. destruct (Z.leb_spec 0 (Z.of_nat k + 1)); [|lia].
    destruct (Z.ltb_spec (Z.of_nat k + 1) (2 ^ 256)); [|lia]. cbn [andb bind].
    rewrite be_bytes_digits. fold (block seed k).
    assert (Lb : zlen (block seed k) = 32) by (unfold zlen, block; rewrite Hlen; reflexivity).
    rewrite Lb. set (tc := Z.min 32 (num - zlen done)).
    assert (Ld : zlen (done ++ firstn (Z.to_nat tc) (block seed k)) = zlen done + tc).
    { rewrite zlen_app. unfold zlen in *. rewrite firstn_length. lia. }
    replace {| pr_seed := seed; pr_state := seed; pr_ctr := Z.of_nat k + 1 |} with (at_pos seed (S k))
      by (unfold at_pos; f_equal; lia).
    rewrite IH; rewrite ?Ld.
    + set (m' := Z.to_nat ((num - (zlen done + tc) + 31) / 32)).
      assert (Em : m = S m') by (unfold m, m'; destruct (Z.le_gt_cases 32 (num - zlen done)); lia).
      rewrite Em. replace (k + S m')%nat with (S k + m')%nat by lia. f_equal. f_equal.
      unfold stream. cbn [seq flat_map]. rewrite <- app_assoc. f_equal. rewrite firstn_app.
      assert (Lb' : length (block seed k) = 32%nat) by apply Hlen.
      rewrite Lb'. destruct (Z.le_gt_cases 32 (num - zlen done)).
      * replace tc with 32 by lia. rewrite (firstn_all2 (n := Z.to_nat 32)) by lia.
        rewrite (firstn_all2 (n := Z.to_nat (num - zlen done))) by lia. f_equal. f_equal. lia.
      * replace tc with (num - zlen done) by lia. f_equal.
        replace (Z.to_nat (num - (zlen done + (num - zlen done)))) with 0%nat by lia.
        replace (Z.to_nat (num - zlen done) - 32)%nat with 0%nat by lia. reflexivity.
    + lia.
    + lia.
  - assert (E0 : num - zlen done = 0) by lia. unfold m. rewrite E0. change ((0 + 31) / 32) with 0.
    cbn [Z.to_nat firstn]. rewrite app_nil_r, Nat.add_0_r. reflexivity.
Qed.

Lemma prng_next_spec seed k num : 0 <= num -> Z.of_nat k + num + 1 < 2 ^ 256 ->
  let m := Z.to_nat ((num + 31) / 32) in
  prng_next H (at_pos seed k) num = Ok (at_pos seed (k + m), firstn (Z.to_nat num) (stream seed k m)).
Proof.
  intros Hn Hk m. unfold prng_next. pose proof (prng_loop_spec seed (S (Z.to_nat num)) k num []) as P.
  cbv zeta in P. change (zlen (@nil Z)) with 0 in P. rewrite Z.sub_0_r in P. apply P; lia.
Qed.

Lemma stream_app seed k a b : stream seed k (a + b) = stream seed k a ++ stream seed (k + a) b.
Proof. unfold stream. rewrite seq_app, flat_map_app. reflexivity. Qed.

Lemma prng_rewind_spec seed k j : 0 <= j -> Z.of_nat k + 32 * j + 1 < 2 ^ 256 ->
  prng_rewind H (at_pos seed k) (32 * j) = Ok (at_pos seed (k + Z.to_nat j)).
Proof.
  intros Hj Hk. unfold prng_rewind. rewrite prng_next_spec by lia. cbn [bind].
  replace ((32 * j + 31) / 32) with j by lia. reflexivity.
Qed.

(** random-access mask vector *)
Definition mask_at (seed : list Z) (i : nat) : Z := le_val 256 (block seed i) mod l.
Hypothesis Hbytes : forall x, bytes_ok (H x).

Lemma pmask_step_spec m seed k : pm_prng m = at_pos seed k -> Z.of_nat k + 40 < 2 ^ 256 ->
  pmask_step H m = Ok ({| pm_size := pm_size m; pm_seed := pm_seed m; pm_prng := at_pos seed (S k);
     pm_last := pm_last m; pm_sc := mask_at seed k; pm_nonlin := pm_nonlin m |}, mask_at seed k).
Proof.
  intros E Hk. unfold pmask_step. rewrite E, prng_next_spec by lia.
  change (Z.to_nat ((32 + 31) / 32)) with 1%nat. cbn [bind].
  assert (Es : firstn (Z.to_nat 32) (stream seed k 1) = block seed k).
  { unfold stream. cbn [seq flat_map]. rewrite app_nil_r. apply firstn_all2. unfold block. rewrite Hlen. reflexivity. }
  rewrite Es. destruct (decodeint_reduces (block seed k)) as [D _]; [apply Hbytes|apply Hlen|].
  rewrite D. cbn [bind]. rewrite le_int_val. replace (k + 1)%nat with (S k) by lia. reflexivity.
Qed.

(** the vector is synchronised: the generator is just past the last index read *)
Definition synced (m : pmask) : Prop :=
  0 <= pm_last m < pm_size m /\ pm_size m < 2 ^ 64 /\
  pm_prng m = at_pos (pm_seed m) (S (Z.to_nat (pm_last m))) /\ pm_sc m = mask_at (pm_seed m) (Z.to_nat (pm_last m)).

Lemma pmask_get_synced m i : synced m -> pm_nonlin m = true -> 0 <= i < pm_size m ->
  exists m', pmask_get H m i = Ok (m', mask_at (pm_seed m) (Z.to_nat i)) /\ synced m' /\
    pm_last m' = i /\ pm_seed m' = pm_seed m /\ pm_size m' = pm_size m /\ pm_nonlin m' = true.
Proof.
  intros (Hl & Hs & Hp & Hc) Hn Hi.
  destruct m as [sz sd p la sc nl]. cbn [pm_size pm_seed pm_prng pm_last pm_sc pm_nonlin] in *. subst nl.
  unfold pmask_get. cbn [pm_size pm_seed pm_prng pm_last pm_sc pm_nonlin].
  unfold idxize. destruct (Z.ltb_spec i 0); [lia|]. destruct (Z.leb_spec sz i); [lia|]. cbn [bind].
  assert (Big : 2 ^ 64 * 64 < 2 ^ 256) by reflexivity.
  assert (R : forall la', pmask_reset H {| pm_size := sz; pm_seed := sd; pm_prng := p; pm_last := la'; pm_sc := sc; pm_nonlin := true |}
     = Ok ({| pm_size := sz; pm_seed := sd; pm_prng := at_pos sd 1; pm_last := la'; pm_sc := mask_at sd 0; pm_nonlin := true |}, mask_at sd 0)).
  { intros la'. unfold pmask_reset. rewrite (pmask_step_spec _ sd 0); [reflexivity| |lia].
    reflexivity. }
  unfold pm_set_last. cbn [pm_size pm_seed pm_prng pm_last pm_sc pm_nonlin negb].
  destruct (Z.eqb_spec i 0) as [->|N0].
  { rewrite R. eexists. split; [reflexivity|].
    unfold synced. cbn [pm_size pm_seed pm_prng pm_last pm_sc pm_nonlin]. repeat split; lia. }
  destruct (Z.eqb_spec i la) as [->|N1].
  { eexists. split; [rewrite Hc; reflexivity|].
    unfold synced. cbn [pm_size pm_seed pm_prng pm_last pm_sc pm_nonlin]. repeat split; try lia; auto. }
  destruct (Z.eqb_spec i (la + 1)) as [->|N2].
  { rewrite (pmask_step_spec _ sd (S (Z.to_nat la))); [|exact Hp|lia].
    replace (S (Z.to_nat la)) with (Z.to_nat (la + 1)) by lia.
    eexists. split; [reflexivity|].
    unfold synced. cbn [pm_size pm_seed pm_prng pm_last pm_sc pm_nonlin]. repeat split; lia. }
  destruct (Z.ltb_spec i la) as [Hlt|Hge].
  - rewrite R. cbn [bind pm_prng]. rewrite prng_rewind_spec by lia. cbn [bind].
    unfold pm_set_prng. cbn [pm_size pm_seed pm_prng pm_last pm_sc pm_nonlin].
    rewrite (pmask_step_spec _ sd (1 + Z.to_nat (i - 0 - 1))); [|reflexivity|lia].
    replace (1 + Z.to_nat (i - 0 - 1))%nat with (Z.to_nat i) by lia.
    eexists. split; [reflexivity|].
    unfold synced. cbn [pm_size pm_seed pm_prng pm_last pm_sc pm_nonlin]. repeat split; lia.
  - cbn [bind pm_prng]. rewrite Hp, prng_rewind_spec by lia. cbn [bind].
    unfold pm_set_prng. cbn [pm_size pm_seed pm_prng pm_last pm_sc pm_nonlin].
    rewrite (pmask_step_spec _ sd (S (Z.to_nat la) + Z.to_nat (i - la - 1))); [|reflexivity|lia].
    replace (S (Z.to_nat la) + Z.to_nat (i - la - 1))%nat with (Z.to_nat i) by lia.
    eexists. split; [reflexivity|].
    unfold synced. cbn [pm_size pm_seed pm_prng pm_last pm_sc pm_nonlin]. repeat split; lia.
Qed.
End Gen.
