From Verif Require Import Py PyLemmas Digits Ints_model Ints_spec Ints_proof Ints_proof2.

Lemma lor_shift c s x : 0 <= s -> 0 <= x < 2 ^ s -> Z.lor (Z.shiftl c s) x = c * 2 ^ s + x.
Proof.
  intros Hs Hx. rewrite <- Z.shiftl_mul_pow2 by lia. symmetry. 
  rewrite <- Z.lxor_lor.
  - apply Z.add_nocarry_lxor. apply Z.bits_inj'. intros n Hn. rewrite Z.land_spec, Z.bits_0.
    destruct (Z.lt_ge_cases n s).
    + rewrite Z.shiftl_spec_low by lia. reflexivity.
    + replace (Z.testbit x n) with false; [apply andb_false_r|].
      symmetry. destruct (Z.eq_dec x 0) as [->|]; [apply Z.bits_0|].
      apply Z.bits_above_log2; [lia|]. assert (Z.log2 x < s); [|lia]. apply Z.log2_lt_pow2; lia.
  - apply Z.bits_inj'. intros n Hn. rewrite Z.land_spec, Z.bits_0.
    destruct (Z.lt_ge_cases n s).
    + rewrite Z.shiftl_spec_low by lia. reflexivity.
    + replace (Z.testbit x n) with false; [apply andb_false_r|].
      symmetry. destruct (Z.eq_dec x 0) as [->|]; [apply Z.bits_0|].
      apply Z.bits_above_log2; [lia|]. assert (Z.log2 x < s); [|lia]. apply Z.log2_lt_pow2; lia.
Qed.

Lemma byte_split b s : byte_ok b -> 0 <= s <= 8 ->
  Z.land (Z.shiftr b (8 - s)) (2 ^ s - 1) = b / 2 ^ (8 - s) /\ 0 <= b / 2 ^ (8 - s) < 2 ^ s.
Proof.
  intros Hb Hs. rewrite land_mask', Z.shiftr_div_pow2 by lia.
  assert (0 <= b / 2 ^ (8 - s) < 2 ^ s).
  { split; [apply Z.div_pos; [unfold byte_ok in Hb; lia|apply Z.pow_pos_nonneg; lia]|].
    apply Z.div_lt_upper_bound; [apply Z.pow_pos_nonneg; lia|]. rewrite <- Z.pow_add_r by lia.
    replace (8 - s + s) with 8 by lia. unfold byte_ok in Hb. lia. }
  split; [apply Z.mod_small|]; assumption.
Qed.

Definition b2i_post (bits : Z) (seed I : list Z) : Prop :=
  digits_ok (2 ^ bits) I /\
  exists k, 0 <= k < bits /\ (8 * (zlen seed - 1)) mod bits = k /\
    (k + 8 <= bits -> bits * zlen I = 8 * zlen seed + (bits - k - 8) /\
       be_words bits I = be_int seed * 2 ^ (bits - k - 8)) /\
    (bits < k + 8 -> bits * zlen I = 8 * zlen seed - (k + 8 - bits) /\
       be_words bits I = be_int seed / 2 ^ (k + 8 - bits)).

Lemma b2i_inv bits : 8 <= bits -> forall rest pre I c k,
  rest <> [] -> bytes_ok rest -> digits_ok (2 ^ bits) I -> 0 <= k < bits -> 0 <= c < 2 ^ k ->
  8 * zlen pre = bits * zlen I + k -> be_val 256 pre = be_val (2 ^ bits) I * 2 ^ k + c ->
  b2i_post bits (pre ++ rest) (b2i_loop bits rest I c k).
Proof.
  intros Hbits. induction rest as [|b rest IH]; intros pre I c k Hne Hb HI Hk Hc HL HV; [congruence|].
  apply bytes_ok_cons in Hb as [Hb Hrest].
  cbn [b2i_loop].
  set (cl := Z.min 8 (bits - k)).
  assert (Hcl : 1 <= cl <= 8) by lia.
  destruct (byte_split b cl Hb ltac:(lia)) as [Sp Sr]. rewrite Sp.
  rewrite lor_shift by lia.
  assert (P256 : 256 = 2 ^ (8 - cl) * 2 ^ cl) by (rewrite <- Z.pow_add_r by lia; change 256 with (2 ^ 8); f_equal; lia).
  assert (Pb : 0 < 2 ^ (8 - cl)) by (apply Z.pow_pos_nonneg; lia).
  assert (Pc : 0 < 2 ^ cl) by (apply Z.pow_pos_nonneg; lia).
  assert (Pk : 0 < 2 ^ k) by (apply Z.pow_pos_nonneg; lia).
  assert (Hidx : 0 <= c * 2 ^ cl + b / 2 ^ (8 - cl) < 2 ^ (k + cl)).
  { rewrite Z.pow_add_r by lia. nia. }
  rewrite land_mask' by lia.
  pose proof (Z.mod_pos_bound b (2 ^ (8 - cl)) Pb) as Hm.
  pose proof (Z.div_mod b (2 ^ (8 - cl)) ltac:(lia)) as Hdm.
  destruct rest as [|b2 rest].
  - (* last byte *)
    destruct (Z.eqb_spec cl 0) as [|_]; [lia|]. cbn [negb andb b2i_loop].
    rewrite Z.shiftl_mul_pow2 by lia.
    set (x := c * 2 ^ cl + b / 2 ^ (8 - cl)) in *.
    assert (Px : 2 ^ bits = 2 ^ (k + cl) * 2 ^ (bits - (k + cl))) by (rewrite <- Z.pow_add_r by lia; f_equal; lia).
    assert (Pp : 0 < 2 ^ (bits - (k + cl))) by (apply Z.pow_pos_nonneg; lia).
    split.
    { apply digits_ok_app. split; [exact HI|]. apply digits_ok_cons. split; [|constructor].
      rewrite Px. nia. }
    exists k. split; [exact Hk|]. rewrite zlen_app. change (zlen [b]) with 1.
    split.
    { replace (8 * (zlen pre + 1 - 1)) with (k + zlen I * bits) by lia.
      rewrite Z.mod_add by lia. apply Z.mod_small. exact Hk. }
    rewrite zlen_app. change (zlen [x * 2 ^ (bits - (k + cl))]) with 1.
    rewrite be_words_val, be_int_val, !be_val_snoc, HV.
    split; intros Hc8.
    + assert (cl = 8) by lia. assert (E : x = c * 256 + b).
      { unfold x. rewrite H. change (2 ^ (8 - 8)) with 1. rewrite Z.div_1_r. reflexivity. }
      rewrite E, H in *. split; [lia|].
      replace (bits - (k + 8)) with (bits - k - 8) in * by lia.
      assert (P2 : 2 ^ bits = 2 ^ k * 256 * 2 ^ (bits - k - 8)).
      { rewrite Px. f_equal. rewrite Z.pow_add_r by lia. reflexivity. }
      rewrite P2. ring.
    + assert (Ecl : cl = bits - k) by lia. split; [lia|].
      replace (bits - (k + cl)) with 0 by lia. change (2 ^ 0) with 1.
      replace (k + 8 - bits) with (8 - cl) by lia.
      apply (Z.div_unique_pos _ _ _ (b mod 2 ^ (8 - cl))); [lia|].
      assert (P2 : 2 ^ bits = 2 ^ k * 2 ^ cl) by (rewrite <- Z.pow_add_r by lia; f_equal; lia).
      rewrite P2. rewrite P256. unfold x. 
      remember (b mod 2 ^ (8 - cl)) as bm. remember (b / 2 ^ (8 - cl)) as bd.
      rewrite Hdm. ring.
  - (* middle byte *)
    cbn [andb].
    replace (pre ++ b :: b2 :: rest) with ((pre ++ [b]) ++ b2 :: rest) by (rewrite <- app_assoc; reflexivity).
    destruct (Z.eqb_spec cl (bits - k)) as [Ef|Ef].
    + apply IH; try assumption; try discriminate.
      * apply digits_ok_app. split; [exact HI|]. apply digits_ok_cons. split; [|constructor].
        replace bits with (k + cl) by lia. exact Hidx.
      * lia.
      * rewrite !zlen_app. change (zlen [b]) with 1. change (zlen [c * 2 ^ cl + b / 2 ^ (8 - cl)]) with 1. lia.
      * rewrite !be_val_snoc, HV.
        assert (P2 : 2 ^ bits = 2 ^ k * 2 ^ cl) by (rewrite <- Z.pow_add_r by lia; f_equal; lia).
        rewrite P2, P256. 
        remember (b mod 2 ^ (8 - cl)) as bm. remember (b / 2 ^ (8 - cl)) as bd. rewrite Hdm. ring.
    + assert (Ecl : cl = 8) by lia. rewrite Ecl in *. change (2 ^ (8 - 8)) with 1 in *. rewrite Z.div_1_r in *.
      apply IH; try assumption; try discriminate.
      * lia.
      * rewrite zlen_app. change (zlen [b]) with 1. lia.
      * rewrite be_val_snoc, HV, Z.pow_add_r by lia. change (2 ^ 8) with 256. ring.
Qed.

Lemma bytes_to_indices_spec bits seed : 8 <= bits -> seed <> [] -> bytes_ok seed ->
  b2i_post bits seed (bytes_to_indices seed bits).
Proof.
  intros Hb Hn Hs. unfold bytes_to_indices. change seed with ([] ++ seed) at 1.
  apply b2i_inv; try assumption; try reflexivity; try constructor; try lia. change (zlen (@nil Z)) with 0. lia.
Qed.

Lemma i2b_inv bits : 1 <= bits -> forall fuel cur rest pre barr c k av,
  1 <= av <= bits -> 0 <= k < 8 -> 0 <= c < 2 ^ k -> bytes_ok barr ->
  digits_ok (2 ^ bits) (pre ++ cur :: rest) ->
  av + bits * zlen rest < Z.of_nat fuel ->
  8 * zlen barr + k = bits * zlen pre + (bits - av) ->
  be_val 256 barr * 2 ^ k + c = be_val (2 ^ bits) (pre ++ [cur]) / 2 ^ av ->
  exists out, i2b_loop fuel bits cur rest barr c k av = Ok out /\ bytes_ok out /\
    zlen out = bits * zlen (pre ++ cur :: rest) / 8 /\
    be_val 256 out = be_val (2 ^ bits) (pre ++ cur :: rest) / 2 ^ ((bits * zlen (pre ++ cur :: rest)) mod 8).
Proof.
  intros Hbits. induction fuel as [|fuel IH]; intros * Hav Hk Hc Hbarr HD Hf HL HV; [pose proof (zlen_nonneg rest); nia|].
  cbn [i2b_loop]. set (cons := Z.min (8 - k) av). 
  assert (Hcons : 1 <= cons <= 8) by lia.
  rewrite land_mask, Z.shiftr_div_pow2 by lia.
  assert (Pc : 0 < 2 ^ cons) by (apply Z.pow_pos_nonneg; lia).
  pose proof (Z.mod_pos_bound (cur / 2 ^ (av - cons)) (2 ^ cons) Pc) as Hx.
  set (x := (cur / 2 ^ (av - cons)) mod 2 ^ cons) in *.
  rewrite lor_shift by lia.
  assert (Pk : 0 < 2 ^ k) by (apply Z.pow_pos_nonneg; lia).
  assert (Hc2 : 0 <= c * 2 ^ cons + x < 2 ^ (k + cons)).
  { rewrite Z.pow_add_r by lia. clear -Hc Hx Pc Pk. clearbody x cons. nia. }
  assert (HV2 : be_val 256 barr * 2 ^ (k + cons) + (c * 2 ^ cons + x) = be_val (2 ^ bits) (pre ++ [cur]) / 2 ^ (av - cons)).
  { set (W := be_val (2 ^ bits) (pre ++ [cur])) in *.
    assert (X : x = (W / 2 ^ (av - cons)) mod 2 ^ cons).
    { unfold x, W. rewrite be_val_snoc.
      assert (P2 : 2 ^ bits = 2 ^ (bits - av) * 2 ^ cons * 2 ^ (av - cons)) by (rewrite <- !Z.pow_add_r by lia; f_equal; lia).
      rewrite P2, !Z.mul_assoc, Z.add_comm, Z.div_add by (apply Z.pow_nonzero; lia).
      rewrite Z.mod_add by lia. reflexivity. }
    clearbody x W. clear Hc2 Hx. assert (Hca : cons <= av) by lia. clearbody cons. 
    rewrite X, Z.pow_add_r by lia.
    assert (D : W / 2 ^ av = W / 2 ^ (av - cons) / 2 ^ cons).
    { rewrite Z.div_div; [|apply Z.pow_nonzero; lia|lia]. rewrite <- Z.pow_add_r by lia. f_equal. f_equal. lia. }
    rewrite D in HV. pose proof (Z.div_mod (W / 2 ^ (av - cons)) (2 ^ cons) ltac:(lia)).
    remember (W / 2 ^ (av - cons)) as w. remember (w mod 2 ^ cons) as wm. 
    transitivity ((be_val 256 barr * 2 ^ k + c) * 2 ^ cons + wm); [ring|]. rewrite HV. lia. }
  clearbody x.
  assert (Hkc : k + cons <= 8) by lia.
  assert (G : exists barr2 c2 k2,
     (if 8 - k =? cons then (barr ++ [c * 2 ^ cons + x], 0, 0) else (barr, c * 2 ^ cons + x, k + cons)) = (barr2, c2, k2) /\
     0 <= k2 < 8 /\ 0 <= c2 < 2 ^ k2 /\ bytes_ok barr2 /\ 8 * zlen barr2 + k2 = 8 * zlen barr + k + cons /\
     be_val 256 barr2 * 2 ^ k2 + c2 = be_val 256 barr * 2 ^ (k + cons) + (c * 2 ^ cons + x)).
  { assert (Hcd : cons <= 8 - k) by (clear -cons; lia).
    clear HV HV2 HL HD IH Hf. clearbody cons. destruct (Z.eqb_spec (8 - k) cons) as [E|E].
    - eexists _, _, _. split; [reflexivity|]. replace (k + cons) with 8 in * by lia.
      change (2 ^ 8) with 256 in *. change (2 ^ 0) with 1. repeat split; try lia.
      + apply bytes_ok_app. split; [exact Hbarr|]. apply bytes_ok_cons. split; [exact Hc2|constructor].
      + rewrite zlen_app. change (zlen [c * 2 ^ cons + x]) with 1. lia.
      + rewrite be_val_snoc. lia.
    - eexists _, _, _. split; [reflexivity|]. repeat split; try lia; assumption. }
  destruct G as (barr2 & c2 & k2 & Ep & Hk2 & Hc22 & Hb2 & HL2 & HVV).
  rewrite Ep. cbn [fst snd]. rewrite <- HVV in HV2. clear HVV HV.
  assert (Hca : cons <= av) by (clear -cons; lia). clear Ep Hc2 Hx. clearbody cons. clear x.
  destruct (Z.eqb_spec (av - cons) 0) as [E0|E0].
  - rewrite E0 in *. change (2 ^ 0) with 1 in HV2. rewrite Z.div_1_r in HV2.
    destruct rest as [|nxt rest].
    + assert (Bk : bytes_okb barr2 = true) by (apply bytes_okb_spec; exact Hb2). rewrite Bk.
      eexists. split; [reflexivity|]. split; [exact Hb2|].
      assert (Hz : bits * zlen (pre ++ [cur]) = 8 * zlen barr2 + k2).
      { rewrite zlen_app. change (zlen [cur]) with 1. lia. }
      rewrite Hz. split.
      * apply (Z.div_unique_pos _ _ _ k2); lia.
      * replace ((8 * zlen barr2 + k2) mod 8) with k2 by (apply (Z.mod_unique_pos _ _ (zlen barr2)); lia).
        apply (Z.div_unique_pos _ _ _ c2); [lia|]. rewrite <- HV2. ring.
    + replace (pre ++ cur :: nxt :: rest) with ((pre ++ [cur]) ++ nxt :: rest) in * by (rewrite <- app_assoc; reflexivity).
      apply IH; try assumption; try lia.
      * rewrite zlen_cons in Hf. lia.
      * rewrite zlen_app. change (zlen [cur]) with 1. lia.
      * rewrite HV2. rewrite (be_val_snoc (2 ^ bits) (pre ++ [cur])).
        apply digits_ok_app in HD as [_ HD]. apply digits_ok_cons in HD as [Hn _].
        apply (Z.div_unique_pos _ _ _ nxt); [exact Hn|]. ring.
  - apply IH; try assumption; try lia.
Qed.

Lemma indices_to_bytes_spec bits I : 1 <= bits -> I <> [] -> digits_ok (2 ^ bits) I ->
  exists out, indices_to_bytes I bits = Ok out /\ bytes_ok out /\
    zlen out = bits * zlen I / 8 /\ be_int out = be_words bits I / 2 ^ ((bits * zlen I) mod 8).
Proof.
  intros Hb Hn HD. destruct I as [|i rest]; [congruence|]. unfold indices_to_bytes.
  destruct (i2b_inv bits Hb (S (length (i :: rest) * Z.to_nat (bits + 1))) i rest [] [] 0 0 bits) as (out & E & O & L & V).
  - lia.
  - lia.
  - change (2 ^ 0) with 1. lia.
  - constructor.
  - exact HD.
  - rewrite Nat2Z.inj_succ, Nat2Z.inj_mul, Z2Nat.id by lia. fold (zlen (i :: rest)). rewrite zlen_cons.
    pose proof (zlen_nonneg rest). nia.
  - change (zlen (@nil Z)) with 0. lia.
  - cbn [app]. change (be_val (2 ^ bits) [i]) with (0 * 2 ^ bits + i). apply digits_ok_cons in HD as [Hi _].
    change (be_val 256 []) with 0. rewrite Z.div_small by lia. lia.
  - exists out. repeat split; assumption.
Qed.

Lemma digits_nonempty {A} (I : list A) : 0 < zlen I -> I <> [].
Proof. destruct I; [unfold zlen; cbn; lia|discriminate]. Qed.

Lemma bip39_round_trip bits seed : 8 <= bits <= 15 -> seed <> [] -> bytes_ok seed ->
  exists out, indices_to_bytes (bytes_to_indices seed bits) bits = Ok out /\
    ((8 * (zlen seed - 1)) mod bits + 8 <= bits -> out = seed) /\
    (bits < (8 * (zlen seed - 1)) mod bits + 8 -> 1 < zlen seed -> out = removelast seed).
Proof.
  intros Hb Hn Hs. destruct (bytes_to_indices_spec bits seed ltac:(lia) Hn Hs) as (HD & k & Hk & Ek & A & B).
  rewrite Ek. set (I := bytes_to_indices seed bits) in *.
  assert (Hz : 1 <= zlen seed) by (destruct seed; [congruence|]; rewrite zlen_cons; pose proof (zlen_nonneg seed); lia).
  assert (HI : I <> []).
  { apply digits_nonempty. destruct (Z.le_gt_cases (k + 8) bits) as [C|C]; [destruct (A C)|destruct (B C)]; nia. }
  destruct (indices_to_bytes_spec bits I ltac:(lia) HI HD) as (out & E & O & L & V).
  exists out. split; [exact E|]. split; intros C.
  - destruct (A C) as [A1 A2]. rewrite A1 in L, V. rewrite A2 in V.
    set (p := bits - k - 8) in *. assert (0 <= p < 8) by lia.
    replace ((8 * zlen seed + p) mod 8) with p in V by (apply (Z.mod_unique_pos _ _ (zlen seed)); lia).
    rewrite Z.div_mul in V by (apply Z.pow_nonzero; lia).
    replace ((8 * zlen seed + p) / 8) with (zlen seed) in L by (apply (Z.div_unique_pos _ _ _ p); lia).
    apply (be_val_inj 256); [lia|apply digits_ok_256; exact O|apply digits_ok_256; exact Hs| |exact V].
    unfold zlen in L. lia.
  - intros H1. destruct (B C) as [B1 B2]. rewrite B1 in L, V. rewrite B2 in V.
    set (p := k + 8 - bits) in *. assert (0 < p < 8) by lia.
    replace ((8 * zlen seed - p) mod 8) with (8 - p) in V by (apply (Z.mod_unique_pos _ _ (zlen seed - 1)); lia).
    rewrite Z.div_div in V by (apply Z.pow_nonzero || apply Z.pow_pos_nonneg; lia).
    rewrite <- Z.pow_add_r in V by lia. replace (p + (8 - p)) with 8 in V by lia. change (2 ^ 8) with 256 in V.
    replace ((8 * zlen seed - p) / 8) with (zlen seed - 1) in L by (apply (Z.div_unique_pos _ _ _ (8 - p)); lia).
    destruct (exists_last Hn) as (t & b & ->). rewrite removelast_last.
    change (be_int (t ++ [b])) with (be_val 256 (t ++ [b])) in V. rewrite be_val_snoc in V. apply bytes_ok_app in Hs as [Hs Hb2]. inversion Hb2; subst. unfold byte_ok in *.
    rewrite Z.div_add_l, Z.div_small, Z.add_0_r in V by lia.
    apply (be_val_inj 256); [lia|apply digits_ok_256; exact O|apply digits_ok_256; exact Hs| |exact V].
    rewrite zlen_app in L. change (zlen [b]) with 1 in L. unfold zlen in L. lia.
Qed.

Lemma to_seed_indices_spec sha256 secret j cs :
  bytes_ok secret -> zlen secret = 4 * j -> 1 <= j <= 8 -> byte_ok cs -> firstn 1 (sha256 secret) = [cs] ->
  let I := to_seed_indices sha256 secret in
  zlen I = 3 * j /\ Forall (fun w => 0 <= w < 2048) I /\
  be_words 11 I = be_int secret * 2 ^ j + cs / 2 ^ (8 - j) /\
  (indices_to_bytes I 11 = Ok (if j =? 8 then secret ++ [cs] else secret)).
Proof.
  intros Hs Hl Hj Hc Ef I. unfold I, to_seed_indices. rewrite Ef.
  assert (Hs2 : bytes_ok (secret ++ [cs])) by (apply bytes_ok_app; split; [exact Hs|repeat constructor; apply Hc]).
  assert (Hne : secret ++ [cs] <> []) by (intros F; apply app_eq_nil in F as [_ F]; discriminate F).
  destruct (bytes_to_indices_spec 11 _ ltac:(lia) Hne Hs2) as (HD & k & Hk & Ek & A & B).
  destruct (bip39_round_trip 11 _ ltac:(lia) Hne Hs2) as (out & Eo & RA & RB).
  rewrite zlen_app in *. change (zlen [cs]) with 1 in *. rewrite Hl in *.
  assert (Ek2 : k = 11 - j).
  { rewrite <- Ek. symmetry. apply (Z.mod_unique_pos _ _ (3 * j - 1)); lia. }
  change (be_int (secret ++ [cs])) with (be_val 256 (secret ++ [cs])) in A, B. rewrite be_val_snoc in A, B. change (be_val 256 secret) with (be_int secret) in A, B.
  split; [|split; [exact HD|split]].
  - destruct (Z.eq_dec j 8) as [->|]; [destruct (A ltac:(lia)); lia|destruct (B ltac:(lia)); lia].
  - destruct (Z.eq_dec j 8) as [->|].
    + destruct (A ltac:(lia)) as [_ A2]. rewrite A2, Ek2. change (2 ^ (11 - (11 - 8) - 8)) with 1.
      change (2 ^ (8 - 8)) with 1. rewrite Z.div_1_r. change (2 ^ 8) with 256. ring.
    + destruct (B ltac:(lia)) as [_ B2]. rewrite B2, Ek2. replace (11 - j + 8 - 11) with (8 - j) by lia.
      assert (P : 256 = 2 ^ j * 2 ^ (8 - j)) by (rewrite <- Z.pow_add_r by lia; change 256 with (2 ^ 8); f_equal; lia).
      rewrite P, Z.mul_assoc, Z.div_add_l by (apply Z.pow_nonzero; lia). reflexivity.
  - rewrite Eo. f_equal. rewrite Ek, Ek2 in RA, RB. destruct (Z.eqb_spec j 8) as [->|].
    + apply RA. lia.
    + rewrite RB by lia. apply removelast_last.
Qed.

(** height search *)
Lemma height_inv ts date : forall fuel hmin hmax,
  0 <= hmin <= hmax -> hmax - hmin <= 2 ^ (Z.of_nat fuel - 1) -> (0 < fuel)%nat ->
  (hmin = 0 \/ ts hmin < date) ->
  height_loop fuel ts date hmin hmax <> Err OutOfFuel /\
  (forall e, height_loop fuel ts date hmin hmax = Err e -> e = ValueError /\ exists h, hmin <= h <= hmax /\ h = hmax /\ ts h < date) /\
  (forall r, height_loop fuel ts date hmin hmax = Ok r ->
     hmin <= r <= hmax /\ (r = 0 \/ ts r < date) /\
     ((exists h, r <= h <= r + 1440 /\ h <= hmax /\ date <= ts h) \/
      date <= ts r + 172800 \/
      (exists a b, r <= a < b /\ b <= hmax /\ ts b < ts a))).
Proof.
  induction fuel as [|fuel IH]; intros hmin hmax Hh Hw Hf Hm; [lia|]. clear Hf.
  cbn [height_loop]. set (hmid := (hmin + hmax) / 2).
  assert (Hmid : hmin <= hmid <= hmax) by (unfold hmid; lia).
  destruct (Z.leb_spec (ts hmin) (ts hmid)) as [O1|O1];
  [destruct (Z.leb_spec (ts hmid) (ts hmax)) as [O2|O2]|]; cbn [andb negb].
  2:{ split; [discriminate|]. split; [discriminate|]. intros r E. assert (r = hmin) by (assert (Z.min hmin (Z.min hmid hmax) = r) by congruence; lia). subst r.
      split; [lia|]. split; [exact Hm|]. right. right. exists hmid, hmax. assert (hmid <> hmax) by (intros F; rewrite F in O2; lia). lia. }
  2:{ split; [discriminate|]. split; [discriminate|]. intros r E. assert (r = hmin) by (assert (Z.min hmin (Z.min hmid hmax) = r) by congruence; lia). subst r.
      split; [lia|]. split; [exact Hm|]. right. right. exists hmin, hmid. assert (hmid <> hmin) by (intros F; rewrite F in O1; lia). lia. }
  destruct (Z.ltb_spec (ts hmax) date) as [F|F].
  { split; [discriminate|]. split; [|discriminate]. intros e E. split; [congruence|]. exists hmax. lia. }
  change (2 * 24 * 60 * 60) with 172800. change (2 * 24 * 30) with 1440.
  destruct (Z.leb_spec date (ts hmin + 172800)) as [G|G].
  { split; [discriminate|]. split; [discriminate|]. intros r E. assert (r = hmin) by congruence. subst r.
    split; [lia|]. split; [exact Hm|]. right. left. exact G. }
  rewrite Nat2Z.inj_succ in Hw. replace (Z.succ (Z.of_nat fuel) - 1) with (Z.of_nat fuel) in Hw by lia.
  assert (Hfuel : 1440 < hmax - hmin -> (0 < fuel)%nat /\ 2 ^ Z.of_nat fuel = 2 * 2 ^ (Z.of_nat fuel - 1)).
  { intros. assert (0 < fuel)%nat. { destruct fuel; [|lia]. change (2 ^ Z.of_nat 0) with 1 in Hw. lia. }
    split; [assumption|]. rewrite <- Z.pow_succ_r by lia. f_equal. lia. }
  destruct (Z.leb_spec date (ts hmid)) as [D|D]; cbn [fst snd].
  - destruct (Z.leb_spec (hmid - hmin) 1440) as [W|W].
    + split; [discriminate|]. split; [discriminate|]. intros r E. assert (r = hmin) by congruence. subst r.
      split; [lia|]. split; [exact Hm|]. left. exists hmid. lia.
    + destruct Hfuel as [Hf1 Hf2]; [lia|].
      destruct (IH hmin hmid) as (T1 & T2 & T3); [lia|unfold hmid in *; lia|exact Hf1|exact Hm|].
      split; [exact T1|]. split.
      * intros e E. exfalso. destruct (T2 e E) as (_ & h & _ & -> & Q). lia.
      * intros r E. destruct (T3 r E) as (R1 & R2 & R3). split; [lia|]. split; [exact R2|].
        destruct R3 as [(h & ?)|[R|(a & b & ?)]]; [left; exists h; lia|right; left; exact R|right; right; exists a, b; lia].
  - destruct (Z.leb_spec (hmax - hmid) 1440) as [W|W].
    + split; [discriminate|]. split; [discriminate|]. intros r E. assert (r = hmid) by congruence. subst r.
      split; [lia|]. split; [right; exact D|]. left. exists hmax. lia.
    + destruct Hfuel as [Hf1 Hf2]; [lia|].
      destruct (IH hmid hmax) as (T1 & T2 & T3); [lia|unfold hmid in *; lia|exact Hf1|right; exact D|].
      split; [exact T1|]. split.
      * intros e E. exfalso. destruct (T2 e E) as (_ & h & _ & -> & Q). lia.
      * intros r E. destruct (T3 r E) as (R1 & R2 & R3). split; [lia|]. split; [exact R2|].
        destruct R3 as [(h & ?)|[R|(a & b & ?)]]; [left; exists h; lia|right; left; exact R|right; right; exists a, b; lia].
Qed.

Lemma height_spec ts height date : 0 < height ->
  (exists r, height_by_date ts height date = Ok r /\ 0 <= r < height /\ (r = 0 \/ ts r < date) /\
     ((exists h, r <= h <= r + 1440 /\ h < height /\ date <= ts h) \/ date <= ts r + 172800 \/
      exists a b, r <= a < b /\ b < height /\ ts b < ts a)) \/
  (height_by_date ts height date = Err ValueError /\ ts (height - 1) < date).
Proof.
  intros Hh. unfold height_by_date. set (f := S (Z.to_nat (Z.log2_up height))).
  destruct (height_inv ts date f 0 (height - 1)) as (T1 & T2 & T3); [lia| |lia|left; reflexivity|].
  - unfold f. rewrite Nat2Z.inj_succ, Z2Nat.id by apply Z.log2_up_nonneg.
    replace (Z.succ (Z.log2_up height) - 1) with (Z.log2_up height) by lia.
    destruct (Z.eq_dec height 1) as [->|]; [rewrite Z.log2_up_1; change (2 ^ 0) with 1; lia|].
    pose proof (Z.log2_up_spec height ltac:(lia)). lia.
  - destruct (height_loop f ts date 0 (height - 1)) as [r|e] eqn:E.
    + left. exists r. destruct (T3 r eq_refl) as (R1 & R2 & R3). split; [reflexivity|]. split; [lia|]. split; [exact R2|].
      destruct R3 as [(h & ?)|[R|(a & b & ?)]]; [left; exists h; lia|right; left; exact R|right; right; exists a, b; lia].
    + right. destruct (T2 e eq_refl) as (-> & h & _ & -> & Q). split; [reflexivity|exact Q].
Qed.

(** generator histories *)
Lemma stream_keystream H seed k n : Z.of_nat k + Z.of_nat n < 2 ^ 256 -> keystream H seed (Z.of_nat k) n (stream H seed k n).
Proof.
  revert k. induction n as [|n IH]; intros k Hk; [constructor|].
  unfold stream. cbn [seq flat_map]. unfold block at 1. constructor.
  - split; [apply be_digits_length|]. split; [apply digits_ok_256, be_digits_ok; lia|].
    rewrite be_int_val, be_val_digits by lia. apply Z.mod_small. change (256 ^ Z.of_nat 32) with (2 ^ 256). lia.
  - replace (Z.of_nat k + 1) with (Z.of_nat (S k)) by lia. apply IH. lia.
Qed.

Definition after (H : list Z -> list Z) (seed : list Z) (reqs : list Z) : res prng :=
  foldM (fun p n => let* (p, _) := prng_next H p n in Ok p) reqs (prng_new seed).

Lemma after_pos H seed : (forall x, length (H x) = 32%nat) -> forall reqs k,
  Forall (fun n => 0 <= n) reqs -> Z.of_nat k + fold_right Z.add 0 reqs + 1 < 2 ^ 256 ->
  foldM (fun p n => let* (p, _) := prng_next H p n in Ok p) reqs (at_pos seed k)
  = Ok (at_pos seed (k + Z.to_nat (fold_right Z.add 0 (map blocks reqs)))) /\
  0 <= fold_right Z.add 0 (map blocks reqs) <= fold_right Z.add 0 reqs.
Proof.
  intros Hl. induction reqs as [|n reqs IH]; intros k Hf Hk.
  - cbn [map fold_right foldM]. split; [|lia]. repeat f_equal. lia.
  - inversion Hf; subst. cbn [map fold_right foldM] in *.
    assert (0 <= fold_right Z.add 0 reqs) by (clear -H3; induction H3; cbn [fold_right]; lia).
    rewrite prng_next_spec by (assumption || lia). cbn [bind]. fold (blocks n).
    assert (0 <= blocks n <= n) by (unfold blocks; lia).
    destruct (IH (k + Z.to_nat (blocks n))%nat H3 ltac:(lia)) as [E B]. rewrite E. split; [|lia].
    do 2 f_equal. rewrite Z2Nat.inj_add by lia. lia.
Qed.

Lemma prng_history H seed reqs n : (forall x, length (H x) = 32%nat) ->
  Forall (fun n => 0 <= n) reqs -> 0 <= n -> fold_right Z.add 0 reqs + n + 1 < 2 ^ 256 ->
  exists p p' out full, after H seed reqs = Ok p /\ prng_next H p n = Ok (p', out) /\
    zlen out = n /\ keystream H seed (fold_right Z.add 0 (map blocks reqs)) (Z.to_nat (blocks n)) full /\
    out = firstn (Z.to_nat n) full.
Proof.
  intros Hl Hf Hn Hs. unfold after.
  assert (0 <= fold_right Z.add 0 reqs) by (clear -Hf; induction Hf; cbn [fold_right]; lia).
  destruct (after_pos H seed Hl reqs 0 Hf ltac:(lia)) as [E B].
  change (prng_new seed) with (at_pos seed 0). rewrite E.
  set (k := fold_right Z.add 0 (map blocks reqs)) in *. rewrite Nat.add_0_l.
  eexists _, _, _, _. split; [reflexivity|]. rewrite prng_next_spec by (assumption || lia).
  split; [reflexivity|]. fold (blocks n). assert (0 <= blocks n <= n /\ n <= 32 * blocks n) by (unfold blocks; lia).
  split.
  - unfold zlen. rewrite firstn_length, stream_length by assumption. lia.
  - split; [|reflexivity]. rewrite <- (Z2Nat.id k) at 1 by lia. apply stream_keystream. lia.
Qed.

Lemma prng_split H seed reqs j n : (forall x, length (H x) = 32%nat) ->
  Forall (fun n => 0 <= n) reqs -> 0 <= n -> 0 <= j -> fold_right Z.add 0 reqs + 32 * j + n + 1 < 2 ^ 256 ->
  exists p p1 p2 a b, after H seed reqs = Ok p /\ prng_next H p (32 * j) = Ok (p1, a) /\
    prng_rewind H p (32 * j) = Ok p1 /\ prng_next H p1 n = Ok (p2, b) /\
    prng_next H p (32 * j + n) = Ok (p2, a ++ b).
Proof.
  intros Hl Hf Hn Hj Hs. unfold after.
  assert (0 <= fold_right Z.add 0 reqs) by (clear -Hf; induction Hf; cbn [fold_right]; lia).
  destruct (after_pos H seed Hl reqs 0 Hf ltac:(lia)) as [E B].
  change (prng_new seed) with (at_pos seed 0). rewrite E.
  set (k := fold_right Z.add 0 (map blocks reqs)) in *. rewrite Nat.add_0_l.
  eexists _, _, _, _, _. split; [reflexivity|].
  rewrite (prng_rewind_spec H Hl seed (Z.to_nat k) j) by lia.
  rewrite (prng_next_spec H Hl seed (Z.to_nat k) (32 * j)) by lia.
  replace ((32 * j + 31) / 32) with j by lia.
  split; [reflexivity|]. split; [reflexivity|].
  rewrite (prng_next_spec H Hl seed _ n) by lia. split; [reflexivity|].
  rewrite (prng_next_spec H Hl seed _ (32 * j + n)) by lia.
  replace (Z.to_nat ((32 * j + n + 31) / 32)) with (Z.to_nat j + Z.to_nat ((n + 31) / 32))%nat by lia.
  rewrite Nat.add_assoc. f_equal. f_equal. rewrite stream_app.
  rewrite firstn_app, stream_length by assumption.
  rewrite !(firstn_all2 (stream H seed (Z.to_nat k) (Z.to_nat j))) by (rewrite stream_length by assumption; lia).
  f_equal. f_equal. lia.
Qed.

Lemma prng_reset_new p : prng_reset p None = prng_new (pr_seed p).
Proof. reflexivity. Qed.
Lemma prng_seed_kept H reqs seed p : (forall x, length (H x) = 32%nat) ->
  Forall (fun n => 0 <= n) reqs -> fold_right Z.add 0 reqs + 1 < 2 ^ 256 ->
  after H seed reqs = Ok p -> prng_reset p None = prng_new seed /\ forall s, prng_reset p (Some s) = prng_new s.
Proof.
  intros Hl Hf Hs E. unfold after in E. change (prng_new seed) with (at_pos seed 0) in E.
  destruct (after_pos H seed Hl reqs 0 Hf ltac:(lia)) as [E2 _].
  rewrite E2 in E. assert (p = at_pos seed (0 + Z.to_nat (fold_right Z.add 0 (map blocks reqs)))) by congruence.
  subst p. split; reflexivity.
Qed.

(** mask vector histories *)
Definition reads (H : list Z -> list Z) (m : pmask) (is_ : list Z) : res (pmask * list Z) :=
  foldM (fun s i => let* (m, v) := pmask_get H (fst s) i in Ok (m, snd s ++ [v])) is_ (m, []).

Lemma reads_synced H seed : (forall x, length (H x) = 32%nat) -> (forall x, bytes_ok (H x)) ->
  forall is_ m acc, synced H m -> pm_nonlin m = true -> pm_seed m = seed -> Forall (fun i => 0 <= i < pm_size m) is_ ->
  exists m', foldM (fun s i => let* (m, v) := pmask_get H (fst s) i in Ok (m, snd s ++ [v])) is_ (m, acc)
   = Ok (m', acc ++ map (fun i => mask_at H seed (Z.to_nat i)) is_).
Proof.
  intros Hl Hb. induction is_ as [|i is_ IH]; intros m acc Hm Hn Hs Hf.
  - exists m. cbn [foldM map]. rewrite app_nil_r. reflexivity.
  - inversion Hf; subst. cbn [foldM map fst snd].
    destruct (pmask_get_synced H Hl Hb m i Hm Hn H2) as (m' & E & S' & L & Sd & Sz & N').
    rewrite E. cbn [bind fst snd]. destruct (IH m' (acc ++ [mask_at H (pm_seed m) (Z.to_nat i)])) as (m2 & E2); try assumption.
    + rewrite Sz. exact H3.
    + exists m2. rewrite E2, <- app_assoc. reflexivity.
Qed.

Lemma mask_vector H seed size is_ : (forall x, length (H x) = 32%nat) -> (forall x, bytes_ok (H x)) ->
  0 < size < 2 ^ 64 -> Forall (fun i => 0 <= i < size) is_ ->
  exists m' vs, reads H (pmask_new size seed true) (0 :: is_) = Ok (m', vs) /\
    Forall2 (fun i v => exists c, is_ctr32 (i + 1) c /\ v = le_int (H (seed ++ c)) mod l) (0 :: is_) vs.
Proof.
  intros Hl Hb Hsz Hf. unfold reads. cbn [foldM fst snd].
  assert (E : pmask_get H (pmask_new size seed true) 0
     = Ok ({| pm_size := size; pm_seed := seed; pm_prng := at_pos seed 1; pm_last := 0; pm_sc := mask_at H seed 0; pm_nonlin := true |}, mask_at H seed 0)).
  { unfold pmask_get, pmask_new, idxize. cbn [pm_size pm_seed pm_prng pm_last pm_sc pm_nonlin].
    destruct (Z.leb_spec size 0); [lia|]. cbn [Z.ltb Z.compare bind]. destruct (Z.leb_spec size 0); [lia|]. cbn [bind Z.eqb].
    unfold pmask_reset. rewrite (pmask_step_spec H Hl Hb _ seed 0); [reflexivity|reflexivity|].
    assert (2 ^ 64 * 64 < 2 ^ 256) by reflexivity. lia. }
  rewrite E. cbn [bind fst snd].
  set (m0 := {| pm_size := size; pm_seed := seed; pm_prng := at_pos seed 1; pm_last := 0; pm_sc := mask_at H seed 0; pm_nonlin := true |}).
  destruct (reads_synced H seed Hl Hb is_ m0 [mask_at H seed 0]) as (m' & E2).
  - split; [cbn; lia|]. split; [cbn [m0 pm_size]; lia|]. split; reflexivity.
  - reflexivity.
  - reflexivity.
  - exact Hf.
  - exists m'. eexists. cbn [app] in *. rewrite E2. split; [reflexivity|].
    assert (B : 2 ^ 64 * 64 < 2 ^ 256) by reflexivity.
    assert (G : forall i, 0 <= i < size -> exists c, is_ctr32 (i + 1) c /\ mask_at H seed (Z.to_nat i) = le_int (H (seed ++ c)) mod l).
    { intros i Hi. exists (be_digits 256 32 (i + 1)). split.
      - split; [apply be_digits_length|]. split; [apply digits_ok_256, be_digits_ok; lia|].
        rewrite be_int_val, be_val_digits by lia. apply Z.mod_small. change (256 ^ Z.of_nat 32) with (2 ^ 256). lia.
      - unfold mask_at, block. rewrite le_int_val. replace (Z.of_nat (Z.to_nat i) + 1) with (i + 1) by lia. reflexivity. }
    constructor; [apply (G 0); lia|]. clear -Hf G. induction Hf; constructor; auto.
Qed.
