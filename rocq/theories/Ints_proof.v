From Verif Require Import Py PyLemmas Digits Ints_model Ints_spec.

Definition total (bits : list Z) : Z := fold_right Z.add 0 bits.
Definition widths (bits : list Z) : Prop := Forall (fun b => 0 <= b) bits.

Lemma total_nonneg bits : widths bits -> 0 <= total bits.
Proof. induction 1; cbn [total fold_right] in *; [lia|]. unfold total in *; lia. Qed.

Lemma land_mask x b : 0 <= b -> Z.land x (Z.shiftl 1 b - 1) = x mod 2 ^ b.
Proof.
  intros. rewrite <- Z.land_ones by lia. f_equal.
Qed.
Lemma land_mask' x b : 0 <= b -> Z.land x (2 ^ b - 1) = x mod 2 ^ b.
Proof. intros. rewrite <- Z.land_ones by lia. f_equal. rewrite Z.ones_equiv. lia. Qed.

Lemma enc_loop_val bits : widths bits -> forall n,
  limb_val bits (enc_loop bits n) = n mod 2 ^ total bits /\ limbs_ok bits (enc_loop bits n).
Proof.
  induction 1 as [|b bits Hb Hbs IH]; intros n; cbn [enc_loop limb_val total fold_right].
  - change (2 ^ 0) with 1. rewrite Z.mod_1_r. split; [reflexivity|constructor].
  - specialize (IH (Z.shiftr n b)) as [IH1 IH2]. rewrite land_mask by lia. rewrite Z.shiftr_div_pow2 in * by lia.
    rewrite IH1.
    pose proof (total_nonneg bits Hbs) as Ht. unfold total in *.
    assert (0 < 2 ^ b) by (apply Z.pow_pos_nonneg; lia).
    assert (0 < 2 ^ fold_right Z.add 0 bits) by (apply Z.pow_pos_nonneg; lia).
    split.
    + rewrite Z.pow_add_r by lia. rewrite Z.rem_mul_r by lia. reflexivity.
    + constructor; [apply Z.mod_pos_bound; lia|]. exact IH2.
Qed.

Definition last_carry (bits limbs : list Z) (c : Z) : Z :=
  last (map (fun p => Z.shiftr (snd p) (fst p)) (combine bits limbs)) c.

Lemma dec_loop_val bits : widths bits -> forall limbs n c shift,
  (length bits <= length limbs)%nat -> 0 <= shift ->
  exists v, dec_loop bits limbs n c shift = Ok v /\
    v + 2 ^ (shift + total bits) * last_carry bits limbs c = n + 2 ^ shift * (c + limb_val bits limbs).
Proof.
  induction 1 as [|b bits Hb Hbs IH]; intros limbs n c shift Hl Hs.
  - exists n. split; [reflexivity|]. unfold last_carry. cbn [total fold_right limb_val combine map last].
    rewrite !Z.add_0_r. ring.
  - destruct limbs as [|x limbs]; cbn [length] in Hl; [lia|].
    cbn [dec_loop].
    destruct (IH limbs (n + Z.shiftl (Z.land x (Z.shiftl 1 b - 1) + c) shift) (Z.shiftr x b) (shift + b))
      as (v & E & V); [lia|lia|].
    exists v. split; [exact E|].
    replace (last_carry (b :: bits) (x :: limbs) c) with (last_carry bits limbs (Z.shiftr x b)).
    2:{ unfold last_carry. cbn [combine map fst snd].
        destruct (map _ (combine bits limbs)) as [|a t] eqn:Em; [reflexivity|].
        cbn [last]. clear. revert a. induction t as [|u t IHt]; intros a; [reflexivity|apply IHt]. }
    cbn [total fold_right limb_val] in *. fold (total bits) in *.
    replace (shift + (b + total bits)) with (shift + b + total bits) by lia.
    rewrite V. rewrite Z.shiftl_mul_pow2, Z.shiftr_div_pow2, land_mask by lia.
    rewrite Z.pow_add_r by lia.
    pose proof (Z.div_mod x (2 ^ b)) as D.
    assert (2 ^ b <> 0) by (apply Z.pow_nonzero; lia). specialize (D H).
    remember (x / 2 ^ b) as dq. remember (x mod 2 ^ b) as dm. rewrite D. ring.
Qed.

Lemma last_carry_ok bits limbs : widths bits -> limbs_ok bits limbs -> last_carry bits limbs 0 = 0.
Proof.
  intros Hw H. unfold last_carry.
  assert (A : Forall (fun z => z = 0) (map (fun p => Z.shiftr (snd p) (fst p)) (combine bits limbs))).
  { revert Hw. induction H as [|b x bits limbs Hx H IH]; intros Hw; [constructor|].
    inversion Hw; subst. cbn [combine map fst snd]. constructor; [|apply IH; assumption].
    rewrite Z.shiftr_div_pow2 by lia. apply Z.div_small. exact Hx. }
  induction A as [|z t Hz A IH]; [reflexivity|]. cbn [last]. destruct t; [exact Hz|exact IH].
Qed.

Lemma limbs_ok_length bits limbs : limbs_ok bits limbs -> length limbs = length bits.
Proof. induction 1; cbn; congruence. Qed.

Lemma dec_ok bits limbs : widths bits -> limbs_ok bits limbs ->
  dec_loop bits limbs 0 0 0 = Ok (limb_val bits limbs).
Proof.
  intros Hw H. destruct (dec_loop_val bits Hw limbs 0 0 0) as (v & E & V).
  - rewrite (limbs_ok_length _ _ H). lia.
  - lia.
  - rewrite E. f_equal. rewrite last_carry_ok in V by assumption.
    change (2 ^ 0) with 1 in V. lia.
Qed.

Lemma limb_val_inj bits a b : widths bits -> limbs_ok bits a -> limbs_ok bits b ->
  limb_val bits a = limb_val bits b -> a = b.
Proof.
  intros Hw Ha. revert b. induction Ha as [|w x bits a Hx Ha IH]; intros b Hb E; inversion Hb; subst; [reflexivity|].
  inversion Hw; subst. cbn [limb_val] in E.
  assert (x = y /\ limb_val bits a = limb_val bits l') as [-> E2].
  { assert (0 < 2 ^ w) by lia. remember (2 ^ w) as p. remember (limb_val bits a) as u. remember (limb_val bits l') as v.
    assert (u = v) by nia. subst u. split; [subst; nia|assumption]. }
  f_equal. apply IH; assumption.
Qed.

Lemma widths25 : widths bits25.
Proof. repeat constructor; lia. Qed.
Lemma widths30 : widths bits30.
Proof. repeat constructor; lia. Qed.

Lemma ed25519_round_trip n :
  length (encode_ed25519 n) = 10%nat /\ limbs_ok bits25 (encode_ed25519 n) /\
  limb_val bits25 (encode_ed25519 n) = n mod q /\
  decode_ed25519 (encode_ed25519 n) = Ok (n mod q).
Proof.
  destruct (enc_loop_val bits25 widths25 (n mod q)) as [V O]. fold (encode_ed25519 n) in V, O.
  assert (E : limb_val bits25 (encode_ed25519 n) = n mod q).
  { rewrite V. apply Z.mod_small. change (2 ^ total bits25) with (2 ^ 255).
    pose proof (Z.mod_pos_bound n q ltac:(reflexivity)). unfold q in *. lia. }
  repeat split; [exact O|exact E|]. unfold decode_ed25519. rewrite dec_ok; [now rewrite E|exact widths25|exact O].
Qed.

Lemma modm_round_trip n :
  length (encode_modm n) = 9%nat /\ limbs_ok bits30 (encode_modm n) /\
  limb_val bits30 (encode_modm n) = n mod l /\
  decode_modm (encode_modm n) = Ok (n mod l).
Proof.
  destruct (enc_loop_val bits30 widths30 (n mod l)) as [V O]. fold (encode_modm n) in V, O.
  assert (E : limb_val bits30 (encode_modm n) = n mod l).
  { rewrite V. apply Z.mod_small. change (2 ^ total bits30) with (2 ^ 270).
    pose proof (Z.mod_pos_bound n l ltac:(reflexivity)). unfold l in *. lia. }
  repeat split; [exact O|exact E|]. unfold decode_modm. rewrite dec_ok; [now rewrite E|exact widths30|exact O].
Qed.

Lemma ed25519_canonical limbs n :
  limbs_ok bits25 limbs -> decode_ed25519 limbs = Ok n -> n < q -> encode_ed25519 n = limbs.
Proof.
  intros H D Hn. unfold decode_ed25519 in D. rewrite dec_ok in D by (assumption || exact widths25).
  assert (n = limb_val bits25 limbs) by congruence. subst n.
  destruct (ed25519_round_trip (limb_val bits25 limbs)) as (_ & O & V & _).
  apply (limb_val_inj bits25); [exact widths25|exact O|exact H|]. rewrite V. apply Z.mod_small.
  split; [|exact Hn]. clear -H. induction H as [|b x bits t Hx H IH]; cbn [limb_val]; [lia|].
  assert (0 < 2 ^ b) by lia. nia.
Qed.
Lemma modm_canonical limbs n :
  limbs_ok bits30 limbs -> decode_modm limbs = Ok n -> n < l -> encode_modm n = limbs.
Proof.
  intros H D Hn. unfold decode_modm in D. rewrite dec_ok in D by (assumption || exact widths30).
  assert (n = limb_val bits30 limbs) by congruence. subst n.
  destruct (modm_round_trip (limb_val bits30 limbs)) as (_ & O & V & _).
  apply (limb_val_inj bits30); [exact widths30|exact O|exact H|]. rewrite V. apply Z.mod_small.
  split; [|exact Hn]. clear -H. induction H as [|b x bits t Hx H IH]; cbn [limb_val]; [lia|].
  assert (0 < 2 ^ b) by lia. nia.
Qed.

(** signed limbs *)
Fixpoint sval (bits limbs : list Z) : Z :=
  match bits, limbs with
  | b :: bits, x :: limbs => x + 2 ^ b * sval bits limbs
  | [], x :: _ => x
  | _, [] => 0
  end.
Lemma sign_loop_val bits : Forall (fun b => 1 <= b) bits -> forall x k, total bits <= k -> - 2 ^ k <= x <= 2 ^ k ->
  sval bits (sign_loop bits x) = x /\ length (sign_loop bits x) = S (length bits) /\
  Forall2 (fun b y => - 2 ^ (b - 1) <= y < 2 ^ (b - 1)) bits (firstn (length bits) (sign_loop bits x)) /\
  - 2 ^ (k - total bits) <= last (sign_loop bits x) 0 <= 2 ^ (k - total bits).
Proof.
  induction 1 as [|b bits Hb Hbs IH]; intros x k Hk Hx.
  - cbn [sign_loop sval length firstn last total fold_right] in *. rewrite Z.sub_0_r. repeat split; try constructor; lia.
  - cbn [sign_loop total fold_right] in *. fold (total bits) in *.
    rewrite !Z.shiftl_1_l. set (cy := (x + 2 ^ (b - 1)) / 2 ^ b). rewrite Z.add_0_l.
    assert (Ht : 0 <= total bits).
    { apply total_nonneg. eapply Forall_impl; [|exact Hbs]. cbn; intros; lia. }
    assert (P : 2 ^ b = 2 * 2 ^ (b - 1)) by (rewrite <- Z.pow_succ_r by lia; f_equal; lia).
    assert (P0 : 0 < 2 ^ (b - 1)) by (apply Z.pow_pos_nonneg; lia).
    assert (K : 2 ^ k = 2 ^ b * 2 ^ (k - b)) by (rewrite <- Z.pow_add_r by lia; f_equal; lia).
    assert (K0 : 0 < 2 ^ (k - b)) by (apply Z.pow_pos_nonneg; lia).
    assert (C1 : 2 ^ b * cy <= x + 2 ^ (b - 1) < 2 ^ b * cy + 2 ^ b).
    { unfold cy. pose proof (Z.div_mod (x + 2 ^ (b-1)) (2 ^ b) ltac:(lia)).
      pose proof (Z.mod_pos_bound (x + 2 ^ (b-1)) (2 ^ b) ltac:(lia)). lia. }
    destruct (IH cy (k - b)) as (V & L & F & T); [lia| |].
    { clearbody cy. remember (2 ^ (k - b)) as m. remember (2 ^ (b - 1)) as h. rewrite K, P in Hx. rewrite P in C1. nia. }
    cbn [sval length firstn]. rewrite V, L. repeat split.
    + ring.
    + constructor; [|exact F]. clearbody cy. lia.
    + destruct (sign_loop bits cy) eqn:E; [discriminate L|]. cbn [last] in *.
      replace (k - (b + total bits)) with (k - b - total bits) by lia. exact (proj1 T).
    + destruct (sign_loop bits cy) eqn:E; [discriminate L|]. cbn [last] in *.
      replace (k - (b + total bits)) with (k - b - total bits) by lia. exact (proj2 T).
Qed.

Lemma sval_limb_val b0 bits limbs : length limbs = S (length bits) ->
  sval bits limbs = limb_val (bits ++ [b0]) limbs.
Proof.
  revert limbs. induction bits as [|b bits IH]; intros limbs Hl; destruct limbs as [|x limbs]; try discriminate Hl; cbn [sval limb_val app].
  - destruct limbs; [|discriminate Hl]. cbn [limb_val]. lia.
  - rewrite IH; [reflexivity|]. cbn [length] in Hl. lia.
Qed.

Lemma encode_sign_val n :
  length (encode_ed25519_sign n) = 10%nat /\
  (limb_val bits25 (encode_ed25519_sign n) - n) mod q = 0 /\
  Forall2 (fun b y => - 2 ^ (b - 1) <= y <= 2 ^ (b - 1)) bits25 (encode_ed25519_sign n).
Proof.
  unfold encode_ed25519_sign.
  pose proof (Z.mod_pos_bound n q ltac:(reflexivity)) as B.
  set (x := if q <? n mod q + n mod q then n mod q - q else n mod q).
  assert (X : - 2 ^ 254 <= x <= 2 ^ 254).
  { unfold x. destruct (Z.ltb_spec q (n mod q + n mod q)); unfold q in *; lia. }
  assert (M : (x - n) mod q = 0).
  { unfold x. destruct (q <? n mod q + n mod q).
    - replace (n mod q - q - n) with (- (n / q + 1) * q) by (pose proof (Z.div_mod n q ltac:(discriminate)); lia).
      apply Z.mod_mul. discriminate.
    - replace (n mod q - n) with (- (n / q) * q) by (pose proof (Z.div_mod n q ltac:(discriminate)); lia).
      apply Z.mod_mul. discriminate. }
  clearbody x.
  destruct (sign_loop_val (firstn 9 bits25) ltac:(repeat constructor; lia) x 254 ltac:(vm_compute; discriminate) X) as (V & L & F & T).
  rewrite (sval_limb_val 25) in V by exact L.
  change (firstn 9 bits25 ++ [25]) with bits25 in V.
  change (254 - total (firstn 9 bits25)) with 24 in T.
  change (length (firstn 9 bits25)) with 9%nat in *.
  remember (sign_loop (firstn 9 bits25) x) as ls eqn:Els.
  split; [exact L|]. split; [rewrite V; exact M|].
  assert (S : ls = firstn 9 ls ++ [last ls 0]).
  { clear -L. do 10 (destruct ls as [|? ls]; [discriminate L|]). destruct ls; [reflexivity|discriminate L]. }
  rewrite S. change bits25 with (firstn 9 bits25 ++ [25]). apply Forall2_app.
  - clear -F. induction F; constructor; [lia|assumption].
  - constructor; [|constructor]. change (2 ^ (25 - 1)) with (2 ^ 24). exact T.
Qed.

(** conversion of the signed Monero constants *)
Lemma const_loop_val bits : widths bits -> forall arr c,
  length arr = length bits -> Forall2 (fun b x => - 2 ^ b <= x) bits arr ->
  exists ls, const_loop bits arr c = Ok ls /\ length ls = length bits /\
    exists e, limb_val bits ls = c + limb_val bits arr + 2 ^ total bits * e \/ bits = [].
Proof.
  induction 1 as [|b bits Hb Hbs IH]; intros arr c Hl F; inversion F; subst.
  - exists []. repeat split. exists 0. right. reflexivity.
  - rename y into x, l' into arr. cbn [length] in Hl. cbn [const_loop].
    assert (P0 : 0 < 2 ^ b) by (apply Z.pow_pos_nonneg; lia).
    assert (Ht : 2 ^ (b + total bits) = 2 ^ b * 2 ^ total bits)
      by (apply Z.pow_add_r; [lia|apply total_nonneg; assumption]).
    destruct (Z.ltb_spec x 0).
    + destruct (IH arr (Z.shiftr x b)) as (ls & E & L & e & V); [lia|assumption|].
      rewrite E. cbn [bind]. eexists. split; [reflexivity|]. cbn [length]. split; [congruence|].
      assert (S1 : Z.shiftr x b = -1).
      { rewrite Z.shiftr_div_pow2 by lia. symmetry. apply (Z.div_unique_pos x (2^b) (-1) (x + 2^b)); lia. }
      cbn [total fold_right limb_val]. fold (total bits). rewrite Z.shiftl_1_l, S1 in *.
      destruct V as [V| ->].
      * exists e. left. rewrite V, Ht. ring.
      * exists 1. left. destruct ls; [|discriminate L]. cbn [limb_val total fold_right].
        change (b + 0) with (b + 0). rewrite Z.add_0_r. destruct arr; cbn [limb_val]; ring.
    + destruct (IH arr 0) as (ls & E & L & e & V); [lia|assumption|].
      rewrite E. cbn [bind]. eexists. split; [reflexivity|]. cbn [length]. split; [congruence|].
      cbn [total fold_right limb_val]. fold (total bits).
      destruct V as [V| ->].
      * exists e. left. rewrite V, Ht. ring.
      * exists 0. left. destruct ls; [|discriminate L]. cbn [limb_val total fold_right].
        destruct arr; cbn [limb_val]; ring.
Qed.

Lemma const_decode arr :
  length arr = 10%nat -> Forall2 (fun b x => - 2 ^ b <= x) bits25 arr ->
  exists ls n, encode_edd25519_xmr_const arr = Ok ls /\ decode_ed25519 ls = Ok n /\
    (n - limb_val bits25 arr) mod 2 ^ 255 = 0.
Proof.
  intros Hl F. destruct (const_loop_val bits25 widths25 arr 0 Hl F) as (ls & E & L & e & [V|V]); [|discriminate V].
  destruct (dec_loop_val bits25 widths25 ls 0 0 0) as (n & D & N); [rewrite L; cbn; lia|lia|].
  exists ls, n. split; [exact E|]. split; [exact D|].
  change (0 + total bits25) with 255 in N. change (total bits25) with 255 in V. change (2 ^ 0) with 1 in N.
  replace (n - limb_val bits25 arr) with ((e - last_carry bits25 ls 0) * 2 ^ 255) by lia.
  apply Z.mod_mul. discriminate.
Qed.

(** extended gcd *)
Lemma egcd_inv (a b : Z) : forall fuel lr r x lx y ly g u v,
  egcd_loop fuel lr r x lx y ly = Ok (g, u, v) -> 0 <= lr -> 0 <= r ->
  a * lx + b * ly = lr -> a * x + b * y = r ->
  a * u + b * v = g /\ g = Z.gcd lr r.
Proof.
  induction fuel as [|fuel IH]; intros * E Hlr Hr A B; cbn [egcd_loop] in E; [discriminate|].
  destruct (Z.eqb_spec r 0) as [->|N].
  - assert (lr = g /\ lx = u /\ ly = v) as (-> & -> & ->) by (repeat split; congruence).
    split; [exact A|]. rewrite Z.gcd_0_r, Z.abs_eq; lia.
  - apply IH in E; [|lia|apply Z.mod_pos_bound; lia|exact B|].
    + destruct E as [E1 E2]. split; [exact E1|]. rewrite E2, Z.gcd_comm, Z.gcd_mod by lia. apply Z.gcd_comm.
    + pose proof (Z.div_mod lr r N). rewrite (Z.mod_eq lr r N).
      remember (lr / r) as d. clear -A B. subst lr r. ring.
Qed.

Lemma egcd_fuel : forall k lr r x lx y ly, 0 <= lr -> 0 <= r < 2 ^ Z.of_nat k ->
  exists t, egcd_loop (2 * k + 1) lr r x lx y ly = Ok t.
Proof.
  induction k as [|k IH]; intros * Hl Hr.
  - change (2 ^ Z.of_nat 0) with 1 in Hr. assert (r = 0) by lia. subst. cbn. eauto.
  - replace (2 * S k + 1)%nat with (S (S (2 * k + 1))) by lia. cbn [egcd_loop].
    destruct (Z.eqb_spec r 0); [eauto|].
    destruct (Z.eqb_spec (lr mod r) 0); [eauto|].
    pose proof (Z.mod_pos_bound lr r ltac:(lia)) as B1.
    pose proof (Z.mod_pos_bound r (lr mod r) ltac:(lia)) as B2.
    apply IH; [lia|]. split; [lia|].
    rewrite Nat2Z.inj_succ, Z.pow_succ_r in Hr by lia.
    pose proof (Z.div_mod r (lr mod r) ltac:(lia)) as D.
    assert (1 <= r / (lr mod r)) by (apply Z.div_le_lower_bound; lia).
    remember (lr mod r) as s. remember (r mod s) as t. remember (r / s) as d. nia.
Qed.

Lemma extended_gcd_spec a b :
  exists x y, extended_gcd a b = Ok (Z.gcd a b, x, y) /\ a * x + b * y = Z.gcd a b.
Proof.
  unfold extended_gcd.
  destruct (egcd_fuel (Z.to_nat (Z.log2_up (Z.abs b + 1))) (Z.abs a) (Z.abs b) 0 1 1 0) as [[[g u] v] E].
  - lia.
  - rewrite Z2Nat.id by apply Z.log2_up_nonneg.
    destruct (Z.eq_dec (Z.abs b) 0) as [Z0|NZ].
    + rewrite Z0. split; [lia|]. apply Z.pow_pos_nonneg; [lia|apply Z.log2_up_nonneg].
    + pose proof (Z.log2_up_spec (Z.abs b + 1)). lia.
  - rewrite E. cbn [bind].
    destruct (egcd_inv (Z.abs a) (Z.abs b) _ _ _ _ _ _ _ _ _ _ E) as [E1 E2]; [lia|lia|ring|ring|].
    rewrite Z.gcd_abs_l, Z.gcd_abs_r in E2. rewrite E2 in *. clear E E2.
    eexists _, _. split; [reflexivity|]. rewrite <- E1.
    destruct (Z.ltb_spec a 0), (Z.ltb_spec b 0); lia.
Qed.

Lemma modinv_ok a m : 0 < m -> Z.gcd a m = 1 ->
  exists r, modinv a m = Ok r /\ 0 <= r < m /\ (a * r) mod m = 1 mod m.
Proof.
  intros Hm G. unfold modinv. destruct (extended_gcd_spec a m) as (x & y & E & B).
  rewrite E, G in *. cbn [bind]. change (negb (1 =? 1)) with false. cbn [negb].
  destruct (Z.eqb_spec m 0); [lia|]. eexists. split; [reflexivity|].
  split; [apply Z.mod_pos_bound; lia|]. rewrite Z.mul_mod_idemp_r by lia.
  replace (a * x) with (1 + (- y) * m) by lia. apply Z.mod_add. lia.
Qed.
Lemma modinv_fail a m : Z.gcd a m <> 1 -> modinv a m = Err ValueError.
Proof.
  intros G. unfold modinv. destruct (extended_gcd_spec a m) as (x & y & E & B).
  rewrite E. cbn [bind]. destruct (Z.eqb_spec (Z.gcd a m) 1); [contradiction|]. reflexivity.
Qed.
