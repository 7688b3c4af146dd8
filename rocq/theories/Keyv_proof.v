(** The vector of keys, flat or in chunks, against a plain array. *)
From Verif Require Import Py PyLemmas Digits Ints_model Ec_model Keyv_model Keyv_spec.

Lemma memcpy_mid : forall m' m p s p' s' doff soff, length m = length m' -> doff = zlen p -> soff = zlen p' ->
  memcpy (length m') (p ++ m ++ s) doff (p' ++ m' ++ s') soff = (p ++ m' ++ s, Ok tt).
Proof.
  induction m' as [|b m' IH]; intros [|x m] p s p' s' doff soff HL HD HS; cbn [length] in HL; try lia; cbn [length memcpy app]; [reflexivity|].
  rewrite (py_get_mid p' b (m' ++ s') soff HS), (py_set_mid p x (m ++ s) b doff HD).
  replace (p ++ b :: m ++ s) with ((p ++ [b]) ++ m ++ s) by (rewrite <- app_assoc; reflexivity).
  replace (p' ++ b :: m' ++ s') with ((p' ++ [b]) ++ m' ++ s') by (rewrite <- app_assoc; reflexivity).
  rewrite IH; [rewrite <- app_assoc; reflexivity|lia|..]; rewrite zlen_app; unfold zlen in *; cbn [length]; lia.
Qed.
Lemma memcpy32 m' m p s p' s' doff soff : length m = 32%nat -> length m' = 32%nat -> doff = zlen p -> soff = zlen p' ->
  memcpy 32 (p ++ m ++ s) doff (p' ++ m' ++ s') soff = (p ++ m' ++ s, Ok tt).
Proof. intros H H'. rewrite <- H'. apply memcpy_mid. lia. Qed.

Lemma concat_keys a : Forall key a -> length (concat a) = (32 * length a)%nat.
Proof. induction 1 as [|b a HB HA IH]; [reflexivity|]. cbn [concat length]. rewrite app_length, IH, HB. lia. Qed.
Lemma cut {A} (d : A) (a : list A) i : (i < length a)%nat -> a = firstn i a ++ nth i a d :: skipn (S i) a.
Proof. revert i. induction a as [|x a IH]; intros [|i] H; cbn [length] in H; try lia; [reflexivity|]. cbn [firstn nth skipn app]. f_equal. apply IH. lia. Qed.
Lemma key_nth a i : Forall key a -> (i < length a)%nat -> key (nth i a []).
Proof. intros F H. rewrite Forall_forall in F. apply F, nth_In, H. Qed.
Lemma keys_firstn n a : Forall key a -> Forall key (firstn n a).
Proof. intros F. rewrite <- (firstn_skipn n a) in F. apply Forall_app in F. tauto. Qed.
Lemma keys_skipn n a : Forall key a -> Forall key (skipn n a).
Proof. intros F. rewrite <- (firstn_skipn n a) in F. apply Forall_app in F. tauto. Qed.
Lemma zero_key_ok : key zero_key. Proof. reflexivity. Qed.
Lemma keys_zero n : Forall key (repeat zero_key n).
Proof. apply Forall_forall. intros x H. apply repeat_spec in H. subst. reflexivity. Qed.
Lemma concat_zero n : concat (repeat zero_key n) = repeat 0 (32 * n).
Proof. induction n as [|n IH]; [reflexivity|]. cbn [repeat concat]. rewrite IH. unfold zero_key. rewrite <- repeat_app. f_equal. lia. Qed.

(** What a vector holds *)
Definition grouped (cs : list (list Z)) (a : arr) : Prop :=
  exists gs, a = concat gs /\ cs = map (@concat Z) gs /\ Forall (fun g => length g = 32%nat) gs.
Definition holds (v : keyv) (a : arr) : Prop :=
  Forall key a /\ kv_size v = zlen a /\
  match kv_d v with Flat d => d = concat a | Chunked cs => 32 < zlen a /\ grouped cs a end.

Lemma groups_length gs : Forall (fun g : arr => length g = 32%nat) gs -> length (concat gs) = (32 * length gs)%nat.
Proof. induction 1 as [|g gs HG _ IH]; [reflexivity|]. cbn [concat length]. rewrite app_length, IH, HG. lia. Qed.
(** element [i] in chunks: chunk [i / 32], place [i mod 32] *)
Lemma chunk_cut gs i : Forall (fun g : arr => length g = 32%nat) gs -> (i < length (concat gs))%nat ->
  exists gp gq u x w, gs = gp ++ (u ++ x :: w) :: gq /\ length gp = (i / 32)%nat /\ length u = (i mod 32)%nat /\ length (u ++ x :: w) = 32%nat /\
    nth i (concat gs) [] = x /\ firstn i (concat gs) = concat gp ++ u /\ skipn (S i) (concat gs) = w ++ concat gq.
Proof.
  intros F H. rewrite (groups_length _ F) in H.
  assert (HI : (i = 32 * (i / 32) + i mod 32)%nat) by (apply Nat.div_mod; lia). assert (HM : (i mod 32 < 32)%nat) by (apply Nat.mod_upper_bound; lia).
  remember (i / 32)%nat as j. remember (i mod 32)%nat as k. assert (HJ : (j < length gs)%nat) by lia.
  pose proof (cut [] gs j HJ) as G. set (gp := firstn j gs) in *. set (g := nth j gs []) in *. set (gq := skipn (S j) gs) in *.
  assert (LG : length g = 32%nat) by (rewrite Forall_forall in F; apply F, nth_In, HJ).
  assert (LP : length gp = j) by (unfold gp; rewrite firstn_length; lia).
  assert (FP : Forall (fun g : arr => length g = 32%nat) gp) by (rewrite G in F; apply Forall_app in F; tauto).
  pose proof (cut [] g k ltac:(lia)) as C. set (u := firstn k g) in *. set (x := nth k g []) in *. set (w := skipn (S k) g) in *.
  assert (LU : length u = k) by (unfold u; rewrite firstn_length; lia).
  assert (LC : length (concat gp ++ u) = i) by (rewrite app_length, (groups_length _ FP); lia).
  assert (CC : concat gs = (concat gp ++ u) ++ x :: (w ++ concat gq)).
  { transitivity (concat (gp ++ (u ++ x :: w) :: gq)); [rewrite <- C; f_equal; exact G|]. rewrite concat_app. cbn [concat]. rewrite <- !app_assoc. reflexivity. }
  exists gp, gq, u, x, w. rewrite <- C. repeat split; [exact G|exact LP|exact LU|exact LG|..]; rewrite CC.
  - rewrite app_nth2 by lia. replace (i - _)%nat with 0%nat by lia. reflexivity.
  - rewrite <- LC at 1. rewrite firstn_app, Nat.sub_diag, firstn_all. cbn [firstn]. apply app_nil_r.
  - rewrite skipn_app, skipn_all2 by lia. rewrite LC. replace (S i - i)%nat with 1%nat by lia. reflexivity.
Qed.

Lemma idxize_in n i : - n <= i < n -> idxize n i = Ok (if i <? 0 then i + n else i).
Proof. intros H. unfold idxize. destruct (i <? 0) eqn:E; cbn [guard]; [replace (n + i >=? n) with false by lia|replace (i >=? n) with false by lia]; cbn [negb bind guard]; f_equal; lia. Qed.
Lemma idxize_out n i : 0 <= n -> n <= i -> idxize n i = Err IndexError.
Proof. intros H0 H. unfold idxize. replace (i <? 0) with false by lia. replace (i >=? n) with true by lia. reflexivity. Qed.
Lemma shr5 i : (0 <= i) -> Z.shiftr i 5 = Z.of_nat (Z.to_nat i / 32).
Proof. intros H. rewrite Z.shiftr_div_pow2 by lia. change (2 ^ 5) with 32. rewrite Nat2Z.inj_div, Z2Nat.id by lia. reflexivity. Qed.
Lemma low5 i : (0 <= i) -> Z.shiftl (Z.land i (CHSIZE - 1)) 5 = 32 * Z.of_nat (Z.to_nat i mod 32).
Proof.
  intros H. change (CHSIZE - 1) with (Z.ones 5). rewrite Z.land_ones by lia. rewrite Z.shiftl_mul_pow2 by lia. change (2 ^ 5) with 32.
  rewrite Nat2Z.inj_mod, Z2Nat.id by lia. change (Z.of_nat 32) with 32. lia.
Qed.
Lemma shl5 i : Z.shiftl i 5 = 32 * i.
Proof. rewrite Z.shiftl_mul_pow2 by lia. change (2 ^ 5) with 32. lia. Qed.

Definition pos_of (n i : Z) : Z := if i <? 0 then i + n else i.
Lemma at_in a i : - zlen a <= i < zlen a -> at_ a i = Ok (nth (Z.to_nat (pos_of (zlen a) i)) a []) /\ 0 <= pos_of (zlen a) i < zlen a.
Proof.
  intros H. unfold at_, pos_of. fold (zlen a). destruct (i <? 0) eqn:E.
  - replace (0 <=? i) with false by lia. cbn [andb]. replace ((- zlen a <=? i) && true) with true by lia. split; [reflexivity|lia].
  - replace ((0 <=? i) && (i <? zlen a)) with true by lia. split; [reflexivity|lia].
Qed.
Lemma at_out a i : zlen a <= i -> at_ a i = Err IndexError.
Proof. intros H. unfold at_. fold (zlen a). assert (0 <= zlen a) by (unfold zlen; lia). replace (i <? zlen a) with false by lia. replace (i <? 0) with false by lia. rewrite !andb_false_r. reflexivity. Qed.

Lemma to_at v a i : holds v a -> - zlen a <= i -> keyv_to v i = at_ a i.
Proof.
  intros (K & S & D) H. destruct (Z.lt_ge_cases i (zlen a)) as [Q|Q]; [|rewrite at_out by exact Q; unfold keyv_to; rewrite S, idxize_out; [reflexivity|unfold zlen; lia|exact Q]].
  destruct (at_in a i ltac:(lia)) as [-> R]. unfold keyv_to. rewrite S, (idxize_in (zlen a) i ltac:(lia)). cbn [bind]. fold (pos_of (zlen a) i). set (j := pos_of (zlen a) i) in *.
  assert (HJ : (Z.to_nat j < length a)%nat) by (unfold zlen in R; lia).
  assert (E32 : forall p b q soff, key b -> soff = zlen p -> (let '(r, e) := memcpy 32 (zeros 32) 0 (p ++ b ++ q) soff in let* _ := e in Ok r) = Ok b).
  { intros p b q soff HB HS. pose proof (memcpy32 b zero_key [] [] p q 0 soff eq_refl HB eq_refl HS) as M. cbn [app] in M. rewrite app_nil_r in M.
    change (zeros 32) with zero_key. rewrite M. cbn [bind]. rewrite app_nil_r. reflexivity. }
  destruct (kv_d v) as [d|cs].
  - subst d. pose proof (cut [] a (Z.to_nat j) HJ) as C. rewrite C at 1. rewrite concat_app. cbn [concat]. apply E32; [apply key_nth; assumption|].
    rewrite shl5. unfold zlen. rewrite (concat_keys _ (keys_firstn _ _ K)), firstn_length. lia.
  - destruct D as (_ & gs & -> & -> & F). destruct (chunk_cut gs (Z.to_nat j) F HJ) as (gp & gq & u & x & w & G & LP & LU & LG & N & _ & _).
    rewrite (shr5 j) by lia. rewrite <- LP. rewrite G, map_app. cbn [map]. rewrite (py_get_mid (map (@concat Z) gp)) by (unfold zlen; rewrite map_length; reflexivity). cbn [bind].
    rewrite concat_app. cbn [concat]. rewrite low5 by lia. rewrite <- LU. rewrite E32.
    + f_equal. rewrite <- G. symmetry. exact N.
    + rewrite <- N. apply key_nth; assumption.
    + unfold zlen. rewrite concat_keys; [lia|]. rewrite G, concat_app in K. apply Forall_app in K. destruct K as [_ K]. cbn [concat] in K. apply Forall_app in K. destruct K as [K _]. apply Forall_app in K. tauto.
Qed.
Lemma get_at v a i : holds v a -> - zlen a <= i -> keyv_get v i = at_ a i.
Proof.
  intros HV H. unfold keyv_get. destruct (kv_d v) as [d|cs] eqn:D; [|apply to_at; assumption]. destruct HV as (K & S & D'). rewrite D in D'. subst d.
  destruct (Z.lt_ge_cases i (zlen a)) as [Q|Q]; [|rewrite at_out by exact Q; rewrite S, idxize_out; [reflexivity|unfold zlen; lia|exact Q]].
  destruct (at_in a i ltac:(lia)) as [-> R]. rewrite S, (idxize_in (zlen a) i ltac:(lia)). cbn [bind]. fold (pos_of (zlen a) i). set (j := pos_of (zlen a) i) in *. f_equal.
  assert (HJ : (Z.to_nat j < length a)%nat) by (unfold zlen in R; lia). pose proof (key_nth a _ K HJ) as KN.
  rewrite (cut [] a (Z.to_nat j) HJ) at 1. rewrite concat_app. cbn [concat].
  assert (LF : zlen (concat (firstn (Z.to_nat j) a)) = 32 * j) by (unfold zlen; rewrite (concat_keys _ (keys_firstn _ _ K)), firstn_length; lia).
  apply py_slice_app; [lia|]. unfold zlen at 2. rewrite KN. lia.
Qed.

Lemma put_in a i b : - zlen a <= i < zlen a -> put a i b = (firstn (Z.to_nat (pos_of (zlen a) i)) a ++ [b] ++ skipn (S (Z.to_nat (pos_of (zlen a) i))) a, Ok []).
Proof. intros H. unfold put, pos_of. fold (zlen a). replace ((- zlen a <=? i) && (i <? zlen a)) with true by lia. reflexivity. Qed.
Lemma put_out a i b : zlen a <= i -> put a i b = (a, Err IndexError).
Proof. intros H. unfold put. fold (zlen a). replace (i <? zlen a) with false by lia. rewrite andb_false_r. reflexivity. Qed.
Lemma put_length a j (b : list Z) : (j < length a)%nat -> length (firstn j a ++ [b] ++ skipn (S j) a) = length a.
Proof. intros H. rewrite !app_length, firstn_length, skipn_length. cbn [length]. lia. Qed.
Lemma put_keys a j b : Forall key a -> key b -> Forall key (firstn j a ++ [b] ++ skipn (S j) a).
Proof. intros K B. apply Forall_app. split; [apply keys_firstn, K|]. constructor; [exact B|apply keys_skipn, K]. Qed.

(** a step of the code and of the array: same answer, and the vector holds the new array *)
Definition agree (x : keyv * res (list Z)) (y : arr * res (list Z)) : Prop := snd x = snd y /\ holds (fst x) (fst y).

Lemma read_put v a i b : holds v a -> - zlen a <= i -> key b -> agree (unit_op (keyv_read v i b 0)) (put a i b).
Proof.
  intros HV H KB. pose proof HV as (K & SZ & D). unfold agree, unit_op, keyv_read. rewrite SZ.
  destruct (Z.lt_ge_cases i (zlen a)) as [Q|Q]; [|rewrite put_out by exact Q; rewrite idxize_out; [split; [reflexivity|exact HV]|unfold zlen; lia|exact Q]].
  rewrite (idxize_in (zlen a) i ltac:(lia)). fold (pos_of (zlen a) i). rewrite (put_in a i b) by lia. destruct (at_in a i ltac:(lia)) as [_ R].
  set (j := pos_of (zlen a) i) in *. assert (HJ : (Z.to_nat j < length a)%nat) by (unfold zlen in R; lia).
  pose proof (put_keys a (Z.to_nat j) b K KB) as KP. pose proof (put_length a (Z.to_nat j) b HJ) as LP.
  assert (E32 : forall p c q doff, key c -> doff = zlen p -> memcpy 32 (p ++ c ++ q) doff b 0 = (p ++ b ++ q, Ok tt)).
  { intros p c q doff HC HD. pose proof (memcpy32 b c p q [] [] doff 0 HC KB HD eq_refl) as M. cbn [app] in M. rewrite app_nil_r in M. exact M. }
  destruct (kv_d v) as [d|cs].
  - subst d. assert (LF : zlen (concat (firstn (Z.to_nat j) a)) = 32 * j) by (unfold zlen; rewrite (concat_keys _ (keys_firstn _ _ K)), firstn_length; lia).
    assert (M : memcpy 32 (concat a) (Z.shiftl j 5) b 0 = (concat (firstn (Z.to_nat j) a) ++ b ++ concat (skipn (S (Z.to_nat j)) a), Ok tt)).
    { transitivity (memcpy 32 (concat (firstn (Z.to_nat j) a) ++ nth (Z.to_nat j) a [] ++ concat (skipn (S (Z.to_nat j)) a)) (Z.shiftl j 5) b 0).
      - f_equal. rewrite (cut [] a (Z.to_nat j) HJ) at 1. rewrite concat_app. reflexivity.
      - apply E32; [apply key_nth; assumption|rewrite shl5; lia]. }
    rewrite M. cbn [fst snd bind].
    split; [reflexivity|]. split; [exact KP|]. unfold with_d. cbn [kv_size kv_d]. split; [unfold zlen in *; lia|]. rewrite concat_app. cbn [app concat]. reflexivity.
  - destruct D as (BIG & gs & A & C & F). subst a cs. destruct (chunk_cut gs (Z.to_nat j) F HJ) as (gp & gq & u & x & w & G & LG & LU & L32 & N & FN & SK).
    assert (KX : key x) by (rewrite <- N; apply key_nth; assumption).
    assert (KU : Forall key u) by (rewrite G, concat_app in K; apply Forall_app in K; destruct K as [_ K]; cbn [concat] in K; apply Forall_app in K; destruct K as [K _]; apply Forall_app in K; tauto).
    assert (MG : map (@concat Z) gs = map (@concat Z) gp ++ (concat u ++ x ++ concat w) :: map (@concat Z) gq) by (rewrite G, map_app; cbn [map]; rewrite (concat_app u); reflexivity).
    rewrite (shr5 j), low5 by lia. rewrite <- LG, <- LU, MG. rewrite (py_get_mid (map (@concat Z) gp)) by (unfold zlen; rewrite map_length; reflexivity).
    rewrite (E32 (concat u)); [|exact KX|unfold zlen; rewrite (concat_keys _ KU); lia].
    rewrite (py_set_mid (map (@concat Z) gp)) by (unfold zlen; rewrite map_length; reflexivity). cbn [fst snd bind].
    split; [reflexivity|]. split; [exact KP|]. unfold with_d. cbn [kv_size kv_d]. split; [unfold zlen in *; lia|]. split; [unfold zlen in *; lia|].
    exists (gp ++ (u ++ b :: w) :: gq). split; [|split].
    + rewrite FN, SK, concat_app. cbn [concat app]. rewrite <- !app_assoc. reflexivity.
    + rewrite map_app. cbn [map]. rewrite concat_app. cbn [concat]. reflexivity.
    + rewrite G in F. apply Forall_app in F. destruct F as [F1 F2]. apply Forall_app. split; [exact F1|]. constructor; [|exact (Forall_inv_tail F2)]. rewrite app_length in *. cbn [length] in *. lia.
Qed.
Lemma set_put v a i b : holds v a -> - zlen a <= i -> key b -> agree (unit_op (keyv_set v i b)) (put a i b).
Proof.
  intros HV H KB. unfold keyv_set. destruct (kv_d v) as [d|cs] eqn:D; [|apply read_put; assumption].
  pose proof HV as (K & SZ & D'). rewrite D in D'. subst d. unfold agree, unit_op. rewrite SZ.
  destruct (Z.lt_ge_cases i (zlen a)) as [Q|Q]; [|rewrite put_out by exact Q; rewrite idxize_out; [split; [reflexivity|exact HV]|unfold zlen; lia|exact Q]].
  rewrite (idxize_in (zlen a) i ltac:(lia)). fold (pos_of (zlen a) i). rewrite (put_in a i b) by lia. destruct (at_in a i ltac:(lia)) as [_ R].
  set (j := pos_of (zlen a) i) in *. assert (HJ : (Z.to_nat j < length a)%nat) by (unfold zlen in R; lia). pose proof (key_nth a _ K HJ) as KN.
  assert (LF : zlen (concat (firstn (Z.to_nat j) a)) = 32 * j) by (unfold zlen; rewrite (concat_keys _ (keys_firstn _ _ K)), firstn_length; lia).
  assert (CC : concat a = concat (firstn (Z.to_nat j) a) ++ nth (Z.to_nat j) a [] ++ concat (skipn (S (Z.to_nat j)) a)).
  { rewrite (cut [] a (Z.to_nat j) HJ) at 1. rewrite concat_app. reflexivity. }
  assert (SL : py_slice (concat a) (j * 32) ((j + 1) * 32) = nth (Z.to_nat j) a []).
  { rewrite CC. apply py_slice_app; [lia|]. unfold zlen at 2. rewrite KN. lia. }
  pose proof (memcpy32 b (nth (Z.to_nat j) a []) [] [] [] [] 0 0 KN KB eq_refl eq_refl) as M. cbn [app] in M. rewrite !app_nil_r in M.
  rewrite SL, M. cbn [fst snd bind]. split; [reflexivity|]. split; [apply put_keys; assumption|]. unfold with_d. cbn [kv_size kv_d].
  split; [unfold zlen; rewrite put_length by exact HJ; exact SZ|]. rewrite concat_app. cbn [app concat]. f_equal.
  - rewrite CC. apply py_upto_app. lia.
  - f_equal. rewrite CC, app_assoc. apply py_from_app. rewrite zlen_app, LF. unfold zlen. rewrite KN, KB. lia.
Qed.

Lemma new_holds n : 0 <= n -> holds (keyv_new n) (repeat zero_key (Z.to_nat n)).
Proof.
  intros H. unfold holds, keyv_new, set_d. cbn [kv_size kv_d]. split; [apply keys_zero|]. split; [unfold zlen; rewrite repeat_length; lia|].
  destruct ((n >? CHSIZE) && (n mod CHSIZE =? 0)) eqn:E.
  - unfold CHSIZE in *. split; [unfold zlen; rewrite repeat_length; lia|]. exists (repeat (repeat zero_key 32) (Z.to_nat (n / 32))). split; [|split].
    + assert (G : forall k m, concat (repeat (repeat zero_key m) k) = repeat zero_key (k * m)).
      { intros k m. induction k as [|k IH]; [reflexivity|]. cbn [repeat concat Nat.mul]. rewrite IH, repeat_app. reflexivity. }
      rewrite G. f_equal. lia.
    + assert (MR : forall (x : arr) k, map (@concat Z) (repeat x k) = repeat (concat x) k) by (intros x k; induction k as [|k IH]; [reflexivity|]; cbn [repeat map]; rewrite IH; reflexivity).
      rewrite MR, concat_zero. reflexivity.
    + apply Forall_forall. intros x HX. apply repeat_spec in HX. subst x. apply repeat_length.
  - unfold zeros. rewrite concat_zero. f_equal. lia.
Qed.

Lemma concat_firstn a n : Forall key a -> (n <= length a)%nat -> firstn (32 * n) (concat a) = concat (firstn n a).
Proof.
  intros K H. rewrite <- (firstn_skipn n a) at 1. rewrite concat_app. replace (32 * n)%nat with (length (concat (firstn n a))); [|rewrite (concat_keys _ (keys_firstn _ _ K)), firstn_length; lia].
  rewrite firstn_app, Nat.sub_diag, firstn_all. cbn [firstn]. apply app_nil_r.
Qed.
Lemma upto_firstn a m : Forall key a -> 0 <= m <= zlen a -> py_upto (concat a) (Z.shiftl m 5) = concat (firstn (Z.to_nat m) a).
Proof.
  intros K H. rewrite shl5. rewrite <- concat_firstn by (auto; unfold zlen in H; lia). rewrite <- (firstn_skipn (32 * Z.to_nat m) (concat a)) at 1. apply py_upto_app.
  unfold zlen. rewrite firstn_length, (concat_keys _ K). unfold zlen in H. lia.
Qed.
Lemma resize_shrinks v a m r : holds v a -> 0 <= m <= zlen a -> (m <= 32 \/ m mod 32 = 0) ->
  agree (unit_op (keyv_resize v m false r)) (firstn (Z.to_nat m) a, Ok []).
Proof.
  intros HV HM H32. pose proof HV as (K & S & D). unfold agree, unit_op, keyv_resize. rewrite S. cbv zeta.
  assert (LF : zlen (firstn (Z.to_nat m) a) = m) by (unfold zlen in *; rewrite firstn_length; lia). pose proof (keys_firstn (Z.to_nat m) a K) as KF.
  destruct (zlen a =? m) eqn:E.
  { cbn [fst snd bind]. split; [reflexivity|]. rewrite firstn_all2 by (unfold zlen in E; lia). exact HV. }
  replace ((zlen a >? m) && r || (zlen a >? m) && negb false) with true by (destruct r; lia).
  destruct (kv_d v) as [d|cs].
  - subst d. cbn [fst snd bind]. split; [reflexivity|]. split; [exact KF|]. cbn [kv_size kv_d]. split; [lia|]. apply upto_firstn; assumption.
  - destruct D as (BIG & gs & A & C & F). subst cs. unfold CHSIZE. destruct (m <=? 32) eqn:E32.
    + destruct gs as [|g gs]; [subst a; cbn in BIG; lia|]. cbn [map fst snd bind]. split; [reflexivity|]. split; [exact KF|]. cbn [kv_size kv_d]. split; [lia|].
      inversion F as [|? ? LG F']; subst. cbn [concat] in *. apply Forall_app in K. destruct K as [KG _].
      rewrite upto_firstn; [|exact KG|unfold zlen; lia]. rewrite firstn_app. replace (Z.to_nat m - length g)%nat with 0%nat by lia. cbn [firstn]. rewrite app_nil_r. reflexivity.
    + replace (zlen a <? m) with false by lia. replace (negb (m mod 32 =? 0)) with false by lia. cbn [fst snd bind]. split; [reflexivity|]. split; [exact KF|]. cbn [kv_size kv_d]. split; [lia|].
      split; [lia|]. assert (LA : zlen a = 32 * zlen gs) by (subst a; unfold zlen; pose proof (groups_length _ F) as GL; unfold arr in *; rewrite GL; lia).
      exists (firstn (Z.to_nat (m / 32)) gs). split; [|split].
      * assert (G : forall k gs, Forall (fun g : arr => length g = 32%nat) gs -> firstn (32 * k) (concat gs) = concat (firstn k gs)).
        { induction k as [|k IH]; intros hs FH; [reflexivity|]. destruct hs as [|h hs]; [apply firstn_nil|]. inversion FH as [|? ? LH FH']; subst. cbn [concat firstn]. rewrite <- IH by exact FH'.
          rewrite firstn_app. rewrite firstn_all2 by lia. f_equal. f_equal. lia. }
        rewrite <- G by exact F. subst a. f_equal. lia.
      * unfold pops. rewrite map_length, <- firstn_map. f_equal. unfold zlen in *. lia.
      * apply Forall_forall. intros x HX. rewrite Forall_forall in F. apply F. rewrite <- (firstn_skipn (Z.to_nat (m / 32)) gs). apply in_or_app. left. exact HX.
Qed.

Lemma window_length a s e : 0 <= s <= e -> e <= zlen a -> zlen (window a s e) = e - s.
Proof. intros H1 H2. unfold window, zlen in *. rewrite firstn_length, skipn_length. lia. Qed.
Lemma window_nth a s e k : 0 <= s <= e -> e <= zlen a -> 0 <= k < e - s -> nth (Z.to_nat k) (window a s e) [] = nth (Z.to_nat (s + k)) a [].
Proof.
  intros H1 H2 H3. unfold window. assert (N : forall (n i : nat) (c : arr), (i < n)%nat -> nth i (firstn n c) [] = nth i c []).
  { induction n as [|n IH]; intros [|i] [|x c] HI; try lia; try reflexivity. cbn [firstn nth]. apply IH. lia. }
  rewrite N by lia. assert (M : forall (n i : nat) (c : arr), nth i (skipn n c) [] = nth (n + i) c []).
  { induction n as [|n IH]; intros i [|x c]; try reflexivity; [destruct i; reflexivity|]. cbn [skipn Nat.add nth]. apply IH. }
  rewrite M. f_equal. lia.
Qed.
Lemma view_at v a s e i : holds v a -> 0 <= s <= e -> e <= zlen a -> - (e - s) <= i ->
  sliced_to v s e i = at_ (window a s e) i /\ sliced_get v s e i = at_ (window a s e) i.
Proof.
  intros HV H1 H2 H3. pose proof (window_length a s e H1 H2) as LW. unfold sliced_to, sliced_get.
  destruct (Z.lt_ge_cases i (e - s)) as [Q|Q].
  - rewrite (idxize_in (e - s) i ltac:(lia)). cbn [bind]. destruct (at_in (window a s e) i ltac:(lia)) as [-> R]. rewrite LW in *. unfold pos_of in *.
    set (k := if i <? 0 then i + (e - s) else i) in *. rewrite (to_at v a), (get_at v a) by (auto; lia).
    destruct (at_in a (s + k) ltac:(lia)) as [-> R']. unfold pos_of. replace (s + k <? 0) with false by lia. rewrite window_nth by lia. split; reflexivity.
  - rewrite idxize_out by lia. rewrite at_out by lia. split; reflexivity.
Qed.

Lemma step_agree v a o : holds v a -> used_well (zlen a) o -> agree (keyv_step v o) (arr_step a o).
Proof.
  intros HV U. destruct o as [i|i|i b|i b|m r|m|s e i|s e i|s e i b]; cbn [keyv_step arr_step used_well] in *.
  - split; [apply get_at; assumption|exact HV].
  - split; [apply to_at; assumption|exact HV].
  - apply set_put; tauto.
  - apply read_put; tauto.
  - apply resize_shrinks; tauto.
  - split; [reflexivity|]. apply new_holds. exact U.
  - destruct U as (U1 & U2 & U3). split; [|exact HV]. apply (view_at v a s e i); assumption.
  - destruct U as (U1 & U2 & U3). split; [|exact HV]. apply (view_at v a s e i); assumption.
  - destruct U as (U1 & U2 & U3 & KB). pose proof (window_length a s e U1 U2) as LW. unfold sliced_read.
    destruct (Z.lt_ge_cases i (e - s)) as [Q|Q].
    + rewrite (idxize_in (e - s) i ltac:(lia)). destruct (at_in (window a s e) i ltac:(lia)) as [-> R]. apply read_put; [exact HV| |exact KB]. destruct (i <? 0) eqn:NI; lia.
    + rewrite idxize_out by lia. rewrite at_out by lia. split; [reflexivity|exact HV].
Qed.
Lemma run_agree : forall ops v a, holds v a -> all_used_well a ops -> keyv_run v ops = arr_run a ops.
Proof.
  induction ops as [|o ops IH]; intros v a HV W; [reflexivity|]. destruct W as [U W]. cbn [keyv_run arr_run]. destruct (step_agree v a o HV U) as [E H].
  destruct (keyv_step v o) as [v' r], (arr_step a o) as [a' r']. cbn [fst snd] in *. subst r'. f_equal. apply IH; assumption.
Qed.
Lemma after_holds : forall ops v a, holds v a -> all_used_well a ops -> holds (keyv_after v ops) (fold_left (fun a o => fst (arr_step a o)) ops a).
Proof.
  induction ops as [|o ops IH]; intros v a HV W; [exact HV|]. destruct W as [U W]. cbn [keyv_after fold_left]. destruct (step_agree v a o HV U) as [_ H]. exact (IH _ _ H W).
Qed.
