From Verif Require Import Py PyLemmas Digits B58Mnr_model B58Mnr_spec B58Mnr_proof Mnemonic_words Mnemonic_model Mnemonic_spec.

Lemma foldM_zrange {S} (f : S -> Z -> res S) (acc : nat -> S) N :
  (forall k, (k < N)%nat -> f (acc k) (Z.of_nat k) = Ok (acc (Datatypes.S k))) ->
  foldM f (zrange (Z.of_nat N)) (acc O) = Ok (acc N).
Proof.
  induction N as [|N IH]; intros H; [reflexivity|].
  replace (Z.of_nat (Datatypes.S N)) with (Z.of_nat N + 1) by lia.
  rewrite zrange_S, foldM_app by lia. rewrite IH by (intros; apply H; lia).
  cbn [bind foldM]. rewrite H by lia. reflexivity.
Qed.
Lemma fold_zrange {S} (f : S -> Z -> S) (acc : nat -> S) N :
  (forall k, (k < N)%nat -> f (acc k) (Z.of_nat k) = acc (Datatypes.S k)) ->
  fold_left f (zrange (Z.of_nat N)) (acc O) = acc N.
Proof.
  induction N as [|N IH]; intros H; [reflexivity|].
  replace (Z.of_nat (Datatypes.S N)) with (Z.of_nat N + 1) by lia.
  rewrite zrange_S, fold_left_app by lia. rewrite IH by (intros; apply H; lia).
  cbn [fold_left]. rewrite H by lia. reflexivity.
Qed.

Lemma py_slice_0 {A} (l r : list A) b : b = zlen l -> py_slice (l ++ r) 0 b = l.
Proof. intros. apply (py_slice_app [] l r); [reflexivity|]. change (zlen (@nil A)) with 0. lia. Qed.

Lemma py_from_past {A} (l : list A) a : zlen l <= a -> py_from l a = [].
Proof.
  intros H. pose proof (zlen_nonneg l). unfold py_from, py_clamp. destruct (a <? 0) eqn:E; [lia|]. rewrite E.
  destruct (zlen l <? a) eqn:E'; apply skipn_all2; unfold zlen in *; lia.
Qed.

Lemma hexlify_app a b : hexlify (a ++ b) = hexlify a ++ hexlify b.
Proof. apply flat_map_app. Qed.
Lemma hexlify_zlen a : zlen (hexlify a) = 2 * zlen a.
Proof. unfold hexlify. induction a as [|x a IH]; [reflexivity|]. cbn [flat_map]. rewrite zlen_app, IH, !zlen_cons. change (zlen (@nil Z)) with 0. lia. Qed.
Lemma hexlify_rev_swap b0 b1 b2 b3 : mn_swap_endian_4byte (hexlify [b0; b1; b2; b3]) = hexlify [b3; b2; b1; b0].
Proof. reflexivity. Qed.

Lemma len4 {A} (g : list A) : length g = 4%nat -> exists a b c d, g = [a; b; c; d].
Proof. destruct g as [|a [|b [|c [|d [|e g]]]]]; cbn; try discriminate. eauto 10. Qed.
Lemma len3 {A} (g : list A) : length g = 3%nat -> exists a b c, g = [a; b; c].
Proof. destruct g as [|a [|b [|c [|d g]]]]; cbn; try discriminate. eauto 10. Qed.

Definition all_len {A} (k : nat) (gs : list (list A)) := Forall (fun g => length g = k) gs.
Lemma all_len_concat {A} k (gs : list (list A)) : all_len k gs -> length (concat gs) = (k * length gs)%nat.
Proof. induction 1 as [|g gs Hg _ IH]; cbn [concat length]; [lia|]. rewrite app_length, Hg, IH. lia. Qed.
Lemma all_len_rev {A} k (gs : list (list A)) : all_len k gs -> all_len k (map (@rev A) gs).
Proof. unfold all_len. rewrite Forall_map. apply Forall_impl. intros g. now rewrite rev_length. Qed.
Lemma In_firstn {A} (x : A) j l : In x (firstn j l) -> In x l.
Proof. revert j. induction l as [|a l IH]; intros [|j]; cbn [firstn In]; try tauto. intros [->|H]; [tauto|right; eauto]. Qed.
Lemma all_len_firstn {A} k j (gs : list (list A)) : all_len k gs -> all_len k (firstn j gs).
Proof. unfold all_len. rewrite !Forall_forall. intros H x Hx. apply H. eapply In_firstn, Hx. Qed.

Lemma all_len_In {A} k (gs : list (list A)) g : all_len k gs -> In g gs -> length g = k.
Proof. unfold all_len. rewrite Forall_forall. auto. Qed.

Lemma skipn_nth {A} (l : list A) k x : nth_error l k = Some x -> skipn k l = x :: skipn (S k) l.
Proof.
  revert k. induction l as [|a l IH]; intros [|k]; cbn [nth_error skipn]; try discriminate.
  - intros E. injection E as ->. reflexivity.
  - intros E. rewrite (IH k E). reflexivity.
Qed.

Lemma group_split {A} (gs : list A) k : (k < length gs)%nat -> exists g,
  nth_error gs k = Some g /\ firstn (S k) gs = firstn k gs ++ [g] /\ skipn k gs = g :: skipn (S k) gs.
Proof.
  intros Hk. destruct (nth_error gs k) as [g|] eqn:E; [|apply nth_error_None in E; lia].
  exists g. split; [reflexivity|]. split; [now apply firstn_S_nth|now apply skipn_nth].
Qed.

Definition small_tail (t : list Z) : Prop := (length t < 4)%nat.

Lemma swap_all gs t : all_len 4 gs -> small_tail t ->
  exists t', zlen t' < 8 /\ mn_swap_all (hexlify (concat gs ++ t)) = hexlify (concat (map (@rev Z) gs)) ++ t' /\ (t = [] -> t' = []).
Proof.
  intros Hg Ht. unfold mn_swap_all, range8.
  set (f := fun message i => _).
  set (acc := fun k => hexlify (concat (map (@rev Z) (firstn k gs)) ++ concat (skipn k gs) ++ t)).
  assert (Hlen : forall k, (k <= length gs)%nat -> zlen (concat (map (@rev Z) (firstn k gs))) = 4 * Z.of_nat k).
  { intros k Hk. unfold zlen. rewrite (all_len_concat 4) by (apply all_len_rev, all_len_firstn, Hg).
    rewrite map_length, firstn_length. lia. }
  assert (Hloop : fold_left (fun m i => f m (8 * i)) (zrange (Z.of_nat (length gs))) (acc O) = acc (length gs)).
  { apply (fold_zrange (fun m i => f m (8 * i))). intros k Hk. destruct (group_split gs k Hk) as (g & E1 & E2 & E3).
    unfold acc, f. rewrite E2, E3. cbn [concat]. rewrite map_app, concat_app. cbn [map concat]. rewrite app_nil_r, <- !app_assoc.
    rewrite !hexlify_app.
    specialize (Hlen k ltac:(lia)). set (P := concat (map (@rev Z) (firstn k gs))) in *. set (Q := concat (skipn (S k) gs)).
    assert (HP : zlen (hexlify P) = 8 * Z.of_nat k) by (rewrite hexlify_zlen; lia).
    assert (Hg4 : length g = 4%nat) by (eapply all_len_In; [exact Hg|eapply nth_error_In; exact E1]).
    rewrite (py_slice_0 (hexlify P) _ (8 * Z.of_nat k)) by lia.
    rewrite (py_slice_app (hexlify P) (hexlify g)) by (rewrite ?hexlify_zlen in *; unfold zlen in *; lia).
    rewrite (app_assoc (hexlify P) (hexlify g)). rewrite (py_from_app (hexlify P ++ hexlify g)) by (rewrite zlen_app, HP, (hexlify_zlen g); unfold zlen; lia).
    destruct (len4 g Hg4) as (b0 & b1 & b2 & b3 & ->). rewrite hexlify_rev_swap. reflexivity. }
  assert (E0 : hexlify (concat gs ++ t) = acc O) by reflexivity.
  assert (Hc : zlen (concat gs) = 4 * Z.of_nat (length gs)).
  { unfold zlen. rewrite (all_len_concat 4) by exact Hg. lia. }
  assert (EN : acc (length gs) = hexlify (concat (map (@rev Z) gs)) ++ hexlify t).
  { unfold acc. rewrite firstn_all, skipn_all. cbn [concat app]. apply hexlify_app. }
  rewrite hexlify_zlen, zlen_app, Hc.
  assert (FM : forall l m, fold_left f (map (fun i => 8 * i) l) m = fold_left (fun m i => f m (8 * i)) l m).
  { induction l as [|a l IH]; intros m; cbn; [reflexivity|apply IH]. }
  rewrite FM.
  destruct t as [|t0 t1].
  - exists []. split; [reflexivity|]. split; [|reflexivity].
    replace ((2 * (4 * Z.of_nat (length gs) + zlen []) + 7) / 8) with (Z.of_nat (length gs)) by (change (zlen []) with 0; lia).
    rewrite E0, Hloop, EN. reflexivity.
  - unfold small_tail in Ht.
    assert (Hz : 0 < zlen (t0 :: t1) < 4) by (unfold zlen; cbn [length] in *; lia).
    replace ((2 * (4 * Z.of_nat (length gs) + zlen (t0 :: t1)) + 7) / 8) with (Z.of_nat (length gs) + 1) by lia.
    rewrite zrange_S, fold_left_app by lia. rewrite E0, Hloop, EN. cbn [fold_left].
    exists (mn_swap_endian_4byte (hexlify (t0 :: t1))).
    assert (HP : zlen (hexlify (concat (map (@rev Z) gs))) = 8 * Z.of_nat (length gs)).
    { rewrite hexlify_zlen. pose proof (Hlen (length gs) ltac:(lia)) as HH. rewrite firstn_all in HH. lia. }
    set (P := hexlify (concat (map (@rev Z) gs))) in *.
    split; [|split; [|discriminate]].
    + destruct t1 as [|t2 [|t3 [|? ?]]]; try (vm_compute; reflexivity). cbn in Ht. lia.
    + unfold f.
      rewrite (py_slice_0 P _ (8 * Z.of_nat (length gs))) by lia.
      rewrite (py_slice_end_over P (hexlify (t0 :: t1))) by (try lia; rewrite hexlify_zlen; lia).
      f_equal. rewrite <- (app_nil_r (mn_swap_endian_4byte _)) at 2. f_equal.
      apply py_from_past. rewrite zlen_app, HP, hexlify_zlen. lia.
Qed.

(** hex and numbers *)
Lemma int16_app a b : int16 (a ++ b) = (let* x := int16 a in foldM (fun a c => let* d := hex_digit c in Ok (a * 16 + d)) b x).
Proof. unfold int16. apply foldM_app. Qed.
Lemma int16_hexlify bs : bytes_ok bs -> int16 (hexlify bs) = Ok (be_val 256 bs).
Proof.
  intros H. induction bs as [|b bs IH] using rev_ind; [reflexivity|].
  apply bytes_ok_app in H. destruct H as [H Hb]. inversion Hb as [|? ? Hb' _]; subst. unfold byte_ok in Hb'.
  rewrite hexlify_app, int16_app, IH by exact H. cbn [bind hexlify flat_map app foldM].
  rewrite !hex_digit_char by lia. cbn [bind].
  rewrite be_val_snoc. f_equal. lia.
Qed.

Lemma fmt08x_group a b c d : byte_ok a -> byte_ok b -> byte_ok c -> byte_ok d ->
  fmt08x (be_val 256 [a; b; c; d]) = hexlify [a; b; c; d].
Proof.
  unfold byte_ok. intros. set (x := be_val 256 [a; b; c; d]).
  assert (Ex : x = a * 16777216 + b * 65536 + c * 256 + d) by (unfold x, be_val; cbn [fold_left]; lia).
  assert (Hx : 0 <= x < 2 ^ 32) by (change (2 ^ 32) with 4294967296; lia).
  unfold fmt08x. assert (Z.log2 x < 32).
  { destruct (Z.eq_dec x 0) as [->|]; [reflexivity|]. apply Z.log2_lt_pow2; lia. }
  rewrite Z.max_l by (pose proof (Z.log2_nonneg x); lia).
  change (zrange 8) with [0; 1; 2; 3; 4; 5; 6; 7]. cbn [map hexlify flat_map app].
  repeat match goal with |- context [16 ^ ?e] => let v := eval vm_compute in (16 ^ e) in change (16 ^ e) with v end.
  clearbody x. subst x. rewrite Z.div_1_r. repeat (f_equal; [f_equal; lia|]). do 2 f_equal. lia.
Qed.

(** dictionary lookups *)
Section Dict.
  Variable words : list (list Z).
  Hypothesis Hnd : NoDup words.

  Lemma windex_from_inv l w k i : windex_from l w k = Ok i -> k <= i /\ nth_error l (Z.to_nat (i - k)) = Some w.
  Proof.
    revert k. induction l as [|h l IH]; intros k; cbn [windex_from]; [discriminate|].
    destruct (zlist_eqb h w) eqn:E.
    - intros H. injection H as ->. apply zlist_eqb_spec in E. subst. rewrite Z.sub_diag. split; [lia|reflexivity].
    - intros H. apply IH in H. destruct H as [H1 H2]. split; [lia|].
      replace (Z.to_nat (i - k)) with (S (Z.to_nat (i - (k + 1)))) by lia. exact H2.
  Qed.
  Lemma windex_inv w i : windex words w = Ok i -> 0 <= i < zlen words /\ nth_error words (Z.to_nat i) = Some w.
  Proof.
    intros H. apply windex_from_inv in H. rewrite Z.sub_0_r in H. destruct H as [H1 H2]. split; [|exact H2].
    assert (nth_error words (Z.to_nat i) <> None) by congruence. apply nth_error_Some in H. unfold zlen. lia.
  Qed.
  Lemma windex_from_nth l w n k : NoDup l -> nth_error l n = Some w -> windex_from l w k = Ok (k + Z.of_nat n).
  Proof.
    revert n k. induction l as [|h l IH]; intros [|n] k Hl E; cbn [nth_error windex_from] in *; try discriminate.
    - injection E as ->. rewrite zlist_eqb_refl. f_equal. lia.
    - inversion Hl as [|? ? Hn Hl']; subst. destruct (zlist_eqb h w) eqn:E2.
      + apply zlist_eqb_spec in E2. subst. exfalso. apply Hn. eapply nth_error_In, E.
      + rewrite (IH n (k + 1) Hl' E). f_equal. lia.
  Qed.
  Definition W (i : Z) : list Z := nth (Z.to_nat i) words [].
  Lemma windex_W i : 0 <= i < zlen words -> windex words (W i) = Ok i.
  Proof.
    intros Hi. unfold windex. rewrite (windex_from_nth words _ (Z.to_nat i)); [f_equal; lia|exact Hnd|].
    unfold W. apply nth_error_nth'. unfold zlen in Hi. lia.
  Qed.
  Lemma word_at_W i : 0 <= i < zlen words -> word_at words i = Ok (W i).
  Proof.
    intros Hi. unfold word_at. apply py_get_nonneg; [lia|].
    unfold W. apply nth_error_nth'. unfold zlen in Hi. lia.
  Qed.

  Hypothesis Hn : 0 < zlen words.
  Notation n := (zlen words).
  Lemma triple_eq g : triple words g = map W [le_val 256 g mod n; (le_val 256 g / n + le_val 256 g mod n) mod n;
     (le_val 256 g / n / n + (le_val 256 g / n + le_val 256 g mod n) mod n) mod n].
  Proof.
    unfold triple, W. set (x := le_val 256 g). replace (n ^ 2) with (n * n) by ring. rewrite <- Z.div_div by lia.
    replace ((x mod n + x / n mod n) mod n) with ((x / n + x mod n) mod n).
    2:{ generalize (x mod n) (x / n). intros a q. rewrite Z.add_mod_idemp_r by lia. f_equal. ring. }
    replace ((x mod n + x / n mod n + x / n / n) mod n) with ((x / n / n + (x / n + x mod n) mod n) mod n); [reflexivity|].
    generalize (x mod n) (x / n). intros a q. set (r := q / n).
    rewrite Z.add_mod_idemp_r by lia.
    replace (a + q mod n + r) with (a + r + q mod n) by ring.
    rewrite Z.add_mod_idemp_r by lia. f_equal. ring.
  Qed.

  Lemma words_of gs t' : all_len 4 gs -> bytes_ok (concat gs) -> zlen t' < 8 ->
    mn_words_of words (hexlify (concat (map (@rev Z) gs)) ++ t') = Ok (flat_map (triple words) gs).
  Proof.
    intros Hg HB Ht. unfold mn_words_of.
    set (f := fun out i => _).
    assert (Hlen : forall k, (k <= length gs)%nat -> zlen (hexlify (concat (map (@rev Z) (firstn k gs)))) = 8 * Z.of_nat k).
    { intros k Hk. rewrite hexlify_zlen. unfold zlen. rewrite (all_len_concat 4) by (apply all_len_rev, all_len_firstn, Hg).
      rewrite map_length, firstn_length. lia. }
    replace (zlen _ / 8) with (Z.of_nat (length gs)).
    2:{ rewrite zlen_app. pose proof (Hlen (length gs) ltac:(lia)) as H. rewrite firstn_all in H. rewrite H.
        pose proof (zlen_nonneg t'). lia. }
    replace gs with (firstn (length gs) gs) at 2 by apply firstn_all.
    apply (foldM_zrange f (fun k => flat_map (triple words) (firstn k gs))).
    intros k Hk. destruct (group_split gs k Hk) as (g & E1 & E2 & E3). rewrite E2, flat_map_app. unfold f.
    specialize (Hlen k ltac:(lia)).
    assert (Hg4 : length g = 4%nat) by (eapply all_len_In; [exact Hg|eapply nth_error_In; exact E1]).
    assert (ES : py_slice (hexlify (concat (map (@rev Z) gs)) ++ t') (8 * Z.of_nat k) (8 * Z.of_nat k + 8) = hexlify (rev g)).
    { replace (map (@rev Z) gs) with (map (@rev Z) (firstn k gs) ++ rev g :: map (@rev Z) (skipn (S k) gs)).
      2:{ rewrite <- (firstn_skipn k gs) at 3. rewrite E3, map_app. reflexivity. }
      rewrite concat_app, hexlify_app. cbn [concat]. rewrite hexlify_app, <- !app_assoc.
      apply py_slice_app; [lia|]. rewrite (hexlify_zlen (rev g)). unfold zlen at 2. rewrite rev_length, Hg4. lia. }
    rewrite ES.
    rewrite int16_hexlify.
    2:{ apply Forall_rev. rewrite <- (firstn_skipn k gs), E3, concat_app in HB. apply bytes_ok_app in HB. destruct HB as [_ HB].
        cbn [concat] in HB. apply bytes_ok_app in HB. tauto. }
    cbn [bind]. rewrite <- le_val_rev. set (x := le_val 256 g).
    rewrite !word_at_W by (apply Z.mod_pos_bound; lia). cbn [bind flat_map]. rewrite app_nil_r, triple_eq. reflexivity.
  Qed.

  (** decoding *)
  Definition tval (w1 w2 w3 : Z) : Z := w1 + n * ((n + w2 - w1) mod n) + n * n * ((n + w3 - w2) mod n).
  Definition means (t : list (list Z)) (x : Z) : Prop :=
    exists a b c w1 w2 w3, t = [a; b; c] /\ windex words a = Ok w1 /\ windex words b = Ok w2 /\ windex words c = Ok w3 /\ x = tval w1 w2 w3.

  Hypothesis Hn3 : n mod 3 <> 1.

  Lemma means_len t x : means t x -> length t = 3%nat.
  Proof. intros (a & b & c & ? & ? & ? & -> & _). reflexivity. Qed.

  Lemma decode_groups ts xs tl : Forall2 means ts xs -> (length tl < 3)%nat ->
    mn_decode words (concat ts ++ tl) = Ok (flat_map (fun x => mn_swap_endian_4byte (fmt08x x)) xs).
  Proof.
    intros HF Ht. unfold mn_decode. replace (n mod 3 =? 1) with false by lia. cbn [bind].
    set (f := fun out i => _).
    assert (HL : all_len 3 ts) by (unfold all_len; induction HF; constructor; eauto using means_len).
    assert (Hxl : length ts = length xs) by (clear -HF; induction HF; cbn [length]; congruence).
    replace (zlen _ / 3) with (Z.of_nat (length ts)).
    2:{ unfold zlen. rewrite app_length, (all_len_concat 3) by exact HL. lia. }
    change (@nil Z) with ((fun k => flat_map (fun x => mn_swap_endian_4byte (fmt08x x)) (firstn k xs)) O) at 1.
    rewrite (foldM_zrange f (fun k => flat_map (fun x => mn_swap_endian_4byte (fmt08x x)) (firstn k xs))).
    { rewrite Hxl, firstn_all. reflexivity. }
    intros k Hk. destruct (group_split ts k Hk) as (t & E1 & E2 & E3).
    destruct (group_split xs k ltac:(lia)) as (x & F1 & F2 & F3). rewrite F2, flat_map_app. unfold f.
    assert (Hm : means t x).
    { clear -HF E1 F1. revert k E1 F1. induction HF; intros [|k]; cbn [nth_error]; intros E1 F1; try congruence. eauto. }
    assert (Ht3 := means_len t x Hm).
    assert (ES : py_slice (concat ts ++ tl) (3 * Z.of_nat k) (3 * Z.of_nat k + 3) = t).
    { replace (concat ts) with (concat (firstn k ts) ++ t ++ concat (skipn (S k) ts)).
      2:{ rewrite <- (firstn_skipn k ts) at 3. rewrite E3, concat_app. reflexivity. }
      rewrite <- !app_assoc.
      assert (zlen (concat (firstn k ts)) = 3 * Z.of_nat k).
      { unfold zlen. rewrite (all_len_concat 3) by (apply all_len_firstn, HL). rewrite firstn_length. lia. }
      apply py_slice_app; [lia|]. unfold zlen at 2. lia. }
    rewrite ES. destruct Hm as (a & b & c & w1 & w2 & w3 & -> & -> & -> & -> & ->). cbn [bind flat_map].
    rewrite app_nil_r. reflexivity.
  Qed.

  Lemma triple_means g : le_val 256 g < n ^ 3 -> 0 <= le_val 256 g -> means (triple words g) (le_val 256 g).
  Proof.
    intros Hlt H0. rewrite triple_eq. set (x := le_val 256 g) in *. cbn [map].
    assert (Hq : 0 <= x / n) by (apply Z.div_pos; lia).
    assert (Hd3 : 0 <= x / n / n < n).
    { split; [apply Z.div_pos; lia|]. rewrite Z.div_div by lia. apply Z.div_lt_upper_bound; [nia|].
      replace (n * n * n) with (n ^ 3) by ring. exact Hlt. }
    exists (W (x mod n)), (W ((x / n + x mod n) mod n)), (W ((x / n / n + (x / n + x mod n) mod n) mod n)),
      (x mod n), ((x / n + x mod n) mod n), ((x / n / n + (x / n + x mod n) mod n) mod n).
    split; [reflexivity|]. rewrite !windex_W by (apply Z.mod_pos_bound; lia). do 3 (split; [reflexivity|]).
    unfold tval.
    assert (Hsub : forall q d, (n + (q + d) mod n - d) mod n = q mod n).
    { intros q d. replace (n + (q + d) mod n - d) with ((q + d) mod n + (n - d)) by ring.
      rewrite Z.add_mod_idemp_l by lia. replace (q + d + (n - d)) with (q + 1 * n) by ring. apply Z_mod_plus_full. }
    rewrite !Hsub. rewrite (Z.mod_small (x / n / n)) by lia.
    pose proof (Z_div_mod_eq_full x n). pose proof (Z_div_mod_eq_full (x / n) n).
    set (a := x mod n) in *. set (b := (x / n) mod n) in *. set (q := x / n / n) in *.
    rewrite H at 1. rewrite H1 at 1. ring.
  Qed.

  Lemma swap_fmt g : length g = 4%nat -> bytes_ok g -> mn_swap_endian_4byte (fmt08x (le_val 256 g)) = hexlify g.
  Proof.
    intros Hg HB. destruct (len4 g Hg) as (a & b & c & d & ->).
    apply bytes_ok_cons in HB. destruct HB as [Ha HB]. apply bytes_ok_cons in HB. destruct HB as [Hb HB].
    apply bytes_ok_cons in HB. destruct HB as [Hc HB]. apply bytes_ok_cons in HB. destruct HB as [Hd _].
    rewrite le_val_rev. cbn [rev app]. rewrite fmt08x_group by assumption. reflexivity.
  Qed.

  Hypothesis Hbig : 2 ^ 32 <= n ^ 3.

  Lemma group_range g : length g = 4%nat -> bytes_ok g -> 0 <= le_val 256 g < 2 ^ 32.
  Proof.
    intros Hg HB. assert (H : 0 <= le_val 256 g < 256 ^ zlen g) by (apply le_val_range; [lia|now apply digits_ok_256]).
    unfold zlen in H. rewrite Hg in H. exact H.
  Qed.

  (** main lemmas *)
  Lemma bytes_split m : exists gs t, m = concat gs ++ t /\ all_len 4 gs /\ small_tail t.
  Proof.
    destruct (blocks_decomp 4 m) as (gs & t & H); [lia|]. exists gs, t. exact H.
  Qed.

  Lemma encode_plain m : bytes_ok m -> exists gs t, m = concat gs ++ t /\ all_len 4 gs /\ small_tail t /\
    mn_encode words m false = Ok (flat_map (triple words) gs).
  Proof.
    intros HB. destruct (bytes_split m) as (gs & t & -> & Hg & Ht). exists gs, t. repeat split; auto.
    unfold mn_encode. destruct (swap_all gs t Hg Ht) as (t' & Hl & -> & _).
    apply bytes_ok_app in HB. rewrite words_of by tauto. reflexivity.
  Qed.

  Lemma decode_triples gs tl : all_len 4 gs -> bytes_ok (concat gs) -> (length tl < 3)%nat ->
    mn_decode words (flat_map (triple words) gs ++ tl) = Ok (hexlify (concat gs)).
  Proof.
    intros Hg HB Ht. rewrite flat_map_concat_map. rewrite (decode_groups _ (map (le_val 256) gs)); auto.
    - f_equal. clear -Hg HB. induction gs as [|g gs IH]; [reflexivity|]. inversion Hg; subst.
      cbn [concat] in HB. apply bytes_ok_app in HB. cbn [map flat_map concat]. rewrite hexlify_app, IH, swap_fmt by tauto. reflexivity.
    - clear -Hg HB Hn Hnd Hbig Hn3. induction gs as [|g gs IH]; [constructor|]. inversion Hg; subst.
      cbn [concat] in HB. apply bytes_ok_app in HB. cbn [map]. constructor; [|apply IH; tauto].
      pose proof (group_range g ltac:(assumption) ltac:(tauto)). apply triple_means; lia.
  Qed.

  Lemma checksum_ok ws : ws <> [] -> exists i w, checksum_create ws = Ok i /\ 0 <= i < zlen ws /\ py_get ws i = Ok w /\ In w ws.
  Proof.
    intros Hw. unfold checksum_create. destruct (zlen ws =? 0) eqn:E.
    { destruct ws; [congruence|]. rewrite zlen_cons in E. pose proof (zlen_nonneg ws). lia. }
    pose proof (zlen_nonneg ws). set (i := crc32 _ mod _). assert (Hi : 0 <= i < zlen ws) by (apply Z.mod_pos_bound; lia).
    destruct (nth_error ws (Z.to_nat i)) as [w|] eqn:En.
    2:{ apply nth_error_None in En. unfold zlen in Hi. lia. }
    exists i, w. repeat split; try lia. { now apply py_get_nonneg. } eapply nth_error_In, En.
  Qed.

  Lemma concat_div4 gs (t : list Z) : all_len 4 gs -> small_tail t -> zlen (concat gs ++ t) mod 4 = 0 -> t = [].
  Proof.
    intros Hg Ht H. unfold zlen in H. rewrite app_length, (all_len_concat 4 gs Hg) in H. unfold small_tail in Ht.
    destruct t; [reflexivity|]. cbn [length] in *. lia.
  Qed.

  Lemma flat_triple_len gs : length (flat_map (triple words) gs) = (3 * length gs)%nat.
  Proof. induction gs as [|g gs IH]; [reflexivity|]. cbn [flat_map length]. rewrite app_length, IH. cbn [triple map length]. lia. Qed.

  Lemma round_trip m : bytes_ok m -> zlen m mod 4 = 0 ->
    exists ws, mn_encode words m false = Ok ws /\ ws = spec_words words m /\ zlen ws = 3 * (zlen m / 4) /\ mn_decode words ws = Ok (hexlify m).
  Proof.
    intros HB Hm. destruct (encode_plain m HB) as (gs & t & -> & Hg & Ht & E).
    pose proof (concat_div4 gs t Hg Ht Hm) as ->. rewrite app_nil_r in *. exists (flat_map (triple words) gs).
    split; [exact E|]. split; [|split].
    - unfold spec_words. rewrite <- (app_nil_r (concat gs)). rewrite chunks_concat by (auto; cbn; lia). rewrite app_nil_r. reflexivity.
    - unfold zlen. rewrite flat_triple_len, (all_len_concat 4 gs Hg). lia.
    - rewrite <- (app_nil_r (flat_map _ gs)). apply decode_triples; auto; cbn; lia.
  Qed.

  Lemma round_trip_checksum m : bytes_ok m -> zlen m mod 4 = 0 -> m <> [] ->
    exists ws w, mn_encode words m true = Ok (ws ++ [w]) /\ mn_encode words m false = Ok ws /\ In w ws /\
      mn_decode words (ws ++ [w]) = Ok (hexlify m).
  Proof.
    intros HB Hm Hne. destruct (encode_plain m HB) as (gs & t & -> & Hg & Ht & E).
    pose proof (concat_div4 gs t Hg Ht Hm) as ->. rewrite app_nil_r in *.
    assert (Hws : flat_map (triple words) gs <> []).
    { destruct gs; [cbn in Hne; congruence|]. discriminate. }
    destruct (checksum_ok _ Hws) as (i & w & E1 & Hi & E2 & Hin).
    exists (flat_map (triple words) gs), w. split; [|split; [exact E|split; [exact Hin|]]].
    - unfold mn_encode in *. destruct (mn_words_of _ _) as [out|]; cbn [bind] in *; [|discriminate].
      injection E as ->. rewrite E1. cbn [bind]. rewrite E2. reflexivity.
    - apply decode_triples; auto; cbn; lia.
  Qed.

  (** the last one or two words beyond a multiple of three are never looked at *)
  Lemma decode_ignores ws tl : zlen ws mod 3 = 0 -> (length tl < 3)%nat ->
    mn_decode words (ws ++ tl) = mn_decode words ws.
  Proof.
    intros Hw Ht. unfold mn_decode. replace (n mod 3 =? 1) with false by lia. cbn [bind].
    replace (zlen (ws ++ tl) / 3) with (zlen ws / 3).
    2:{ rewrite zlen_app. unfold zlen in *. lia. }
    pose proof (zlen_nonneg ws) as H0.
    assert (G : forall (S : Type) (f g : S -> Z -> res S) l s, (forall s i, In i l -> f s i = g s i) -> foldM f l s = foldM g l s).
    { clear. intros S f g l. induction l as [|i l IH]; intros s H; cbn [foldM]; [reflexivity|].
      rewrite H by now left. destruct (g s i); cbn [bind]; [|reflexivity]. apply IH. intros; apply H; now right. }
    apply G. intros s i Hi. apply In_zrange in Hi.
    replace (py_slice (ws ++ tl) (3 * i) (3 * i + 3)) with (py_slice ws (3 * i) (3 * i + 3)); [reflexivity|].
    assert (Hi3 : 3 * i + 3 <= zlen ws) by lia.
    rewrite !py_slice_nonneg by (rewrite ?zlen_app; pose proof (zlen_nonneg tl); lia).
    rewrite skipn_app. replace (Z.to_nat (3 * i) - length ws)%nat with O by (unfold zlen in *; lia). cbn [skipn].
    rewrite firstn_app. rewrite skipn_length.
    replace (Z.to_nat (3 * i + 3 - 3 * i) - (length ws - Z.to_nat (3 * i)))%nat with O by (unfold zlen in *; lia).
    cbn [firstn]. now rewrite app_nil_r.
  Qed.

  (** canonical part: if every triple stands for a number below 2^32 *)
  Lemma windex_range w i : windex words w = Ok i -> W i = w.
  Proof. intros H. apply windex_inv in H. destruct H as [_ H]. unfold W. now apply nth_error_nth. Qed.

  Lemma means_triple t x : means t x -> x < 2 ^ 32 -> exists g, length g = 4%nat /\ bytes_ok g /\ le_val 256 g = x /\ triple words g = t.
  Proof.
    intros (a & b & c & w1 & w2 & w3 & -> & Ea & Eb & Ec & ->) Hx.
    pose proof (windex_range _ _ Ea) as Wa. pose proof (windex_range _ _ Eb) as Wb. pose proof (windex_range _ _ Ec) as Wc.
    apply windex_inv in Ea, Eb, Ec. destruct Ea as [Ha _]. destruct Eb as [Hb _]. destruct Ec as [Hc _].
    set (d2 := (n + w2 - w1) mod n). set (d3 := (n + w3 - w2) mod n).
    assert (Hd2 : 0 <= d2 < n) by (apply Z.mod_pos_bound; lia).
    assert (Hd3 : 0 <= d3 < n) by (apply Z.mod_pos_bound; lia).
    set (x := tval w1 w2 w3) in *. assert (Ex : x = w1 + n * (d2 + n * d3)) by (unfold x, tval; fold d2 d3; ring).
    assert (0 <= x) by nia.
    exists (le_digits 256 4 x). split; [apply le_digits_length|]. split; [apply digits_ok_256, le_digits_ok; lia|].
    assert (Ev : le_val 256 (le_digits 256 4 x) = x).
    { rewrite le_val_digits by lia. apply Z.mod_small. change (256 ^ Z.of_nat 4) with (2 ^ 32). lia. }
    split; [exact Ev|]. rewrite triple_eq, Ev.
    assert (E1 : x mod n = w1).
    { rewrite Ex, (Z.mul_comm n), Z_mod_plus_full. apply Z.mod_small; lia. }
    assert (E2 : x / n = d2 + n * d3).
    { rewrite Ex, (Z.mul_comm n), Z_div_plus_full, Z.div_small by lia. ring. }
    assert (E3 : x / n / n = d3).
    { rewrite E2, (Z.mul_comm n), Z_div_plus_full, Z.div_small by lia. ring. }
    rewrite E1, E3, E2.
    assert (F2 : (d2 + n * d3 + w1) mod n = w2).
    { replace (d2 + n * d3 + w1) with (w1 + d2 + d3 * n) by ring. rewrite Z_mod_plus_full. unfold d2.
      rewrite Z.add_mod_idemp_r by lia. replace (w1 + (n + w2 - w1)) with (w2 + 1 * n) by ring. rewrite Z_mod_plus_full. apply Z.mod_small; lia. }
    rewrite F2.
    assert (F3 : (d3 + w2) mod n = w3).
    { unfold d3. rewrite Z.add_mod_idemp_l by lia. replace (n + w3 - w2 + w2) with (w3 + 1 * n) by ring. rewrite Z_mod_plus_full. apply Z.mod_small; lia. }
    rewrite F3. cbn [map]. now rewrite Wa, Wb, Wc.
  Qed.

  Lemma decode_canonical ts xs : Forall2 means ts xs -> Forall (fun x => x < 2 ^ 32) xs ->
    exists m, bytes_ok m /\ mn_decode words (concat ts) = Ok (hexlify m) /\ mn_encode words m false = Ok (concat ts).
  Proof.
    intros HF Hx.
    assert (G : exists gs, all_len 4 gs /\ bytes_ok (concat gs) /\ flat_map (triple words) gs = concat ts).
    { induction HF as [|t x ts xs Hm HF IH]; [exists []; repeat constructor|].
      inversion Hx; subst. destruct IH as (gs & I1 & I2 & I3); auto.
      destruct (means_triple t x Hm) as (g & G1 & G2 & G3 & G4); auto.
      exists (g :: gs). split; [constructor; auto|]. split.
      - cbn [concat]. apply bytes_ok_app. tauto.
      - cbn [flat_map concat]. now rewrite I3, G4. }
    destruct G as (gs & Hg & HB & E). exists (concat gs). split; [exact HB|]. rewrite <- E. split.
    - rewrite <- (app_nil_r (flat_map _ gs)). apply decode_triples; auto; cbn; lia.
    - unfold mn_encode. destruct (swap_all gs [] Hg ltac:(unfold small_tail; cbn; lia)) as (t' & Hl & ES & Ht').
      rewrite app_nil_r in ES. rewrite ES, words_of by auto. reflexivity.
  Qed.
End Dict.

(** the real dictionary *)
Fixpoint lex_lt (a b : list Z) : bool :=
  match a, b with
  | _, [] => false
  | [], _ :: _ => true
  | x :: a, y :: b => (x <? y) || ((x =? y) && lex_lt a b)
  end.
Fixpoint sorted_lt (l : list (list Z)) : bool :=
  match l with
  | a :: (b :: _) as t => lex_lt a b && sorted_lt t
  | _ => true
  end.
Lemma lex_lt_trans a : forall b c, lex_lt a b = true -> lex_lt b c = true -> lex_lt a c = true.
Proof.
  induction a as [|x a IH]; intros [|y b] [|z c]; cbn [lex_lt]; intros H1 H2; try discriminate; try reflexivity.
  apply orb_true_iff in H1, H2. apply orb_true_iff.
  destruct H1 as [H1|H1]; destruct H2 as [H2|H2]; rewrite ?andb_true_iff in *.
  - left; lia.
  - left; lia.
  - left; lia.
  - right. destruct H1, H2. split; [lia|eauto].
Qed.
Lemma lex_lt_irrefl a : lex_lt a a = false.
Proof. induction a as [|x a IH]; cbn [lex_lt]; [reflexivity|]. rewrite IH. lia. Qed.
Lemma sorted_lt_all a l : sorted_lt (a :: l) = true -> Forall (fun b => lex_lt a b = true) l.
Proof.
  revert a. induction l as [|b l IH]; intros a H; [constructor|].
  cbn [sorted_lt] in H. apply andb_true_iff in H. destruct H as [H1 H2]. constructor; [exact H1|].
  apply IH in H2. revert H2. apply Forall_impl. intros c. now apply lex_lt_trans.
Qed.
Lemma sorted_lt_nodup l : sorted_lt l = true -> NoDup l.
Proof.
  induction l as [|a l IH]; intros H; [constructor|]. constructor.
  - intros Hin. apply sorted_lt_all in H. rewrite Forall_forall in H. specialize (H a Hin). rewrite lex_lt_irrefl in H. discriminate.
  - apply IH. destruct l; [reflexivity|]. cbn [sorted_lt] in H. apply andb_true_iff in H. tauto.
Qed.

Lemma words_nodup : NoDup words.
Proof. apply sorted_lt_nodup. vm_compute. reflexivity. Qed.
Lemma words_prefix_nodup : NoDup (map trim words).
Proof. apply sorted_lt_nodup. vm_compute. reflexivity. Qed.
Lemma words_count : zlen words = 1626.
Proof. vm_compute. reflexivity. Qed.
Lemma words_pos : 0 < zlen words.
Proof. rewrite words_count. lia. Qed.
Lemma words_mod3 : zlen words mod 3 <> 1.
Proof. rewrite words_count. vm_compute. discriminate. Qed.
Lemma words_big : 2 ^ 32 <= zlen words ^ 3.
Proof. rewrite words_count. vm_compute. discriminate. Qed.

Lemma real_round_trip m : bytes_ok m -> zlen m mod 4 = 0 ->
    exists ws, mn_encode words m false = Ok ws /\ ws = spec_words words m /\ zlen ws = 3 * (zlen m / 4) /\ mn_decode words ws = Ok (hexlify m).
Proof. apply round_trip; [exact words_nodup|exact words_pos|exact words_mod3|exact words_big]. Qed.
Lemma real_round_trip_checksum m : bytes_ok m -> zlen m mod 4 = 0 -> m <> [] ->
    exists ws w, mn_encode words m true = Ok (ws ++ [w]) /\ mn_encode words m false = Ok ws /\ In w ws /\
      mn_decode words (ws ++ [w]) = Ok (hexlify m).
Proof. apply round_trip_checksum; [exact words_nodup|exact words_pos|exact words_mod3|exact words_big]. Qed.
Lemma real_ignores ws w : zlen ws mod 3 = 0 -> mn_decode words (ws ++ [w]) = mn_decode words ws.
Proof. intros H. apply decode_ignores; [exact words_pos|exact words_mod3|exact H|cbn; lia]. Qed.

Lemma real_canonical ts xs : Forall2 (means words) ts xs -> Forall (fun x => x < 2 ^ 32) xs ->
    exists m, bytes_ok m /\ mn_decode words (concat ts) = Ok (hexlify m) /\ mn_encode words m false = Ok (concat ts).
Proof. apply decode_canonical; [exact words_nodup|exact words_pos|exact words_mod3|exact words_big]. Qed.

Lemma nth_error_W i : 0 <= i < zlen words -> windex words (nth (Z.to_nat i) words []) = Ok i.
Proof. apply (windex_W words words_nodup). Qed.

Lemma real_canonical' (ixs : list (Z * Z * Z)) :
  Forall (fun '(a, b, c) => 0 <= a < 1626 /\ 0 <= b < 1626 /\ 0 <= c < 1626 /\ triple_value 1626 a b c < 2 ^ 32) ixs ->
  let ws := flat_map (fun '(a, b, c) => map (fun i => nth (Z.to_nat i) words []) [a; b; c]) ixs in
  exists m, bytes_ok m /\ mn_decode words ws = Ok (hexlify m) /\ mn_encode words m false = Ok ws.
Proof.
  intros HF. cbv zeta. rewrite flat_map_concat_map.
  apply (real_canonical _ (map (fun '(a, b, c) => tval words a b c) ixs)).
  - induction HF as [|[[a b] c] ixs (Ha & Hb & Hc & Hv) HF IH]; cbn [map]; constructor; [|exact IH].
    do 6 eexists. split; [reflexivity|]. rewrite !nth_error_W by (rewrite words_count; lia). repeat split.
  - induction HF as [|[[a b] c] ixs (Ha & Hb & Hc & Hv) HF IH]; cbn [map]; constructor; [|exact IH].
    unfold tval, triple_value in *. rewrite words_count.
    replace (1626 + b - a) with (b - a + 1 * 1626) by ring. replace (1626 + c - b) with (c - b + 1 * 1626) by ring.
    rewrite !Z_mod_plus_full. exact Hv.
Qed.

Lemma pop_snoc {A} (l : list A) x : pop (l ++ [x]) = Ok (x, l).
Proof. unfold pop. rewrite rev_app_distr. cbn [rev app]. now rewrite rev_involutive. Qed.

Lemma real_checksum_created m ws : bytes_ok m -> zlen m mod 4 = 0 -> m <> [] ->
  mn_encode words m true = Ok ws -> exists ws', checksum_test ws = Ok (true, ws') /\ mn_encode words m false = Ok ws'.
Proof.
  intros HB Hm Hne E. unfold mn_encode in *. destruct (mn_words_of words _) as [out|]; cbn [bind] in *; [|discriminate].
  apply bind_ok_inv in E. destruct E as (i & E1 & E). apply bind_ok_inv in E. destruct E as (w & E2 & E).
  injection E as <-. exists out. split; [|reflexivity].
  unfold checksum_test. rewrite pop_snoc. cbn [bind]. rewrite E1. cbn [bind]. rewrite E2. cbn [bind].
  now rewrite zlist_eqb_refl.
Qed.

Lemma canonical_counterexample : exists ws s m,
  Forall (fun w => In w words) ws /\ mn_decode words ws = Ok s /\ bytes_ok m /\ s = hexlify m /\
  exists ws', mn_encode words m false = Ok ws' /\ mn_decode words ws' = Ok s /\ ws' <> ws.
Proof.
  assert (HW : forall i, (i < 1626)%nat -> In (nth i words []) words).
  { intros i Hi. apply nth_In. pose proof words_count as H. unfold zlen in H. lia. }
  exists [nth 1625 words []; nth 1624 words []; nth 1623 words []].
  exists (hexlify [122; 202; 3; 16]), [122; 202; 3; 16]. split; [apply Forall_cons; [apply HW; lia|]; apply Forall_cons; [apply HW; lia|]; apply Forall_cons; [apply HW; lia|]; apply Forall_nil|].
  split; [vm_compute; reflexivity|]. split; [apply bytes_okb_spec; reflexivity|]. split; [reflexivity|].
  eexists. split; [vm_compute; reflexivity|]. split; [vm_compute; reflexivity|]. vm_compute. discriminate.
Qed.
