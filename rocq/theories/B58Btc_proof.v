From Verif Require Import Py PyLemmas Digits B58Btc_model.
From Verif Require B58Mnr_model B58Mnr_spec B58Mnr_proof.
From Verif Require Import Addr_spec Addr_proof.
Notation symbol := B58Mnr_spec.symbol.

(** minimal big-endian digits *)
Definition minimal (B : Z) (ds : list Z) (v : Z) : Prop :=
  digits_ok B ds /\ be_val B ds = v /\ hd 1 ds <> 0.

Lemma minimal_unique B ds1 ds2 v : 1 < B -> minimal B ds1 v -> minimal B ds2 v -> ds1 = ds2.
Proof.
  intros HB (A1 & A2 & A3) (B1 & B2 & B3).
  assert (HL : forall a b, digits_ok B a -> digits_ok B b -> be_val B a = be_val B b -> hd 1 a <> 0 -> hd 1 b <> 0 ->
                      (length a <= length b)%nat).
  { clear. intros a b Ha Hb He Hna Hnb. destruct (Nat.le_gt_cases (length a) (length b)) as [|Hlt]; [assumption|exfalso].
    destruct a as [|x a]; [cbn in Hlt; lia|]. cbn [hd length] in *.
    apply digits_ok_cons in Ha as [Hx Ha]. rewrite be_val_cons in He.
    destruct (Z.le_gt_cases B 0) as [|HB0]; [lia|].
    pose proof (be_val_range B a ltac:(lia) Ha). pose proof (be_val_range B b ltac:(lia) Hb).
    assert (B ^ zlen b <= B ^ zlen a) by (apply Z.pow_le_mono_r; unfold zlen; lia). nia. }
  apply (be_val_inj B); auto; [lia| |congruence].
  apply Nat.le_antisymm; apply HL; auto; congruence.
Qed.

(** generic loop: prepend digits *)
Fixpoint dloop (B : Z) (fuel : nat) (i : Z) (acc : list Z) : option (list Z) :=
  if i =? 0 then Some acc
  else match fuel with
       | O => None
       | S fuel => dloop B fuel (i / B) (i mod B :: acc)
       end.

Lemma log2_div_lt v B : 2 <= B -> 0 < v -> v / B = 0 \/ Z.log2 (v / B) < Z.log2 v.
Proof.
  intros HB Hv. destruct (Z.lt_ge_cases v B) as [Hlt|Hge]; [left; apply Z.div_small; lia|right].
  assert (Z.log2 (v / B) <= Z.log2 (v / 2)).
  { apply Z.log2_le_mono. apply Z.div_le_compat_l; lia. }
  assert (Z.log2 v = Z.succ (Z.log2 (v / 2))); [|lia].
  pose proof (Z.log2_shiftr v 1 ltac:(lia)) as HH.
  rewrite Z.shiftr_div_pow2 in HH by lia. change (2 ^ 1) with 2 in HH. rewrite HH.
  assert (1 <= Z.log2 v) by (apply Z.log2_le_pow2; lia). lia.
Qed.

Lemma dloop_spec B : 2 <= B -> forall fuel i acc, 0 <= i -> (i = 0 \/ (Z.to_nat (Z.log2 i) < fuel)%nat) ->
  exists ds, dloop B fuel i acc = Some (ds ++ acc) /\ minimal B ds i /\ (i <> 0 -> ds <> []).
Proof.
  intros HB. induction fuel as [|fuel IH]; intros i acc Hi Hf; cbn [dloop].
  - assert (i = 0) as -> by lia. exists []. repeat split; [constructor|cbn; lia|congruence].
  - destruct (i =? 0) eqn:E.
    + assert (i = 0) as -> by lia. exists []. repeat split; [constructor|cbn; lia|congruence].
    + destruct (IH (i / B) (i mod B :: acc)) as (ds & H1 & (H2 & H3 & H4) & H5).
      * apply Z.div_pos; lia.
      * destruct (log2_div_lt i B HB ltac:(lia)) as [|]; [left; assumption|right].
        pose proof (Z.log2_nonneg (i / B)). lia.
      * exists (ds ++ [i mod B]). rewrite <- app_assoc. split; [exact H1|].
        assert (Hm : 0 <= i mod B < B) by (apply Z.mod_pos_bound; lia).
        split; [|intros _ H0; apply app_eq_nil in H0 as [_ H0]; discriminate].
        unfold minimal. split; [|split].
        -- apply digits_ok_app. split; [assumption|]. constructor; [assumption|constructor].
        -- rewrite be_val_snoc, H3. pose proof (Z.div_mod i B). lia.
        -- destruct ds as [|d ds]; [|exact H4]. cbn [app hd].
           assert (i / B = 0) by (destruct (Z.eq_dec (i / B) 0) as [|n]; [assumption|exfalso; now apply H5]).
           pose proof (Z.div_mod i B ltac:(lia)). lia.
Qed.

Lemma alphabet_slice idx : 0 <= idx < 58 -> py_slice alphabet idx (idx + 1) = [symbol idx].
Proof.
  intros H. pose proof (B58Mnr_proof.alphabet_nth idx H) as Hn.
  pose proof (nth_error_split _ _ Hn) as (l1 & l2 & E1 & E2).
  unfold alphabet. rewrite E1. change (symbol idx :: l2) with ([symbol idx] ++ l2).
  apply py_slice_app; unfold zlen; rewrite E2; cbn; lia.
Qed.

Lemma encode_int_loop_spec fuel : forall i acc,
  0 <= i -> encode_int_loop fuel i (map symbol acc) =
  match dloop 58 fuel i acc with Some l => Ok (map symbol l) | None => Err OutOfFuel end.
Proof.
  induction fuel as [|fuel IH]; intros i acc Hi; cbn [encode_int_loop dloop]; destruct (i =? 0) eqn:E; auto.
  rewrite alphabet_slice by (apply Z.mod_pos_bound; lia). cbn [app].
  change (symbol (i mod 58) :: map symbol acc) with (map symbol (i mod 58 :: acc)).
  apply IH. apply Z.div_pos; lia.
Qed.

Lemma decode_bytes_loop_spec fuel : forall i acc,
  0 <= i -> decode_bytes_loop fuel i (rev acc) =
  match dloop 256 fuel i acc with Some l => Ok (rev l) | None => Err OutOfFuel end.
Proof.
  induction fuel as [|fuel IH]; intros i acc Hi; cbn [decode_bytes_loop dloop].
  - destruct (i >? 0) eqn:E1, (i =? 0) eqn:E2; try lia; reflexivity.
  - destruct (i >? 0) eqn:E1, (i =? 0) eqn:E2; try lia; [|reflexivity].
    change (rev acc ++ [i mod 256]) with (rev (i mod 256 :: acc)). apply IH. apply Z.div_pos; lia.
Qed.

Lemma lstrip_decomp c v : exists n t, v = repeat c n ++ t /\ lstrip c v = t /\ (t = [] \/ hd c t <> c).
Proof.
  induction v as [|x v IH]; cbn [lstrip].
  - exists 0%nat, []. auto.
  - destruct (x =? c) eqn:E.
    + destruct IH as (n & t & -> & H1 & H2). exists (S n), t. cbn. apply Z.eqb_eq in E as ->. auto.
    + exists 0%nat, (x :: v). split; [reflexivity|]. split; [reflexivity|]. right. cbn. lia.
Qed.
Lemma lstrip_app c n t : (t = [] \/ hd c t <> c) -> lstrip c (repeat c n ++ t) = t.
Proof.
  intros H. induction n as [|n IH]; cbn [repeat app lstrip].
  - destruct t as [|x t]; [reflexivity|]. cbn [lstrip]. destruct H as [H|H]; [discriminate|]. cbn in H.
    destruct (x =? c) eqn:E; [lia|reflexivity].
  - rewrite Z.eqb_refl. exact IH.
Qed.

Lemma acc_fold v : forall p acc,
  fold_left (fun '(p, acc) c => (Z.shiftl p 8, acc + p * c)) v (p, acc)
  = (p * 256 ^ zlen v, acc + p * le_val 256 v).
Proof.
  induction v as [|c v IH]; intros p acc; cbn [fold_left le_val].
  - change (zlen (@nil Z)) with 0. change (256 ^ 0) with 1. f_equal; lia.
  - rewrite IH. rewrite Z.shiftl_mul_pow2 by lia. change (2 ^ 8) with 256.
    rewrite zlen_cons, Z.pow_add_r, Z.pow_1_r by (pose proof (zlen_nonneg v); lia). f_equal; lia.
Qed.

Lemma symbol0_nz d : 0 <= d < 58 -> symbol d = symbol 0 -> d = 0.
Proof.
  intros H E. pose proof (B58Mnr_proof.alphabet_index d H) as H1. rewrite E in H1.
  rewrite B58Mnr_proof.alphabet_index in H1 by lia. injection H1. auto.
Qed.

Lemma b58encode_spec bs : bytes_ok bs ->
  exists n t ds, bs = repeat 0 n ++ t /\ minimal 256 t (be_val 256 t) /\ minimal 58 ds (be_val 256 t) /\
    b58encode bs = Ok (map symbol (repeat 0 n ++ ds)).
Proof.
  intros HB. destruct (lstrip_decomp 0 bs) as (n & t & E & Hs & Ht).
  assert (HBt : bytes_ok t) by (rewrite E in HB; apply bytes_ok_app in HB; tauto).
  pose proof (be_val_range 256 t ltac:(lia) HBt) as Hr.
  destruct (dloop_spec 58 ltac:(lia) (S (Z.to_nat (Z.log2 (be_val 256 t)))) (be_val 256 t) [] ltac:(lia)) as (ds & D1 & D2 & _).
  { right. lia. }
  exists n, t, ds. split; [exact E|]. split; [|split; [exact D2|]].
  { split; [exact HBt|]. split; [reflexivity|]. destruct Ht as [->|Ht]; [cbn; lia|]. destruct t; cbn in *; lia. }
  unfold b58encode. rewrite Hs. rewrite acc_fold.
  replace (0 + 1 * le_val 256 (rev t)) with (be_val 256 t) by (rewrite be_val_rev; lia).
  unfold b58encode_int. rewrite andb_false_r.
  rewrite (encode_int_loop_spec _ _ []) by lia. rewrite D1, app_nil_r. cbn [bind].
  f_equal. rewrite map_app. f_equal.
  rewrite E, zlen_app. replace (Z.to_nat (zlen (repeat 0 n) + zlen t - zlen t)) with n
    by (unfold zlen; rewrite repeat_length; lia).
  change (py_slice alphabet 0 1) with [symbol 0]. clear.
  induction n as [|n IH]; cbn [repeat concat app map]; [reflexivity|]. now rewrite IH.
Qed.

Lemma b58decode_int_spec ds : digits_ok 58 ds -> b58decode_int (map symbol ds) = Ok (be_val 58 ds).
Proof.
  intros H. unfold b58decode_int, be_val. generalize 0.
  induction H as [|d ds Hd H IH]; intros a; cbn [map foldM fold_left]; [reflexivity|].
  unfold alphabet. rewrite B58Mnr_proof.alphabet_index by assumption. cbn [bind]. apply IH.
Qed.

Lemma b58decode_spec n ds t : minimal 58 ds (be_val 58 ds) -> minimal 256 t (be_val 58 ds) ->
  b58decode (map symbol (repeat 0 n ++ ds)) = Ok (repeat 0 n ++ t).
Proof.
  intros (A1 & A2 & A3) HT. unfold b58decode. change (py_get alphabet 0) with (Ok (symbol 0)). cbn [bind].
  rewrite map_app, map_repeat'.
  rewrite lstrip_app.
  2:{ destruct ds as [|d ds]; [left; reflexivity|right]. cbn in *. intros E.
      apply digits_ok_cons in A1 as [Hd _]. apply symbol0_nz in E; auto. }
  rewrite b58decode_int_spec by assumption. cbn [bind].
  pose proof (be_val_range 58 ds ltac:(lia) A1).
  rewrite (decode_bytes_loop_spec _ _ []) by lia.
  destruct (dloop_spec 256 ltac:(lia) (S (Z.to_nat (Z.log2 (be_val 58 ds)))) (be_val 58 ds) [] ltac:(lia)) as (t' & D1 & D2 & _).
  { right. lia. }
  rewrite D1, app_nil_r. cbn [bind]. rewrite rev_involutive.
  rewrite (minimal_unique 256 t' t _ ltac:(lia) D2 HT). f_equal. f_equal.
  rewrite zlen_app. f_equal. unfold zlen. rewrite repeat_length, map_length. lia.
Qed.

Theorem btc_round_trip bs : bytes_ok bs -> exists s, b58encode bs = Ok s /\ b58decode s = Ok bs.
Proof.
  intros HB. destruct (b58encode_spec bs HB) as (n & t & ds & E & Ht & Hds & He).
  eexists. split; [exact He|]. rewrite E. apply b58decode_spec.
  - destruct Hds as (D1 & D2 & D3). repeat split; auto.
  - destruct Hds as (D1 & D2 & D3). rewrite D2. exact Ht.
Qed.

Theorem btc_check_round_trip sha bs : hash_like sha -> bytes_ok bs ->
  exists s, b58encode_check sha bs = Ok s /\ b58decode_check sha s = Ok bs.
Proof.
  intros Hsha HB. unfold b58encode_check. destruct (Hsha (sha bs)) as [Hh Hl].
  destruct (first4 _ Hl) as (_ & E & H4). rewrite E.
  destruct (btc_round_trip (bs ++ firstn 4 (sha (sha bs)))) as (s & H1 & H2).
  { apply bytes_ok_app. split; [assumption|now apply bytes_ok_firstn]. }
  exists s. split; [exact H1|]. unfold b58decode_check. rewrite H2. cbn [bind].
  rewrite py_upto_neg_app, py_from_neg_app by lia. rewrite E, zlist_eqb_refl. reflexivity.
Qed.

Theorem btc_check_reject sha s bs : hash_like sha -> b58decode_check sha s = Ok bs ->
  b58decode s = Ok (bs ++ firstn 4 (sha (sha bs))).
Proof.
  intros Hsha H. unfold b58decode_check in H. apply bind_ok_inv in H as (r & Hr & H).
  destruct (zlist_eqb _ _) eqn:E; [|discriminate]. injection H as <-. apply zlist_eqb_spec in E.
  destruct (Hsha (sha (py_upto r (-4)))) as [_ Hl]. destruct (first4 _ Hl) as (_ & E2 & _).
  rewrite E2 in E. rewrite <- E, py_upto_from. exact Hr.
Qed.

(** decoding is injective on valid texts: leading '1's are zero bytes *)
Lemma b58decode_inv s bs : b58decode s = Ok bs ->
  bytes_ok bs /\ b58encode bs = Ok s.
Proof.
  intros H. unfold b58decode in H. change (py_get alphabet 0) with (Ok (symbol 0)) in H. cbn [bind] in H.
  destruct (lstrip_decomp (symbol 0) s) as (n & t & E & Hs & Ht). rewrite Hs in H.
  apply bind_ok_inv in H as (acc & Hacc & H).
  assert (Hd : exists ds, digits_ok 58 ds /\ t = map symbol ds /\ acc = be_val 58 ds).
  { clear -Hacc. unfold b58decode_int in Hacc. unfold be_val.
    assert (HG : forall t a v, foldM (fun decimal c => let* i := py_index alphabet c in Ok (decimal * 58 + i)) t a = Ok v ->
      exists ds, digits_ok 58 ds /\ t = map symbol ds /\ v = fold_left (fun a d => a * 58 + d) ds a).
    { clear. induction t as [|c t IH]; intros a v; cbn [foldM].
      - intros [= <-]. exists []. repeat split. constructor.
      - intros H. apply bind_ok_inv in H as (x & Hx & H). apply bind_ok_inv in Hx as (d & Hd & [= <-]).
        apply B58Mnr_proof.alphabet_index_inv in Hd as [Hd ->].
        apply IH in H as (ds & H1 & -> & ->). exists (d :: ds). repeat split. constructor; auto. }
    destruct (HG t 0 acc Hacc) as (ds & H1 & H2 & H3). eauto. }
  destruct Hd as (ds & Hds & -> & ->).
  pose proof (be_val_range 58 ds ltac:(lia) Hds) as Hrange.
  apply bind_ok_inv in H as (r & Hr & H).
  rewrite (decode_bytes_loop_spec _ _ []) in Hr by lia.
  destruct (dloop_spec 256 ltac:(lia) (S (Z.to_nat (Z.log2 (be_val 58 ds)))) (be_val 58 ds) [] ltac:(lia)) as (t' & D1 & D2 & _).
  { right. lia. }
  rewrite D1, app_nil_r in Hr. injection Hr as <-. rewrite rev_involutive in H.
  assert (Hn : Z.to_nat (zlen s - zlen (map symbol ds)) = n).
  { rewrite E, zlen_app. unfold zlen. rewrite repeat_length. lia. }
  rewrite Hn in H. injection H as <-.
  assert (HB : bytes_ok (repeat 0 n ++ t')).
  { apply bytes_ok_app. split; [|apply D2]. apply Forall_forall. intros x Hx. apply repeat_spec in Hx as ->. unfold byte_ok; lia. }
  split; [exact HB|].
  destruct (b58encode_spec _ HB) as (n' & t2 & ds2 & E2 & M2 & M2' & He). rewrite He. f_equal. rewrite E.
  assert (n' = n /\ t2 = t') as [-> ->].
  { assert (L1 : lstrip 0 (repeat 0 n ++ t') = t').
    { apply lstrip_app. destruct D2 as (_ & _ & D3). destruct t'; [left; reflexivity|right; exact D3]. }
    assert (L2 : lstrip 0 (repeat 0 n' ++ t2) = t2).
    { apply lstrip_app. destruct M2 as (_ & _ & D3). destruct t2; [left; reflexivity|right; exact D3]. }
    rewrite <- E2, L1 in L2. subst t2. split; [|reflexivity].
    apply (f_equal (@length Z)) in E2. rewrite !app_length, !repeat_length in E2. lia. }
  rewrite map_app, map_repeat'. f_equal. f_equal.
  apply (minimal_unique 58 _ _ (be_val 58 ds)); [lia| |].
  - destruct D2 as (_ & D2 & _). rewrite D2 in M2'. exact M2'.
  - split; [exact Hds|]. split; [reflexivity|]. destruct Ht as [Ht|Ht].
    + destruct ds; [cbn; lia|discriminate].
    + destruct ds as [|d ds']; cbn [map hd] in *; [lia|]. intros ->. congruence.
Qed.
