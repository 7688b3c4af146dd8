(** Proofs about Monero's base58. *)
From Verif Require Import Py PyLemmas Digits B58Mnr_model B58Mnr_spec.

(** ** chunks *)
Lemma chunks_fuel_enough {A} k (l : list A) f1 f2 :
  (0 < k)%nat -> (length l <= f1)%nat -> (length l <= f2)%nat ->
  chunks_fuel f1 k l = chunks_fuel f2 k l.
Proof.
  intros Hk. revert f1 f2. remember (length l) as n eqn:Hn.
  revert l Hn. induction n as [n IH] using lt_wf_ind. intros l Hn f1 f2 H1 H2.
  destruct l as [|x l'].
  - destruct f1, f2; reflexivity.
  - cbn [length] in Hn. destruct f1 as [|f1]; [lia|]. destruct f2 as [|f2]; [lia|].
    cbn [chunks_fuel]. f_equal.
    assert (HL : (length (skipn k (x :: l')) < n)%nat) by (rewrite skipn_length; cbn [length]; lia).
    apply (IH _ HL _ eq_refl); lia.
Qed.

Lemma chunks_app {A} k (b l : list A) : (0 < k)%nat -> length b = k -> chunks k (b ++ l) = b :: chunks k l.
Proof.
  intros Hk Hb. unfold chunks. rewrite app_length.
  destruct b as [|x b]; [cbn in Hb; lia|]. rewrite Hb.
  destruct k as [|k]; [lia|]. cbn [Nat.add chunks_fuel app].
  change (x :: b ++ l) with ((x :: b) ++ l). rewrite <- Hb.
  rewrite firstn_app, firstn_all, Nat.sub_diag, skipn_app, skipn_all, Nat.sub_diag.
  cbn [firstn skipn app]. rewrite app_nil_r. f_equal. rewrite Hb.
  apply chunks_fuel_enough; lia.
Qed.

Lemma chunks_short {A} k (l : list A) : (0 < length l <= k)%nat -> chunks k l = [l].
Proof.
  intros H. unfold chunks. destruct l as [|x l]; [cbn in H; lia|]. cbn [length chunks_fuel].
  rewrite firstn_all2, skipn_all2 by (cbn [length] in *; lia). destruct (length l); reflexivity.
Qed.

Lemma blocks_decomp {A} k (l : list A) : (0 < k)%nat ->
  exists bl last, l = concat bl ++ last /\ Forall (fun b => length b = k) bl /\ (length last < k)%nat.
Proof.
  intros Hk. remember (length l) as n eqn:Hn. revert l Hn.
  induction n as [n IH] using lt_wf_ind. intros l Hn.
  destruct (Nat.lt_ge_cases n k) as [Hlt|Hge].
  - exists [], l. cbn. repeat split; [constructor|lia].
  - destruct (IH (n - k)%nat ltac:(lia) (skipn k l)) as (bl & last & E & HF & HL);
      [rewrite skipn_length; lia|].
    exists (firstn k l :: bl), last. cbn [concat]. rewrite <- app_assoc, <- E, firstn_skipn.
    repeat split; auto. constructor; auto. apply firstn_length_le. lia.
Qed.

Lemma concat_length {A} k (bl : list (list A)) :
  Forall (fun b => length b = k) bl -> length (concat bl) = (length bl * k)%nat.
Proof.
  induction 1 as [|b bl Hb HF IH]; cbn [concat length]; [reflexivity|]. rewrite app_length, IH, Hb. lia.
Qed.

Lemma chunks_concat {A} k (bl : list (list A)) last :
  (0 < k)%nat -> Forall (fun b => length b = k) bl -> (length last < k)%nat ->
  chunks k (concat bl ++ last) = bl ++ (match last with [] => [] | _ => [last] end).
Proof.
  intros Hk HF HL. induction HF as [|b bl Hb HF IH]; cbn [concat app].
  - destruct last; [reflexivity|]. apply chunks_short. cbn [length] in *; lia.
  - rewrite <- app_assoc, chunks_app by auto. now rewrite IH.
Qed.

(** ** alphabet *)
Lemma alphabet_symbols : alphabet = symbols.
Proof. reflexivity. Qed.
Lemma alphabet_nodup : NoDup alphabet.
Proof.
  assert (H : (fix nd l := match l with [] => true | x :: t => negb (existsb (Z.eqb x) t) && nd t end) alphabet = true)
    by (vm_compute; reflexivity).
  revert H. generalize alphabet. induction l as [|x t IH]; [constructor|].
  intros H. apply andb_true_iff in H as [H1 H2]. constructor; [|auto].
  intros Hin. apply negb_true_iff in H1.
  assert (existsb (Z.eqb x) t = true); [|congruence].
  apply existsb_exists. exists x. split; [assumption|apply Z.eqb_refl].
Qed.
Lemma alphabet_len : length alphabet = 58%nat.
Proof. reflexivity. Qed.
Lemma alphabet_nth d : 0 <= d < 58 -> nth_error alphabet (Z.to_nat d) = Some (symbol d).
Proof.
  intros H. unfold symbol. rewrite <- alphabet_symbols. apply nth_error_nth'. rewrite alphabet_len. lia.
Qed.
Lemma alphabet_get d : 0 <= d < 58 -> py_get alphabet d = Ok (symbol d).
Proof. intros H. apply py_get_nonneg; [lia|]. now apply alphabet_nth. Qed.
Lemma alphabet_index d : 0 <= d < 58 -> py_index alphabet (symbol d) = Ok d.
Proof.
  intros H. rewrite (py_index_nodup _ _ (Z.to_nat d)); [f_equal; lia|apply alphabet_nodup|now apply alphabet_nth].
Qed.
Lemma alphabet_index_inv c d : py_index alphabet c = Ok d -> 0 <= d < 58 /\ c = symbol d.
Proof.
  intros H. apply py_index_inv in H as [H1 H2].
  assert (HL : (Z.to_nat d < length alphabet)%nat) by (apply nth_error_Some; congruence).
  rewrite alphabet_len in HL. assert (Hd : 0 <= d < 58) by lia. split; [exact Hd|].
  rewrite alphabet_nth in H2 by assumption. congruence.
Qed.
Lemma symbol_byte d : 0 <= d < 58 -> byte_ok (symbol d).
Proof.
  intros H. assert (HB : bytes_ok alphabet) by (apply bytes_okb_spec; reflexivity).
  pose proof (alphabet_nth d H) as HN. apply nth_error_In in HN.
  eapply Forall_forall in HB; eauto.
Qed.

(** ** numbers *)
Lemma land_shl8 r d : 0 <= d < 256 -> Z.land (r * 256) d = 0.
Proof.
  intros Hd. apply Z.bits_inj'. intros n Hn. rewrite Z.land_spec, Z.bits_0.
  destruct (Z.lt_ge_cases n 8) as [Hlt|Hge].
  - change 256 with (2 ^ 8). rewrite Z.mul_pow2_bits_low by lia. reflexivity.
  - destruct (Z.eq_dec d 0) as [->|Hnz]; [rewrite Z.bits_0; apply andb_false_r|].
    rewrite (Z.bits_above_log2 d n); [apply andb_false_r|lia|].
    apply Z.log2_lt_pow2; [lia|]. apply Z.lt_le_trans with (2 ^ 8); [lia|].
    apply Z.pow_le_mono_r; lia.
Qed.
Lemma lor_shl8 r d : 0 <= d < 256 -> Z.lor (Z.shiftl r 8) d = r * 256 + d.
Proof.
  intros Hd. rewrite Z.shiftl_mul_pow2 by lia. change (2 ^ 8) with 256.
  rewrite <- Z.lxor_lor by (now apply land_shl8).
  symmetry. apply Z.add_nocarry_lxor. now apply land_shl8.
Qed.

Lemma uint8be_val data : bytes_ok data -> (1 <= length data <= 8)%nat ->
  uint8be_to_64 data = Some (be_val 256 data).
Proof.
  intros HB HL. unfold uint8be_to_64. destruct (_ || _) eqn:E; [unfold zlen in E; lia|].
  f_equal. unfold be_val. clear E HL. generalize 0.
  induction HB as [|d l Hd HB IH]; intros a; cbn [fold_left]; [reflexivity|].
  rewrite lor_shl8 by exact Hd. apply IH.
Qed.

Lemma uint64_fill_spec (pre post : list Z) num :
  uint64_fill (pre ++ post) (length pre) num = be_digits 256 (length pre) num ++ post.
Proof.
  revert post num. induction pre as [|x pre IH] using rev_ind; intros post num; [reflexivity|].
  rewrite app_length. cbn [length]. rewrite Nat.add_1_r. cbn [uint64_fill be_digits].
  rewrite <- !app_assoc. cbn [app]. rewrite upd_app_mid. rewrite IH. reflexivity.
Qed.
Lemma uint64_to_8be_spec num size : uint64_to_8be num size = be_digits 256 size num.
Proof.
  unfold uint64_to_8be. pose proof (uint64_fill_spec (repeat 0 size) [] num) as H.
  rewrite repeat_length, !app_nil_r in H. exact H.
Qed.

Lemma be_digits_0 B n : be_digits B n 0 = repeat 0 n.
Proof.
  induction n as [|n IH]; cbn [be_digits]; [reflexivity|].
  rewrite Zdiv_0_l, Zmod_0_l, IH.
  rewrite <- repeat_cons. reflexivity.
Qed.

(** ** encode_block *)
Lemma encode_loop_spec n : forall fuel num pre post index i,
  0 <= num < 58 ^ Z.of_nat n -> (num = 0 \/ (Z.to_nat (Z.log2 num) < fuel)%nat) ->
  zlen pre = index -> i = Z.of_nat n - 1 ->
  encode_loop fuel num (PBuf (pre ++ repeat (symbol 0) n ++ post)) index i
  = Ok (PBuf (pre ++ map symbol (be_digits 58 n num) ++ post)).
Proof.
  induction n as [|n IH]; intros fuel num pre post index i Hn Hf Hp Hi.
  - change (58 ^ Z.of_nat 0) with 1 in Hn. assert (num = 0) as -> by lia.
    destruct fuel; reflexivity.
  - assert (Hdm : 0 <= num / 58 < 58 ^ Z.of_nat n).
    { rewrite Nat2Z.inj_succ, Z.pow_succ_r in Hn by lia. split; [lia|].
      apply Z.div_lt_upper_bound; lia. }
    destruct (num >? 0) eqn:E.
    + destruct fuel as [|fuel]; [lia|]. cbn [encode_loop]. rewrite E.
      change b58base with 58.
      rewrite alphabet_get by (apply Z.mod_pos_bound; lia). cbn [bind buf_set].
      replace (repeat (symbol 0) (S n) ++ post) with (repeat (symbol 0) n ++ symbol 0 :: post).
      2:{ cbn [repeat app]. rewrite app_comm_cons, repeat_cons, <- app_assoc. reflexivity. }
      rewrite app_assoc.
      rewrite py_set_mid by (rewrite zlen_app; unfold zlen in *; rewrite repeat_length; lia).
      cbn [bind]. rewrite <- app_assoc. rewrite IH; try assumption.
      * cbn [be_digits]. rewrite map_app, <- app_assoc. reflexivity.
      * destruct (Z.lt_ge_cases num 58) as [Hlt|Hge]; [left; apply Z.div_small; lia|right].
        destruct Hf as [->|Hf]; [lia|].
        assert (Z.log2 (num / 58) < Z.log2 num); [|pose proof (Z.log2_nonneg (num / 58)); lia].
        assert (Z.log2 (num / 58) <= Z.log2 (num / 2)).
        { apply Z.log2_le_mono. apply Z.div_le_compat_l; lia. }
        assert (Z.log2 num = Z.succ (Z.log2 (num / 2))); [|lia].
        pose proof (Z.log2_shiftr num 1 ltac:(lia)) as HH.
        rewrite Z.shiftr_div_pow2 in HH by lia. change (2 ^ 1) with 2 in HH. rewrite HH.
        assert (1 <= Z.log2 num) by (apply Z.log2_le_pow2; lia). lia.
      * lia.
    + assert (num = 0) as -> by lia.
      rewrite be_digits_0. rewrite map_repeat'.
      destruct fuel; reflexivity.
Qed.

Lemma enc_size_get n : (n <= 8)%nat ->
  py_get encodedBlockSizes (Z.of_nat n) = Ok (Z.of_nat (enc_size n)).
Proof. intros H. do 9 (destruct n as [|n]; [reflexivity|]). lia. Qed.

Lemma enc_size_bound n : (n <= 8)%nat -> 256 ^ Z.of_nat n <= 58 ^ Z.of_nat (enc_size n).
Proof. intros H. do 9 (destruct n as [|n]; [vm_compute; congruence|]). lia. Qed.

Lemma encode_block_spec data pre post index :
  bytes_ok data -> (1 <= length data <= 8)%nat -> zlen pre = index ->
  encode_block data (PBuf (pre ++ repeat (symbol 0) (enc_size (length data)) ++ post)) index
  = Ok (PBuf (pre ++ enc_block data ++ post)).
Proof.
  intros HB HL Hp. unfold encode_block. unfold fullEncodedBlockSize.
  destruct (_ || _) eqn:E; [unfold zlen in E; lia|]. clear E.
  rewrite uint8be_val by assumption. unfold zlen at 1. rewrite enc_size_get by lia. cbn [bind].
  unfold enc_block. apply encode_loop_spec; auto.
  pose proof (be_val_range 256 data ltac:(lia) HB). unfold zlen in *.
  pose proof (enc_size_bound (length data) ltac:(lia)). lia.
Qed.

Lemma enc_block_length b : length (enc_block b) = enc_size (length b).
Proof. unfold enc_block. now rewrite map_length, be_digits_length. Qed.
Lemma enc_block_bytes b : bytes_ok (enc_block b).
Proof.
  unfold enc_block. apply Forall_forall. intros x Hx. apply in_map_iff in Hx as (d & <- & Hd).
  apply symbol_byte. pose proof (be_digits_ok 58 (enc_size (length b)) (be_val 256 b) ltac:(lia)) as H.
  eapply Forall_forall in H; eauto.
Qed.

Lemma encode_loop_blocks bl last tail n :
  bytes_ok (concat bl) -> Forall (fun b => length b = 8%nat) bl -> (n <= length bl)%nat ->
  foldM (fun buf i =>
        encode_block (py_slice (concat bl ++ last) (i * fullBlockSize) (i * fullBlockSize + fullBlockSize))
                     buf (i * fullEncodedBlockSize))
      (zrange (Z.of_nat n)) (PBuf (repeat (symbol 0) (length bl * 11 + tail)))
  = Ok (PBuf (flat_map enc_block (firstn n bl) ++ repeat (symbol 0) ((length bl - n) * 11 + tail))).
Proof.
  intros HB HF. induction n as [|n IH]; intros Hn.
  - cbn [firstn flat_map app]. rewrite Nat.sub_0_r. reflexivity.
  - rewrite Nat2Z.inj_succ. unfold Z.succ. rewrite zrange_S by lia. rewrite foldM_app, IH by lia.
    cbn [bind foldM].
    destruct (nth_error bl n) as [b|] eqn:Eb.
    2:{ apply nth_error_None in Eb. lia. }
    pose proof (nth_error_split bl n Eb) as (b1 & b2 & E1 & E2).
    assert (Hb : length b = 8%nat).
    { eapply Forall_forall in HF; [exact HF|]. eapply nth_error_In; eauto. }
    assert (HF1 : Forall (fun b => length b = 8%nat) b1).
    { rewrite E1 in HF. apply Forall_app in HF. tauto. }
    assert (Hs : py_slice (concat bl ++ last) (Z.of_nat n * fullBlockSize)
                   (Z.of_nat n * fullBlockSize + fullBlockSize) = b).
    { rewrite E1, concat_app. cbn [concat]. rewrite <- !app_assoc.
      apply py_slice_app; unfold zlen, fullBlockSize; rewrite (concat_length 8 b1 HF1), ?E2, ?Hb; lia. }
    rewrite Hs.
    replace ((length bl - n) * 11 + tail)%nat with (enc_size (length b) + ((length bl - S n) * 11 + tail))%nat.
    2:{ rewrite Hb. change (enc_size 8) with 11%nat. lia. }
    rewrite repeat_app.
    assert (Hbb : bytes_ok b).
    { rewrite E1, concat_app in HB. apply bytes_ok_app in HB as [_ HB]. cbn [concat] in HB.
      apply bytes_ok_app in HB. tauto. }
    rewrite encode_block_spec; auto.
    + cbn [bind]. f_equal. f_equal. rewrite app_assoc. f_equal.
      rewrite (firstn_S_nth bl n b Eb).
      rewrite flat_map_app. cbn [flat_map]. rewrite app_nil_r. reflexivity.
    + rewrite Hb. lia.
    + unfold zlen, fullEncodedBlockSize.
      assert (length (flat_map enc_block (firstn n bl)) = (n * 11)%nat); [|lia].
      rewrite flat_map_concat_map.
      rewrite (concat_length 11).
      * rewrite map_length, firstn_length. lia.
      * apply Forall_forall. intros x Hx. apply in_map_iff in Hx as (y & <- & Hy).
        rewrite enc_block_length.
        replace (length y) with 8%nat; [reflexivity|].
        assert (In y bl) by (rewrite <- (firstn_skipn n bl); apply in_or_app; auto).
        eapply Forall_forall in HF; eauto.
Qed.

Theorem encode_refines bs : bytes_ok bs -> b58encode_data bs = Ok (spec_encode bs).
Proof.
  intros HB. destruct (blocks_decomp 8 bs ltac:(lia)) as (bl & last & E & HF & HL).
  unfold b58encode_data. destruct (zlen bs =? 0) eqn:E0.
  { destruct bs; [reflexivity|]. rewrite zlen_cons in E0. pose proof (zlen_nonneg bs). lia. }
  assert (Hlen : zlen bs = Z.of_nat (length bl) * 8 + Z.of_nat (length last)).
  { rewrite E, zlen_app. unfold zlen at 1 2. rewrite (concat_length 8 bl HF). lia. }
  replace (zlen bs / fullBlockSize) with (Z.of_nat (length bl)) by (unfold fullBlockSize; lia).
  replace (zlen bs mod fullBlockSize) with (Z.of_nat (length last)) by (unfold fullBlockSize; lia).
  rewrite enc_size_get by lia. cbn [bind].
  change (py_get alphabet 0) with (Ok (symbol 0)). cbn [bind].
  replace (Z.to_nat (Z.of_nat (length bl) * fullEncodedBlockSize + Z.of_nat (enc_size (length last))))
    with (length bl * 11 + enc_size (length last))%nat by (unfold fullEncodedBlockSize; lia).
  rewrite E.
  assert (HBb : bytes_ok (concat bl) /\ bytes_ok last) by (apply bytes_ok_app; congruence).
  rewrite (encode_loop_blocks bl last (enc_size (length last)) (length bl)) by (tauto || lia).
  cbn [bind]. rewrite Nat.sub_diag, firstn_all. cbn [Nat.mul Nat.add].
  unfold spec_encode. rewrite chunks_concat by (auto; lia).
  rewrite flat_map_app.
  destruct (Z.of_nat (length last) >? 0) eqn:EL.
  - replace (py_slice (concat bl ++ last) _ _) with last.
    2:{ symmetry. rewrite <- (app_nil_r last) at 1.
        apply py_slice_app; unfold zlen; rewrite (concat_length 8 bl HF); unfold fullBlockSize; lia. }
    rewrite <- (app_nil_r (repeat _ _)). rewrite encode_block_spec; try tauto; try lia.
    + cbn [bind buf_bytes]. rewrite app_nil_r.
      destruct last as [|x last]; [cbn in EL; lia|]. cbn [flat_map]. rewrite app_nil_r.
      replace (bytes_okb _) with true; [reflexivity|]. symmetry. apply bytes_okb_spec.
      apply bytes_ok_app. split; [|apply enc_block_bytes].
      apply Forall_forall. intros y Hy. apply in_flat_map in Hy as (b & _ & Hy).
      pose proof (enc_block_bytes b) as Hb. eapply Forall_forall in Hb; eauto.
    + unfold zlen, fullEncodedBlockSize. rewrite flat_map_concat_map, (concat_length 11).
      * rewrite map_length. lia.
      * apply Forall_forall. intros x Hx. apply in_map_iff in Hx as (y & <- & Hy).
        rewrite enc_block_length. eapply Forall_forall in HF; eauto. rewrite HF. reflexivity.
  - destruct last as [|x last]; [|cbn [length] in EL; lia]. cbn [length flat_map].
    change (enc_size 0) with 0%nat. cbn [repeat bind]. rewrite !app_nil_r. cbn [buf_bytes].
    replace (bytes_okb _) with true; [reflexivity|]. symmetry. apply bytes_okb_spec.
    apply Forall_forall. intros y Hy. apply in_flat_map in Hy as (b & _ & Hy).
    pose proof (enc_block_bytes b) as Hb. eapply Forall_forall in Hb; eauto.
Qed.

(** ** decode_block *)
Definition idx_of (c : Z) : Z := match py_index alphabet c with Ok d => d | Err _ => 0 end.
Definition blkval (b : list Z) : Z := be_val 58 (map idx_of b).
Definition dec_block (n : nat) (b : list Z) : list Z := be_digits 256 n (blkval b).
Definition good (n : nat) (b : list Z) : Prop :=
  (1 <= n <= 8)%nat /\ length b = enc_size n /\
  (exists ds, digits_ok 58 ds /\ b = map symbol ds) /\
  blkval b <= 2 ^ 64 /\ ((n < 8)%nat -> blkval b < 256 ^ Z.of_nat n).

Lemma idx_symbol d : 0 <= d < 58 -> idx_of (symbol d) = d.
Proof. intros H. unfold idx_of. now rewrite alphabet_index. Qed.
Lemma map_idx_symbol ds : digits_ok 58 ds -> map idx_of (map symbol ds) = ds.
Proof.
  induction 1 as [|d ds Hd H IH]; cbn [map]; [reflexivity|]. now rewrite idx_symbol, IH.
Qed.
Lemma blkval_symbols ds : digits_ok 58 ds -> blkval (map symbol ds) = be_val 58 ds.
Proof. intros H. unfold blkval. now rewrite map_idx_symbol. Qed.

Lemma decode_loop_fwd ds : forall rn o,
  digits_ok 58 ds -> 0 < o -> 0 <= rn -> rn + o * le_val 58 ds <= 2 ^ 64 ->
  decode_loop (map symbol ds) rn o = Ok (Some (rn + o * le_val 58 ds)).
Proof.
  induction ds as [|d ds IH]; intros rn o Hd Ho Hr HB; cbn [map decode_loop le_val] in *.
  - repeat f_equal; lia.
  - apply digits_ok_cons in Hd as [Hd Hds].
    rewrite alphabet_index by assumption. cbn [bind].
    pose proof (le_val_range 58 ds ltac:(lia) Hds).
    unfold UINT64MAX. destruct (_ >? _) eqn:E; [nia|].
    unfold b58base. rewrite IH; auto; try nia. f_equal. f_equal. nia.
Qed.

Lemma decode_loop_inv rdata : forall rn o v,
  0 < o -> 0 <= rn <= 2 ^ 64 -> decode_loop rdata rn o = Ok (Some v) ->
  exists ds, digits_ok 58 ds /\ rdata = map symbol ds /\ v = rn + o * le_val 58 ds /\ v <= 2 ^ 64.
Proof.
  induction rdata as [|c t IH]; intros rn o v Ho Hr; cbn [decode_loop].
  - intros [= <-]. exists []. cbn [map le_val]. repeat split; [constructor|lia|lia].
  - intros H. apply bind_ok_inv in H as (d & Hd & H). apply alphabet_index_inv in Hd as [Hd ->].
    unfold UINT64MAX in H. destruct (_ >? _) eqn:E; [discriminate|].
    apply IH in H as (ds & H1 & -> & -> & H4); [|unfold b58base; lia|nia].
    exists (d :: ds). cbn [map le_val]. unfold b58base in *. repeat split; [constructor; auto|nia|nia].
Qed.

Lemma write_fold_spec (tmp pre post : list Z) n : (n <= length tmp)%nat ->
  foldM (fun buf i => let* v := py_get tmp i in buf_set buf (i + zlen pre) v)
        (zrange (Z.of_nat n))
        (PBuf (pre ++ repeat 0 (length tmp) ++ post)) =
  Ok (PBuf (pre ++ firstn n tmp ++ repeat 0 (length tmp - n) ++ post)).
Proof.
  induction n as [|n IH]; intros Hn.
  - cbn [firstn app]. rewrite Nat.sub_0_r. reflexivity.
  - rewrite Nat2Z.inj_succ. unfold Z.succ. rewrite zrange_S by lia. rewrite foldM_app, IH by lia.
    cbn [bind foldM].
    destruct (nth_error tmp n) as [v|] eqn:Ev; [|apply nth_error_None in Ev; lia].
    rewrite (py_get_nonneg tmp (Z.of_nat n) v) by (rewrite ?Nat2Z.id; auto; lia). cbn [bind buf_set].
    replace (length tmp - n)%nat with (S (length tmp - S n)) by lia. cbn [repeat].
    cbn [app].
    replace (pre ++ firstn n tmp ++ 0 :: repeat 0 (length tmp - S n) ++ post)
      with ((pre ++ firstn n tmp) ++ 0 :: (repeat 0 (length tmp - S n) ++ post))
      by (rewrite <- app_assoc; reflexivity).
    rewrite py_set_mid.
    + cbn [bind]. f_equal. f_equal. rewrite (firstn_S_nth tmp n v Ev). rewrite <- !app_assoc. reflexivity.
    + rewrite zlen_app. unfold zlen. rewrite firstn_length. lia.
Qed.

Lemma write_fold (tmp pre post : list Z) index : index = zlen pre ->
  foldM (fun buf i => let* v := py_get tmp i in buf_set buf (i + index) v)
        (zrange (zlen tmp)) (PBuf (pre ++ repeat 0 (length tmp) ++ post))
  = Ok (PBuf (pre ++ tmp ++ post)).
Proof.
  intros ->. pose proof (write_fold_spec tmp pre post (length tmp) ltac:(lia)) as H.
  change (zlen tmp) with (Z.of_nat (length tmp)). rewrite H, firstn_all, Nat.sub_diag. reflexivity.
Qed.

Lemma enc_size_index n : (n <= 8)%nat ->
  py_index encodedBlockSizes (Z.of_nat (enc_size n)) = Ok (Z.of_nat n).
Proof. intros H. do 9 (destruct n as [|n]; [reflexivity|]). lia. Qed.
Lemma enc_size_index_inv z n : py_index encodedBlockSizes z = Ok n ->
  0 <= n <= 8 /\ z = Z.of_nat (enc_size (Z.to_nat n)).
Proof.
  intros H. apply py_index_inv in H as [H1 H2].
  assert (HL : (Z.to_nat n < length encodedBlockSizes)%nat) by (apply nth_error_Some; congruence).
  cbn [length encodedBlockSizes] in HL. split; [lia|].
  assert (Hz : forall k, (k < 9)%nat -> nth_error encodedBlockSizes k = Some z -> z = Z.of_nat (enc_size k)).
  { intros k Hk. do 9 (destruct k as [|k]; [intros [= <-]; reflexivity|]). lia. }
  apply Hz; [lia|exact H2].
Qed.
Lemma enc_size_bounds n : (1 <= n <= 8)%nat -> (1 <= enc_size n <= 11)%nat.
Proof. intros H. do 9 (destruct n as [|n]; [cbn; lia|]). lia. Qed.
Lemma enc_size_small n : (n < 8)%nat -> (enc_size n < 11)%nat.
Proof. intros H. do 8 (destruct n as [|n]; [cbn; lia|]). lia. Qed.

Lemma pow_256 n : 2 ^ (8 * Z.of_nat n) = 256 ^ Z.of_nat n.
Proof. rewrite Z.pow_mul_r by lia. reflexivity. Qed.

Lemma decode_block_fwd n data pre post index :
  good n data -> index = zlen pre ->
  decode_block data (PBuf (pre ++ repeat 0 n ++ post)) index
  = Ok (PBuf (pre ++ dec_block n data ++ post)).
Proof.
  intros (Hn & HL & (ds & Hds & ->) & HV & HV2) Hi. unfold decode_block.
  pose proof (enc_size_bounds n Hn).
  destruct (_ || _) eqn:E; [unfold zlen, fullEncodedBlockSize in E; lia|]. clear E.
  unfold zlen at 1. rewrite HL, enc_size_index by lia. cbn [bind].
  destruct (Z.of_nat n <=? 0) eqn:E; [lia|]. clear E.
  rewrite blkval_symbols in HV, HV2 by assumption.
  rewrite <- map_rev, decode_loop_fwd; rewrite ?le_val_rev, ?rev_involutive; try lia.
  2:{ now apply digits_ok_rev. }
  cbn [bind].
  destruct ((Z.of_nat n <? fullBlockSize) && _) eqn:E.
  { rewrite pow_256 in E. unfold fullBlockSize in E. lia. }
  rewrite Nat2Z.id, uint64_to_8be_spec.
  unfold dec_block. rewrite blkval_symbols by assumption.
  replace (0 + 1 * be_val 58 ds) with (be_val 58 ds) by lia.
  rewrite <- (be_digits_length 256 n (be_val 58 ds)) at 2.
  now apply write_fold.
Qed.

Lemma foldM_PStr tmp index l b : l <> [] ->
  foldM (fun buf i => let* v := py_get tmp i in buf_set buf (i + index) v) l PStr <> Ok b.
Proof.
  destruct l as [|i l]; [congruence|]. intros _. cbn [foldM].
  destruct (py_get tmp i); cbn; discriminate.
Qed.

Lemma decode_block_inv data buf index l' :
  decode_block data buf index = Ok (PBuf l') ->
  exists n, good n data /\ exists l, buf = PBuf l.
Proof.
  unfold decode_block. destruct (_ || _) eqn:E; [discriminate|]. clear E.
  intros H. apply bind_ok_inv in H as (n & Hn & H). apply enc_size_index_inv in Hn as [Hn Hsz].
  destruct (n <=? 0) eqn:E0; [discriminate|].
  apply bind_ok_inv in H as (r & Hr & H). destruct r as [v|]; [|discriminate].
  destruct (_ && _) eqn:E1; [discriminate|].
  apply decode_loop_inv in Hr as (ds & Hds & Hrev & Hv & Hv64); [|lia|lia].
  assert (Hd : data = map symbol (rev ds)) by (rewrite map_rev, <- Hrev, rev_involutive; reflexivity).
  assert (Hbv : blkval data = v).
  { rewrite Hd, blkval_symbols by (now apply digits_ok_rev). rewrite <- le_val_rev. lia. }
  exists (Z.to_nat n). split.
  - unfold good. rewrite Hbv. repeat split; try lia.
    + unfold zlen in Hsz. lia.
    + exists (rev ds). split; [now apply digits_ok_rev|assumption].
    + intros Hlt. rewrite <- pow_256. unfold fullBlockSize in E1.
      replace (8 * Z.of_nat (Z.to_nat n)) with (8 * n) by lia. lia.
  - destruct buf as [l|]; [eauto|]. exfalso. revert H. apply foldM_PStr.
    rewrite uint64_to_8be_spec. unfold zlen. rewrite be_digits_length.
    intros H0. pose proof (zlen_zrange (Z.of_nat (Z.to_nat n)) ltac:(lia)) as H1. rewrite H0 in H1. cbn in H1. lia.
Qed.

Lemma flat_map_length_const {A B} (f : A -> list B) k (l : list A) :
  (forall a, In a l -> length (f a) = k) -> length (flat_map f l) = (length l * k)%nat.
Proof.
  induction l as [|a l IH]; intros H; cbn [flat_map length]; [reflexivity|].
  rewrite app_length, IH by (intros; apply H; cbn; auto). rewrite (H a) by (cbn; auto). lia.
Qed.

Lemma block_slice (k : Z) (bl : list (list Z)) last n b :
  0 <= k -> Forall (fun b => length b = Z.to_nat k) bl -> nth_error bl n = Some b ->
  py_slice (concat bl ++ last) (Z.of_nat n * k) (Z.of_nat n * k + k) = b.
Proof.
  intros Hk HF Eb. pose proof (nth_error_split bl n Eb) as (b1 & b2 & E1 & E2).
  assert (Hb : length b = Z.to_nat k).
  { eapply Forall_forall in HF; [exact HF|]. eapply nth_error_In; eauto. }
  assert (HF1 : Forall (fun b => length b = Z.to_nat k) b1).
  { rewrite E1 in HF. apply Forall_app in HF. tauto. }
  rewrite E1, concat_app. cbn [concat]. rewrite <- !app_assoc.
  apply py_slice_app; unfold zlen; rewrite (concat_length (Z.to_nat k) b1 HF1), ?E2, ?Hb; nia.
Qed.

Lemma decode_loop_blocks bl last tail n :
  Forall (good 8) bl -> (n <= length bl)%nat ->
  foldM (fun buf i =>
        decode_block (py_slice (concat bl ++ last) (i * fullEncodedBlockSize) (i * fullEncodedBlockSize + fullEncodedBlockSize))
                     buf (i * fullBlockSize))
      (zrange (Z.of_nat n)) (PBuf (repeat 0 (length bl * 8 + tail)))
  = Ok (PBuf (flat_map (dec_block 8) (firstn n bl) ++ repeat 0 ((length bl - n) * 8 + tail))).
Proof.
  intros HF. induction n as [|n IH]; intros Hn.
  - cbn [firstn flat_map app]. rewrite Nat.sub_0_r. reflexivity.
  - rewrite Nat2Z.inj_succ. unfold Z.succ. rewrite zrange_S by lia. rewrite foldM_app, IH by lia.
    cbn [bind foldM].
    destruct (nth_error bl n) as [b|] eqn:Eb; [|apply nth_error_None in Eb; lia].
    rewrite (block_slice fullEncodedBlockSize bl last n b); [|unfold fullEncodedBlockSize; lia| |assumption].
    2:{ eapply Forall_impl; [|exact HF]. intros a Ha. destruct Ha as (_ & Ha & _). exact Ha. }
    replace ((length bl - n) * 8 + tail)%nat with (8 + ((length bl - S n) * 8 + tail))%nat by lia.
    rewrite repeat_app. rewrite (decode_block_fwd 8).
    + cbn [bind]. rewrite (firstn_S_nth bl n b Eb), flat_map_app. cbn [flat_map].
      rewrite app_nil_r, <- app_assoc. reflexivity.
    + eapply Forall_forall in HF; [exact HF|]. eapply nth_error_In; eauto.
    + unfold zlen. rewrite (flat_map_length_const _ 8), firstn_length by (intros; apply be_digits_length).
      unfold fullBlockSize. lia.
Qed.

Lemma decode_loop_blocks_inv bl last n : forall buf l',
  Forall (fun b => length b = 11%nat) bl -> (n <= length bl)%nat ->
  foldM (fun buf i =>
        decode_block (py_slice (concat bl ++ last) (i * fullEncodedBlockSize) (i * fullEncodedBlockSize + fullEncodedBlockSize))
                     buf (i * fullBlockSize))
      (zrange (Z.of_nat n)) buf = Ok (PBuf l') ->
  Forall (good 8) (firstn n bl).
Proof.
  induction n as [|n IH]; intros buf l' HF Hn.
  - intros _. constructor.
  - rewrite Nat2Z.inj_succ. unfold Z.succ. rewrite zrange_S by lia. rewrite foldM_app.
    intros H. apply bind_ok_inv in H as (b' & H1 & H2). cbn [foldM] in H2.
    apply bind_ok_inv in H2 as (b'' & H2 & [= ->]).
    destruct (nth_error bl n) as [b|] eqn:Eb; [|apply nth_error_None in Eb; lia].
    rewrite (block_slice fullEncodedBlockSize bl last n b) in H2; [|unfold fullEncodedBlockSize; lia|exact HF|assumption].
    pose proof H2 as H3. apply decode_block_inv in H2 as (m & Hg & l & ->).
    rewrite (firstn_S_nth bl n b Eb). apply Forall_app. split.
    + eapply IH; eauto. lia.
    + constructor; [|constructor].
      assert (length b = 11%nat). { eapply Forall_forall in HF; [exact HF|]. eapply nth_error_In; eauto. }
      assert (m = 8%nat); [|subst; exact Hg].
      destruct Hg as (Hm & Hl & _). destruct (Nat.eq_dec m 8) as [|]; [assumption|].
      pose proof (enc_size_small m ltac:(lia)). lia.
Qed.

(** complete characterisation of b58decode *)
Lemma decode_char s bs : s <> [] ->
  b58decode_data s = Ok bs <->
  exists bl last m, s = concat bl ++ last /\ Forall (good 8) bl /\
    (last = [] /\ m = 0%nat \/ good m last /\ (m < 8)%nat) /\
    bs = flat_map (dec_block 8) bl ++ dec_block m last.
Proof.
  intros Hne.
  assert (Hz : (zlen s =? 0) = false).
  { destruct s; [congruence|]. rewrite zlen_cons. pose proof (zlen_nonneg s). lia. }
  split.
  - intros H. destruct (blocks_decomp 11 s ltac:(lia)) as (bl & last & E & HF & HL).
    unfold b58decode_data in H. rewrite Hz in H.
    assert (Hlen : zlen s = Z.of_nat (length bl) * 11 + Z.of_nat (length last)).
    { rewrite E, zlen_app. unfold zlen at 1 2. rewrite (concat_length 11 bl HF). lia. }
    replace (zlen s / fullEncodedBlockSize) with (Z.of_nat (length bl)) in H by (unfold fullEncodedBlockSize; lia).
    replace (zlen s mod fullEncodedBlockSize) with (Z.of_nat (length last)) in H by (unfold fullEncodedBlockSize; lia).
    apply bind_ok_inv in H as (m & Hm & H). apply enc_size_index_inv in Hm as [Hm1 Hm2].
    apply bind_ok_inv in H as (b1 & H1 & H). apply bind_ok_inv in H as (b2 & H2 & H).
    assert (exists l2, b2 = PBuf l2) as [l2 ->] by (destruct b2; [eauto|discriminate]).
    assert (Hm8 : (Z.to_nat m < 8)%nat).
    { destruct (Nat.eq_dec (Z.to_nat m) 8) as [e|]; [|lia]. rewrite e in Hm2. cbn in Hm2. lia. }
    set (tail := Z.to_nat m) in *.
    assert (HB : (exists l1, b1 = PBuf l1) /\ (last = [] \/ good tail last)).
    { destruct (Z.of_nat (length last) >? 0) eqn:EL.
      - apply decode_block_inv in H2 as (k & Hg & l1 & ->).
        split; [eauto|]. right.
        rewrite E in Hg. rewrite py_slice_end in Hg;
          [|unfold zlen; rewrite (concat_length 11 bl HF); unfold fullEncodedBlockSize; lia
           |unfold zlen; rewrite (concat_length 11 bl HF); unfold fullEncodedBlockSize; lia].
        replace tail with k; [exact Hg|].
        destruct Hg as (Hk & Hgl & _).
        pose proof (enc_size_index k ltac:(lia)) as I1. pose proof (enc_size_index tail ltac:(lia)) as I2.
        rewrite <- Hm2, Hgl in I2. rewrite I1 in I2. injection I2. lia.
      - injection H2 as ->. split; [eauto|]. left. destruct last; [reflexivity|cbn [length] in EL; lia]. }
    destruct HB as [[l1 ->] HB].
    rewrite E in H1. pose proof H1 as H1'.
    apply (decode_loop_blocks_inv bl last (length bl)) in H1'; auto. rewrite firstn_all in H1'.
    exists bl, last, (match last with [] => 0%nat | _ => tail end).
    split; [exact E|]. split; [exact H1'|]. split.
    { destruct HB as [->|HB]; [left; auto|]. destruct last; [left; auto|right; split; [exact HB|exact Hm8]]. }
    replace (Z.to_nat (Z.of_nat (length bl) * fullBlockSize + m)) with (length bl * 8 + tail)%nat in H1
      by (unfold fullBlockSize, tail; lia).
    rewrite decode_loop_blocks in H1 by auto. rewrite Nat.sub_diag, firstn_all in H1. cbn [Nat.mul Nat.add] in H1.
    injection H1 as <-.
    destruct (Z.of_nat (length last) >? 0) eqn:EL.
    + destruct last as [|x last0] eqn:Elast; [cbn in EL; lia|]. rewrite <- Elast in *.
      destruct HB as [HB|HB]; [rewrite HB in Elast; discriminate|].
      rewrite E in H2. rewrite py_slice_end in H2;
        [|unfold zlen; rewrite (concat_length 11 bl HF); unfold fullEncodedBlockSize; lia
         |unfold zlen; rewrite (concat_length 11 bl HF); unfold fullEncodedBlockSize; lia].
      rewrite <- (app_nil_r (repeat 0 tail)) in H2. rewrite decode_block_fwd in H2; [|exact HB|].
      * injection H2 as <-. cbn [buf_bytes] in H. destruct (bytes_okb _); [|discriminate].
        injection H as <-. rewrite app_nil_r. reflexivity.
      * unfold zlen. rewrite (flat_map_length_const _ 8) by (intros; apply be_digits_length). unfold fullBlockSize; lia.
    + destruct last as [|x last0]; [|cbn [length] in EL; lia].
      assert (tail = 0%nat) as ->.
      { destruct tail as [|t] eqn:Et; [reflexivity|]. pose proof (enc_size_bounds (S t) ltac:(lia)). cbn [length] in Hm2. lia. }
      injection H2 as <-. cbn [buf_bytes repeat] in H. destruct (bytes_okb _); [|discriminate].
      injection H as <-. reflexivity.
  - intros (bl & last & m & E & HF & HL & ->).
    assert (HF' : Forall (fun b => length b = 11%nat) bl).
    { eapply Forall_impl; [|exact HF]. intros a (_ & Ha & _). exact Ha. }
    assert (Hlast : length last = enc_size m /\ (m < 8)%nat).
    { destruct HL as [[-> ->]|[(_ & Ha & _) Hb]]; [split; [reflexivity|lia]|auto]. }
    destruct Hlast as [Hlast Hm]. pose proof (enc_size_small m Hm) as Hsm.
    assert (Hlen : zlen s = Z.of_nat (length bl) * 11 + Z.of_nat (length last)).
    { rewrite E, zlen_app. unfold zlen at 1 2. rewrite (concat_length 11 bl HF'). lia. }
    unfold b58decode_data. rewrite Hz.
    replace (zlen s / fullEncodedBlockSize) with (Z.of_nat (length bl)) by (unfold fullEncodedBlockSize; lia).
    replace (zlen s mod fullEncodedBlockSize) with (Z.of_nat (length last)) by (unfold fullEncodedBlockSize; lia).
    rewrite Hlast, enc_size_index by lia. cbn [bind].
    replace (Z.to_nat (Z.of_nat (length bl) * fullBlockSize + Z.of_nat m)) with (length bl * 8 + m)%nat
      by (unfold fullBlockSize; lia).
    rewrite E, decode_loop_blocks by auto. cbn [bind]. rewrite Nat.sub_diag, firstn_all. cbn [Nat.mul Nat.add].
    assert (Hby : forall l, bytes_ok (flat_map (dec_block 8) bl ++ dec_block l last)).
    { intros l. apply bytes_ok_app. split; [|apply be_digits_ok; lia].
      apply Forall_forall. intros y Hy. apply in_flat_map in Hy as (b & _ & Hy).
      pose proof (be_digits_ok 256 8 (blkval b) ltac:(lia)) as Hb.
      eapply Forall_forall in Hb; [exact Hb|exact Hy]. }
    destruct (Z.of_nat (enc_size m) >? 0) eqn:EL.
    + destruct HL as [[-> ->]|[HL _]]; [cbn in EL; lia|].
      rewrite py_slice_end;
        [|unfold zlen; rewrite (concat_length 11 bl HF'); unfold fullEncodedBlockSize; lia
         |unfold zlen; rewrite (concat_length 11 bl HF'); unfold fullEncodedBlockSize; lia].
      rewrite <- (app_nil_r (repeat 0 m)). rewrite decode_block_fwd; [|exact HL|].
      * cbn [bind buf_bytes]. rewrite app_nil_r.
        replace (bytes_okb _) with true; [reflexivity|]. symmetry. apply bytes_okb_spec. apply Hby.
      * unfold zlen. rewrite (flat_map_length_const _ 8) by (intros; apply be_digits_length). unfold fullBlockSize; lia.
    + destruct HL as [[-> ->]|[HL _]].
      2:{ destruct HL as (Hmm & _). pose proof (enc_size_bounds m Hmm). lia. }
      cbn [bind buf_bytes repeat].
      replace (bytes_okb _) with true; [reflexivity|]. symmetry. apply bytes_okb_spec. apply (Hby 0%nat).
Qed.

Lemma dec_enc_block b : bytes_ok b -> (1 <= length b <= 8)%nat ->
  good (length b) (enc_block b) /\ dec_block (length b) (enc_block b) = b.
Proof.
  intros HB HL. unfold enc_block. set (v := be_val 256 b).
  pose proof (be_val_range 256 b ltac:(lia) HB) as Hv. fold v in Hv.
  pose proof (enc_size_bound (length b) ltac:(lia)) as Hs.
  pose proof (be_digits_ok 58 (enc_size (length b)) v ltac:(lia)) as Hd.
  assert (Hbv : blkval (map symbol (be_digits 58 (enc_size (length b)) v)) = v).
  { rewrite blkval_symbols by assumption. rewrite be_val_digits by lia. apply Z.mod_small. unfold zlen in Hv. lia. }
  split.
  - unfold good. rewrite Hbv, map_length, be_digits_length. unfold zlen in Hv.
    repeat split; try lia.
    + exists (be_digits 58 (enc_size (length b)) v). auto.
    + assert (256 ^ Z.of_nat (length b) <= 256 ^ 8) by (apply Z.pow_le_mono_r; lia).
      change (256 ^ 8) with (2 ^ 64) in *. lia.
  - unfold dec_block. rewrite Hbv. unfold v. apply be_digits_val; [lia|exact HB].
Qed.

Theorem decode_encode bs : bytes_ok bs -> bs <> [] -> b58decode_data (spec_encode bs) = Ok bs.
Proof.
  intros HB Hne. destruct (blocks_decomp 8 bs ltac:(lia)) as (bl & last & E & HF & HL).
  unfold spec_encode. rewrite E, chunks_concat by (auto; lia). rewrite flat_map_app.
  assert (HBB : bytes_ok (concat bl) /\ bytes_ok last) by (apply bytes_ok_app; congruence).
  assert (HE : forall b, In b bl -> good 8 (enc_block b) /\ dec_block 8 (enc_block b) = b).
  { intros b Hb. assert (length b = 8%nat) as Hb8 by (eapply Forall_forall in HF; eauto).
    rewrite <- Hb8. apply dec_enc_block; [|lia].
    destruct HBB as [HBB _]. apply Forall_forall. intros x Hx.
    eapply Forall_forall in HBB; [exact HBB|]. apply in_concat. eauto. }
  apply decode_char.
  { destruct bl as [|b bl]; cbn [flat_map app].
    - destruct last as [|x last]; [cbn in E; congruence|]. cbn [flat_map]. rewrite app_nil_r.
      intros H0. pose proof (enc_block_length (x :: last)) as H1. rewrite H0 in H1.
      pose proof (enc_size_bounds (length (x :: last)) ltac:(cbn [length] in *; lia)). cbn [length] in *. lia.
    - intros H0. apply app_eq_nil in H0 as [H0 _]. apply app_eq_nil in H0 as [H0 _].
      pose proof (enc_block_length b) as H1. rewrite H0 in H1.
      inversion HF as [|? ? Hb _]; subst. rewrite Hb in H1. discriminate. }
  exists (map enc_block bl), (match last with [] => [] | _ => enc_block last end), (length last).
  split; [|split; [|split]].
  - rewrite flat_map_concat_map. f_equal. destruct last; cbn [flat_map]; [reflexivity|apply app_nil_r].
  - apply Forall_forall. intros x Hx. apply in_map_iff in Hx as (b & <- & Hb). now apply HE.
  - destruct last as [|x last]; [left; auto|right]. split; [|exact HL].
    apply dec_enc_block; [tauto|cbn [length] in *; lia].
  - f_equal.
    + rewrite flat_map_concat_map, map_map.
      rewrite (map_ext_in _ (fun b => b)); [now rewrite map_id|]. intros b Hb. now apply HE.
    + destruct last as [|x last]; [reflexivity|]. symmetry. apply dec_enc_block; [tauto|cbn [length] in *; lia].
Qed.

Lemma enc_dec_block n b : good n b -> blkval b < 256 ^ Z.of_nat n -> enc_block (dec_block n b) = b.
Proof.
  intros (Hn & HL & (ds & Hds & ->) & HV & HV2) Hlt.
  unfold enc_block, dec_block. rewrite blkval_symbols in * by assumption.
  rewrite be_digits_length, be_val_digits by lia.
  rewrite map_length in HL.
  pose proof (be_val_range 58 ds ltac:(lia) Hds).
  rewrite Z.mod_small by lia. rewrite <- HL, be_digits_val by (auto; lia). reflexivity.
Qed.

Theorem encode_decode s bs : s <> [] -> b58decode_data s = Ok bs ->
  b58encode_data bs = Ok s \/ exists blk, In blk (chunks 11 s) /\ block_spells_2_64 blk.
Proof.
  intros Hne H. apply decode_char in H as (bl & last & m & E & HF & HL & ->); [|assumption].
  assert (HF' : Forall (fun b => length b = 11%nat) bl).
  { eapply Forall_impl; [|exact HF]. intros a (_ & Ha & _). exact Ha. }
  assert (Hlast : length last = enc_size m /\ (m < 8)%nat).
  { destruct HL as [[-> ->]|[(_ & Ha & _) Hb]]; [split; [reflexivity|lia]|auto]. }
  destruct Hlast as [Hlast Hm]. pose proof (enc_size_small m Hm) as Hsm.
  replace (chunks 11 s) with (bl ++ match last with [] => [] | _ => [last] end)
    by (rewrite E, chunks_concat by (auto; lia); reflexivity).
  assert (Hdec : (exists b, In b bl /\ blkval b = 2 ^ 64) \/ (forall b, In b bl -> blkval b <> 2 ^ 64)).
  { clear. induction bl as [|b bl IH]; [right; intros b []|].
    destruct (Z.eq_dec (blkval b) (2 ^ 64)) as [e|ne]; [left; exists b; cbn; auto|].
    destruct IH as [(b' & Hb & He)|IH]; [left; exists b'; cbn; auto|].
    right. intros b' [<-|Hb]; auto. }
  destruct Hdec as [(b & Hb & Hv)|Hno].
  - right. exists b. split; [apply in_or_app; auto|].
    eapply Forall_forall in HF; [|exact Hb]. destruct HF as (_ & Hl & (ds & Hds & ->) & _).
    split; [exact Hl|]. exists ds. rewrite blkval_symbols in Hv by assumption. auto.
  - left. rewrite encode_refines.
    + f_equal. unfold spec_encode. rewrite flat_map_concat_map with (f := dec_block 8).
      rewrite chunks_concat; [|lia| |unfold dec_block; rewrite be_digits_length; exact Hm].
      2:{ apply Forall_forall. intros x Hx. apply in_map_iff in Hx as (y & <- & _). apply be_digits_length. }
      rewrite flat_map_app, E. f_equal.
      * rewrite flat_map_concat_map, map_map, (map_ext_in _ (fun b => b)); [now rewrite map_id|].
        intros b Hb. apply enc_dec_block; [eapply Forall_forall in HF; eauto|].
        change (256 ^ Z.of_nat 8) with (2 ^ 64). pose proof (Hno b Hb).
        eapply Forall_forall in HF; [|exact Hb]. destruct HF as (_ & _ & _ & Hle & _). lia.
      * destruct HL as [[-> ->]|[HL _]]; [reflexivity|].
        assert (Hd : dec_block m last <> []).
        { destruct HL as (Hmm & _). intros H0. pose proof (be_digits_length 256 m (blkval last)) as H1.
          unfold dec_block in H0. rewrite H0 in H1. cbn in H1. lia. }
        destruct (dec_block m last) as [|x t] eqn:Ed; [congruence|].
        cbn [flat_map]. rewrite app_nil_r, <- Ed. apply enc_dec_block; [assumption|].
        destruct HL as (_ & _ & _ & _ & HL). now apply HL.
    + apply bytes_ok_app. split; [|apply be_digits_ok; lia].
      apply Forall_forall. intros y Hy. apply in_flat_map in Hy as (b & _ & Hy).
      pose proof (be_digits_ok 256 8 (blkval b) ltac:(lia)) as Hb.
      eapply Forall_forall in Hb; [exact Hb|exact Hy].
Qed.

Lemma hex_digit_char d : 0 <= d < 16 -> hex_digit (hex_char d) = Ok d.
Proof.
  intros H. unfold hex_char, hex_digit. destruct (d <? 10) eqn:E.
  - destruct ((48 <=? 48 + d) && (48 + d <=? 57)) eqn:E2; [f_equal; lia|lia].
  - destruct ((48 <=? 87 + d) && (87 + d <=? 57)) eqn:E2; [lia|].
    destruct ((97 <=? 87 + d) && (87 + d <=? 102)) eqn:E3; [f_equal; lia|lia].
Qed.
Lemma hexToBin_hexlify bs : bytes_ok bs -> hexToBin (hexlify bs) = Ok bs.
Proof.
  induction 1 as [|b bs Hb HB IH]; [reflexivity|].
  unfold byte_ok in Hb. cbn [hexlify flat_map app hexToBin].
  rewrite !hex_digit_char by lia. cbn [bind]. unfold hexlify in IH. rewrite IH. cbn [bind].
  f_equal. f_equal. lia.
Qed.

Lemma b58_hex_round_trip bs : bytes_ok bs ->
  exists s, b58encode_hex (hexlify bs) = Ok s /\ b58decode_str s = Ok bs.
Proof.
  intros HB. unfold b58encode_hex. rewrite hexToBin_hexlify by assumption. cbn [bind].
  destruct bs as [|b bs]; [exists []; split; reflexivity|].
  exists (spec_encode (b :: bs)). split; [now apply encode_refines|].
  apply decode_encode; [assumption|congruence].
Qed.

Lemma b58_canonical s bs : b58decode_bin s = Ok bs ->
  b58encode_bin bs = Ok s \/ exists blk, In blk (chunks 11 s) /\ block_spells_2_64 blk.
Proof.
  destruct s as [|c s]; [discriminate|]. intros H. unfold b58decode_bin in H.
  destruct (encode_decode (c :: s) bs) as [H1|H1]; [congruence|exact H| |right; exact H1].
  left. destruct bs; [cbn in H1; congruence|exact H1].
Qed.

Lemma b58_injective s1 s2 bs :
  b58decode_bin s1 = Ok bs -> b58decode_bin s2 = Ok bs ->
  (forall blk, In blk (chunks 11 s1 ++ chunks 11 s2) -> ~ block_spells_2_64 blk) -> s1 = s2.
Proof.
  intros H1 H2 HN. apply b58_canonical in H1, H2.
  destruct H1 as [H1|(b & Hb & Hs)]; [|exfalso; eapply HN; [apply in_or_app; left; exact Hb|exact Hs]].
  destruct H2 as [H2|(b & Hb & Hs)]; [|exfalso; eapply HN; [apply in_or_app; right; exact Hb|exact Hs]].
  congruence.
Qed.

Lemma chunks_enc_length bs : length (spec_encode bs) = (length bs / 8 * 11 + enc_size (length bs mod 8))%nat.
Proof.
  destruct (blocks_decomp 8 bs ltac:(lia)) as (bl & last & E & HF & HL).
  unfold spec_encode. rewrite E, chunks_concat by (auto; lia). rewrite flat_map_app, !app_length, (concat_length 8 bl HF).
  rewrite Nat.add_comm with (n := (length bl * 8)%nat), Nat.div_add, Nat.mod_add by lia.
  rewrite Nat.div_small, Nat.mod_small by lia.
  rewrite (flat_map_length_const _ 11).
  2:{ intros b Hb. rewrite enc_block_length. eapply Forall_forall in HF; [|exact Hb]. rewrite HF. reflexivity. }
  destruct last; cbn [flat_map]; [cbn; lia|]. rewrite app_nil_r, enc_block_length. lia.
Qed.

Lemma b58_round_trip bs : bytes_ok bs -> bs <> [] ->
  exists s, b58encode_bin bs = Ok s /\ s = spec_encode bs /\ b58decode_bin s = Ok bs /\
    length s = (length bs / 8 * 11 + enc_size (length bs mod 8))%nat.
Proof.
  intros HB Hne. exists (spec_encode bs). split; [|split; [|split]].
  - destruct bs; [congruence|]. exact (encode_refines _ HB).
  - reflexivity.
  - pose proof (decode_encode bs HB Hne) as H. unfold b58decode_bin.
    destruct (spec_encode bs); [cbn in H; congruence|exact H].
  - apply chunks_enc_length.
Qed.
