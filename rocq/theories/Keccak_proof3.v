(** Streaming: the state after any sequence of updates. *)
From Verif Require Import Py PyLemmas Keccak_model Keccak_spec Keccak_proof Keccak_proof2.

Lemma absorb_blocks_snoc n r : forall a b1 b2, length b1 = (n * r)%nat -> length b2 = r ->
  absorb_blocks (S n) r a (b1 ++ b2) = Keccak_p (xor_block (absorb_blocks n r a b1) b2).
Proof.
  induction n as [|n IH]; intros a b1 b2 H1 H2.
  - destruct b1; [|discriminate]. cbn [app absorb_blocks]. rewrite firstn_all2 by lia. reflexivity.
  - assert (L1 : (r <= length b1)%nat) by lia.
    change (absorb_blocks (S (S n)) r a (b1 ++ b2)) with
      (absorb_blocks (S n) r (Keccak_p (xor_block a (firstn r (b1 ++ b2)))) (skipn r (b1 ++ b2))).
    rewrite firstn_app, skipn_app. replace (r - length b1)%nat with 0%nat by lia.
    rewrite firstn_O, app_nil_r, skipn_O. rewrite IH by (rewrite ?skipn_length; lia). reflexivity.
Qed.
Lemma xor_block_ext a b blk : beq a b -> beq (xor_block a blk) (xor_block b blk).
Proof. intros H x y z Hx Hy Hz. unfold xor_block. rewrite (H x y z) by assumption. reflexivity. Qed.

(** what a sponge that was fed m looks like *)
Definition fed (rate : Z) (s : sponge) (m : list Z) : Prop :=
  sp_rate s = rate /\ wf (sp_state s) /\ bytes_ok (sp_buf s) /\
  exists n blk, m = blk ++ sp_buf s /\ length blk = (n * Z.to_nat rate)%nat /\
    beq (abs (sp_state s)) (absorb_blocks n (Z.to_nat (8 * rate)) bzero (bits_of blk)).

Lemma absorb_block_ok rate s m blk rest : 0 < rate <= 200 -> fed rate s m -> sp_buf s = blk ++ rest -> zlen blk = rate ->
  exists s', absorb_block s blk = Ok s' /\
    fed rate {| sp_rate := sp_rate s'; sp_state := sp_state s'; sp_buf := rest |} m /\ sp_rate s' = rate.
Proof.
  intros Hr (Er & W & Bb & n & b0 & -> & Ln & Hb) E L. rewrite E in *.
  apply bytes_ok_app in Bb. destruct Bb as [Bb1 Bb2].
  destruct (st_absorb_ok rate (sp_state s) blk W Bb1 L ltac:(lia)) as (A' & E1 & W1 & X).
  unfold absorb_block. rewrite Er, E1. cbn [bind]. eexists. split; [reflexivity|]. cbn [sp_rate sp_state sp_buf].
  split; [|reflexivity]. unfold fed; cbn [sp_rate sp_state sp_buf].
  split; [reflexivity|]. split; [apply keccak_f_wf, W1|]. split; [exact Bb2|].
  exists (S n), (b0 ++ blk). split; [rewrite app_assoc; reflexivity|].
  assert (L' : length blk = Z.to_nat rate) by (unfold zlen in L; lia).
  split; [rewrite app_length, Ln, L'; cbn [Nat.mul]; lia|].
  rewrite bits_of_app. rewrite absorb_blocks_snoc by (rewrite bits_of_length, ?Ln, ?L'; lia).
  apply keccak_f_bits; [exact W1|]. apply X, Hb.
Qed.

Lemma absorb_loop_ok rate m : 0 < rate <= 200 -> forall fuel s, fed rate s m -> (length (sp_buf s) < fuel)%nat ->
  exists s', absorb_loop fuel s = Ok s' /\ fed rate s' m /\ zlen (sp_buf s') < rate.
Proof.
  intros Hr. induction fuel as [|fuel IH]; intros s F L; [lia|].
  assert (Er := F). destruct Er as [Er _]. cbn [absorb_loop]. rewrite Er.
  destruct (rate <=? zlen (sp_buf s)) eqn:C.
  - apply Z.leb_le in C.
    pose proof (py_upto_from (sp_buf s) rate) as S.
    assert (L1 : zlen (py_upto (sp_buf s) rate) = rate).
    { unfold py_upto, py_clamp, zlen in *. replace (rate <? 0) with false by lia.
      replace (rate <? 0) with false by lia. replace (Z.of_nat (length (sp_buf s)) <? rate) with false by lia.
      rewrite firstn_length. lia. }
    destruct (absorb_block_ok rate s m _ _ Hr F (eq_sym S) L1) as (s' & E & F' & Er').
    rewrite E. cbn [bind]. apply IH; [exact F'|]. cbn [sp_buf].
    assert (LL : (length (py_upto (sp_buf s) rate) + length (py_from (sp_buf s) rate))%nat = length (sp_buf s))
      by (rewrite <- app_length, S; reflexivity).
    unfold zlen in L1. lia.
  - apply Z.leb_gt in C. exists s. split; [reflexivity|]. split; [exact F|exact C].
Qed.

Lemma sp_absorb_ok rate s m d : 0 < rate <= 200 -> fed rate s m -> bytes_ok d ->
  exists s', sp_absorb s d = Ok s' /\ fed rate s' (m ++ d) /\ zlen (sp_buf s') < rate.
Proof.
  intros Hr F Hd. unfold sp_absorb. apply absorb_loop_ok; [exact Hr| |cbn [sp_buf]; lia].
  destruct F as (Er & W & Bb & n & b0 & -> & Ln & Hb). unfold fed; cbn [sp_rate sp_state sp_buf].
  split; [exact Er|]. split; [exact W|]. split; [apply bytes_ok_app; split; assumption|].
  exists n, b0. split; [rewrite app_assoc; reflexivity|]. split; assumption.
Qed.

Lemma absorb_blocks_more n r : forall a b rest, length b = (n * r)%nat -> absorb_blocks n r a (b ++ rest) = absorb_blocks n r a b.
Proof.
  induction n as [|n IH]; intros a b rest H; [reflexivity|].
  cbn [absorb_blocks]. rewrite firstn_app, skipn_app. replace (r - length b)%nat with 0%nat by lia.
  rewrite firstn_O, app_nil_r, skipn_O. apply IH. rewrite skipn_length. lia.
Qed.

Lemma pad_length used align : 0 <= used < align -> zlen (multirate_padding used align) = align - used /\ bytes_ok (multirate_padding used align).
Proof.
  intros H. unfold multirate_padding. replace (align - used =? 0) with false by lia.
  destruct (align - used =? 1) eqn:E.
  - split; [apply Z.eqb_eq in E; rewrite E; reflexivity|]. repeat constructor; lia.
  - split.
    + unfold zlen. rewrite !app_length, repeat_length. cbn [length]. lia.
    + apply bytes_ok_app. split; [repeat constructor; lia|]. apply bytes_ok_app. split.
      * apply Forall_forall. intros v Hv. apply repeat_spec in Hv. subst. split; lia.
      * repeat constructor; lia.
Qed.

Lemma final_ok rate s m : 0 < rate <= 200 -> fed rate s m -> zlen (sp_buf s) < rate ->
  exists s', absorb_final s = Ok s' /\ sp_rate s' = rate /\ wf (sp_state s') /\ beq (abs (sp_state s')) (absorbed (8 * rate) m).
Proof.
  intros Hr F L.
  destruct F as (Er & W & Bb & n & b0 & -> & Ln & Hb).
  pose proof (zlen_nonneg (sp_buf s)) as N.
  destruct (pad_length (zlen (sp_buf s)) rate ltac:(lia)) as [PL PB].
  set (P := multirate_padding (zlen (sp_buf s)) rate) in *.
  assert (L1 : zlen (sp_buf s ++ P) = rate) by (rewrite zlen_app, PL; lia).
  destruct (st_absorb_ok rate (sp_state s) (sp_buf s ++ P) W ltac:(apply bytes_ok_app; split; assumption) L1 ltac:(lia))
    as (A' & E1 & W1 & X).
  unfold absorb_final, absorb_block. rewrite Er. fold P. rewrite E1. cbn [bind].
  eexists. split; [reflexivity|]. cbn [sp_rate sp_state]. split; [reflexivity|]. split; [apply keccak_f_wf, W1|].
  assert (EP : pad101 (8 * rate) (bits_of (b0 ++ sp_buf s)) = bits_of b0 ++ bits_of (sp_buf s ++ P)).
  { rewrite <- pad_bits by lia.
    replace (zlen (b0 ++ sp_buf s) mod rate) with (zlen (sp_buf s)).
    - fold P. rewrite !bits_of_app, app_assoc. reflexivity.
    - apply Z.mod_unique_pos with (q := Z.of_nat n); [lia|]. rewrite zlen_app. unfold zlen at 1. rewrite Ln. lia. }
  unfold absorbed. rewrite EP.
  assert (L2 : length (bits_of (sp_buf s ++ P)) = Z.to_nat (8 * rate)) by (rewrite bits_of_length; unfold zlen in L1; lia).
  assert (L3 : length (bits_of b0) = (n * Z.to_nat (8 * rate))%nat) by (rewrite bits_of_length, Ln; lia).
  replace (Z.to_nat (zlen (bits_of b0 ++ bits_of (sp_buf s ++ P)) / (8 * rate))) with (S n).
  - rewrite absorb_blocks_snoc by assumption. apply keccak_f_bits; [exact W1|]. apply X, Hb.
  - rewrite zlen_app. unfold zlen. rewrite L2, L3.
    replace (Z.of_nat (n * Z.to_nat (8 * rate)) + Z.of_nat (Z.to_nat (8 * rate))) with (Z.of_nat (S n) * (8 * rate)) by nia.
    rewrite Z.div_mul by lia. lia.
Qed.

(** hashers *)
Definition kfed (rate out : Z) (h : khash) (m : list Z) : Prop :=
  kh_rate h = rate /\ kh_out h = out /\ fed rate (kh_sponge h) m /\ zlen (sp_buf (kh_sponge h)) < rate.

Lemma kh_new_fed rate out : 0 < rate -> kfed rate out (kh_new rate out) [].
Proof.
  intros Hr. unfold kfed, kh_new; cbn [kh_rate kh_out kh_sponge sp_buf].
  split; [reflexivity|]. split; [reflexivity|]. split; [|cbn; lia].
  unfold fed; cbn [sp_rate sp_state sp_buf]. split; [reflexivity|]. split; [apply zero_wf|]. split; [constructor|].
  exists 0%nat, []. split; [reflexivity|]. split; [reflexivity|]. apply zero_bits.
Qed.
Lemma kh_update_fed rate out h m d : 0 < rate <= 200 -> kfed rate out h m -> bytes_ok d ->
  exists h', kh_update h d = Ok h' /\ kfed rate out h' (m ++ d).
Proof.
  intros Hr (E1 & E2 & F & _) Hd. destruct (sp_absorb_ok rate _ m d Hr F Hd) as (s' & E & F' & L).
  unfold kh_update. rewrite E. cbn [bind]. eexists. split; [reflexivity|].
  unfold kfed; cbn [kh_rate kh_out kh_sponge]. auto.
Qed.
Lemma kh_digest_fed rate out h m : 0 < rate <= 200 -> 0 <= out <= rate -> kfed rate out h m ->
  exists d, kh_digest h = Ok (h, d) /\ is_keccak rate out m d.
Proof.
  intros Hr Ho (E1 & E2 & F & L). destruct (final_ok rate _ m Hr F L) as (s' & E & Er & W & B).
  unfold kh_digest. rewrite E. cbn [bind]. unfold sp_squeeze, squeeze_once. rewrite E2.
  set (o := st_squeeze (sp_rate s') (sp_state s')).
  assert (Lo : zlen o = rate).
  { unfold o, st_squeeze, zlen. rewrite firstn_length. destruct (get_bytes_ok (sp_state s')) as [G _]. rewrite G. lia. }
  cbn [squeeze_loop]. rewrite Lo. replace (rate <? out) with false by lia. cbn [bind].
  eexists. split; [reflexivity|]. unfold o. rewrite Er.
  destruct (squeeze_bits (sp_state s') rate out W Ho ltac:(lia)) as (Q1 & Q2 & Q3).
  split; [exact Q1|]. split; [exact Q2|]. intros x y z Hx Hy Hz Hp. rewrite Q3 by assumption. apply B; assumption.
Qed.

(** the output is determined by the message *)
Lemma is_keccak_unique rate n m d1 d2 : n <= 200 -> is_keccak rate n m d1 -> is_keccak rate n m d2 -> d1 = d2.
Proof.
  intros Hn (L1 & B1 & K1) (L2 & B2 & K2).
  assert (EL : length d1 = length d2) by (unfold zlen in *; lia).
  apply (nth_ext _ _ 0 0 EL). intros j Hj.
  assert (C1 : byte_ok (nth j d1 0)) by (apply (proj1 (Forall_forall _ _) B1), nth_In, Hj).
  assert (C2 : byte_ok (nth j d2 0)) by (apply (proj1 (Forall_forall _ _) B2), nth_In; lia).
  apply Z.bits_inj'. intros k Hk. destruct (Z_lt_ge_dec k 8) as [G|G].
  - pose proof (bits_of_nth d1 j (Z.to_nat k) ltac:(lia)) as N1.
    pose proof (bits_of_nth d2 j (Z.to_nat k) ltac:(lia)) as N2.
    rewrite Z2Nat.id in N1, N2 by lia. rewrite <- N1, <- N2.
    assert (Hj' : (j < 200)%nat) by (unfold zlen in L1; lia).
    set (w := (j / 8)%nat). set (z := 8 * Z.of_nat (j mod 8) + k).
    assert (Ew : (w < 25)%nat) by (apply Nat.div_lt_upper_bound; lia).
    assert (Dj : j = (8 * w + j mod 8)%nat) by (apply Nat.div_mod; lia).
    pose proof (Nat.mod_upper_bound j 8 ltac:(lia)) as Mj.
    assert (Hz : 0 <= z < 64) by (unfold z; lia).
    assert (Dw : w = (5 * (w / 5) + w mod 5)%nat) by (apply Nat.div_mod; lia).
    pose proof (Nat.mod_upper_bound w 5 ltac:(lia)) as Mw.
    assert (Hy : (w / 5 < 5)%nat) by (apply Nat.div_lt_upper_bound; lia).
    assert (EP : pos (w mod 5) (w / 5) z = (8 * j + Z.to_nat k)%nat).
    { unfold pos, z. clearbody w. set (a := (w mod 5)%nat) in *. set (b := (w / 5)%nat) in *. set (c := (j mod 8)%nat) in *.
      clearbody a b c. lia. }
    rewrite <- EP. rewrite K1, K2; try assumption; try reflexivity;
      (rewrite EP; unfold zlen in *; lia).
  - rewrite !byte_high by (assumption || lia). reflexivity.
Qed.
