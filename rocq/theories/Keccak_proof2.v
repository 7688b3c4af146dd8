(** The sponge: blocks, padding, output and streaming. *)
From Verif Require Import Py PyLemmas Keccak_model Keccak_spec Keccak_proof.

(** bits of byte strings *)
Lemma bits_of_length m : length (bits_of m) = (8 * length m)%nat.
Proof.
  induction m as [|b m IH]; [reflexivity|].
  change (bits_of (b :: m)) with (map (fun k => Z.testbit b (Z.of_nat k)) (seq 0 8) ++ bits_of m).
  rewrite app_length, map_length, seq_length, IH. cbn [length]. lia.
Qed.
Lemma bits_of_app a b : bits_of (a ++ b) = bits_of a ++ bits_of b.
Proof. apply flat_map_app. Qed.
Lemma bits_of_nth m : forall j k, (k < 8)%nat -> nth (8 * j + k) (bits_of m) false = Z.testbit (nth j m 0) (Z.of_nat k).
Proof.
  induction m as [|b m IH]; intros j k Hk.
  - rewrite (nth_overflow []) by (cbn; lia). destruct (8 * j + k)%nat, j; cbn; rewrite ?Z.testbit_0_l; reflexivity.
  - change (bits_of (b :: m)) with (map (fun k => Z.testbit b (Z.of_nat k)) (seq 0 8) ++ bits_of m).
    destruct j as [|j].
    + rewrite app_nth1 by (rewrite map_length, seq_length; lia).
      replace (8 * 0 + k)%nat with k by lia. cbn [nth].
      do 8 (destruct k as [|k]; [reflexivity|]). lia.
    + rewrite app_nth2 by (rewrite map_length, seq_length; lia).
      rewrite map_length, seq_length. replace (8 * S j + k - 8)%nat with (8 * j + k)%nat by lia.
      rewrite IH by assumption. reflexivity.
Qed.
Lemma bytes2lane_cons b bs : bytes2lane (b :: bs) = Z.lor (Z.shiftl (bytes2lane bs) 8) b.
Proof. unfold bytes2lane. cbn [rev]. rewrite fold_left_app. reflexivity. Qed.
Lemma byte_high b z : byte_ok b -> 8 <= z -> Z.testbit b z = false.
Proof.
  intros [H0 H1] Hz. change 256 with (2 ^ 8) in H1. rewrite <- (Z.mod_small b (2 ^ 8)) by (split; assumption).
  apply Z.mod_pow2_bits_high. lia.
Qed.
Lemma bytes2lane_bits bs : bytes_ok bs -> forall j k, (k < 8)%nat ->
  Z.testbit (bytes2lane bs) (Z.of_nat (8 * j + k)) = Z.testbit (nth j bs 0) (Z.of_nat k).
Proof.
  induction bs as [|b bs IH]; intros Hb j k Hk.
  - rewrite (nth_overflow []) by (cbn; lia). unfold bytes2lane; cbn [rev fold_left]. rewrite !Z.testbit_0_l. reflexivity.
  - apply bytes_ok_cons in Hb. destruct Hb as [Hb Hbs]. rewrite bytes2lane_cons, Z.lor_spec.
    destruct j as [|j].
    + rewrite Z.shiftl_spec_low by lia. cbn [nth orb]. reflexivity.
    + rewrite Z.shiftl_spec_high by lia. rewrite (byte_high b) by (assumption || lia). rewrite orb_false_r.
      replace (Z.of_nat (8 * S j + k) - 8) with (Z.of_nat (8 * j + k)) by lia. apply IH; assumption.
Qed.
Lemma bytes2lane_nonneg bs : bytes_ok bs -> 0 <= bytes2lane bs.
Proof.
  induction bs as [|b bs IH]; intros H; [cbn; lia|].
  apply bytes_ok_cons in H. destruct H as [Hb Hbs]. rewrite bytes2lane_cons. apply Z.lor_nonneg.
  split; [apply Z.shiftl_nonneg, IH, Hbs|apply Hb].
Qed.
Lemma bytes2lane_lane bs : bytes_ok bs -> (length bs <= 8)%nat -> lane_ok (bytes2lane bs).
Proof.
  intros H L. apply lane_bits; [apply bytes2lane_nonneg, H|].
  intros z Hz. set (k := (Z.to_nat z mod 8)%nat). set (j := (Z.to_nat z / 8)%nat).
  assert (E : z = Z.of_nat (8 * j + k)).
  { pose proof (Nat.div_mod (Z.to_nat z) 8 ltac:(lia)). subst j k. lia. }
  assert (Hk : (k < 8)%nat) by (apply Nat.mod_upper_bound; lia).
  clearbody j k. rewrite E, bytes2lane_bits by assumption.
  rewrite nth_overflow by lia. apply Z.testbit_0_l.
Qed.
Lemma pos_split x y z : 0 <= z < 64 ->
  pos x y z = (8 * (8 * (5 * y + x) + Z.to_nat (z / 8)) + Z.to_nat (z mod 8))%nat.
Proof. intros Hz. unfold pos. lia. Qed.
Lemma slice_nth (bb : list Z) i j : (j < 8)%nat -> nth j (firstn 8 (skipn (8 * i) bb)) 0 = nth (8 * i + j) bb 0.
Proof.
  intros Hj. rewrite <- (firstn_skipn (8 * i) bb) at 2.
  destruct (Nat.le_gt_cases (8 * i) (length bb)) as [L|L].
  - rewrite app_nth2; rewrite firstn_length_le by assumption; [|lia].
    replace (8 * i + j - 8 * i)%nat with j by lia.
    generalize (skipn (8 * i) bb). intros l.
    do 8 (destruct j as [|j]; [destruct l as [|? l]; [reflexivity|]; repeat (destruct l as [|? l]; try reflexivity)|]). lia.
  - rewrite skipn_all2 by lia. rewrite firstn_nil, app_nil_r.
    rewrite (nth_overflow (firstn _ _)) by (rewrite firstn_length; lia). destruct j; reflexivity.
Qed.

(** writing lanes *)
Lemma nth_upd {A} (l : list A) k j v d : (k < length l)%nat -> nth j (upd l k v) d = if Nat.eqb j k then v else nth j l d.
Proof.
  revert k j. induction l as [|h t IH]; intros [|k] [|j] L; cbn [length] in L; try lia; try reflexivity.
  cbn [upd nth Nat.eqb]. apply IH. lia.
Qed.
Lemma wf_nth A x : wf A -> (x < 5)%nat -> length (nth x A []) = 5%nat /\ Forall lane_ok (nth x A []).
Proof.
  intros [L F] Hx. rewrite Forall_forall in F. apply F. apply nth_In. rewrite L. exact Hx.
Qed.
Lemma wf_at A x y : wf A -> (x < 5)%nat -> (y < 5)%nat -> lane_ok (at_ A x y).
Proof.
  intros H Hx Hy. destruct (wf_nth A x H Hx) as [L F]. rewrite Forall_forall in F.
  apply F. apply nth_In. rewrite L. exact Hy.
Qed.
Lemma Forall_upd {A} (P : A -> Prop) l k v : Forall P l -> P v -> Forall P (upd l k v).
Proof.
  intros H Hv. revert k. induction H as [|h t Hh Ht IH]; intros [|k]; cbn [upd]; constructor; auto.
Qed.
Lemma set_at_wf A x y v : wf A -> (x < 5)%nat -> lane_ok v -> wf (set_at A x y v).
Proof.
  intros H Hx Hv. destruct (wf_nth A x H Hx) as [L F]. destruct H as [HL HF]. unfold set_at. split.
  - rewrite upd_length. exact HL.
  - apply Forall_upd; [exact HF|]. split; [rewrite upd_length; exact L|]. apply Forall_upd; assumption.
Qed.
Lemma at_set A x y v i j : wf A -> (x < 5)%nat -> (y < 5)%nat ->
  at_ (set_at A x y v) i j = if (Nat.eqb i x && Nat.eqb j y)%bool then v else at_ A i j.
Proof.
  intros H Hx Hy. destruct (wf_nth A x H Hx) as [L F]. destruct H as [HL HF]. unfold at_, set_at.
  rewrite nth_upd by (rewrite HL; exact Hx). destruct (Nat.eqb i x) eqn:E; [|reflexivity].
  apply Nat.eqb_eq in E. subst i. rewrite nth_upd by (rewrite L; exact Hy). reflexivity.
Qed.
Definition xstep (F : nat -> Z) (A : table) (p : nat * (nat * nat)) : table :=
  let '(i, (x, y)) := p in set_at A x y (Z.lxor (at_ A x y) (F i)).
Lemma xfold_ok (F : nat -> Z) ps : (forall i, lane_ok (F i)) ->
  Forall (fun p : nat * (nat * nat) => (fst (snd p) < 5)%nat /\ (snd (snd p) < 5)%nat) ps -> NoDup (map snd ps) ->
  forall A, wf A -> wf (fold_left (xstep F) ps A) /\
    forall x y, (~ In (x, y) (map snd ps) -> at_ (fold_left (xstep F) ps A) x y = at_ A x y) /\
      (forall i, In (i, (x, y)) ps -> at_ (fold_left (xstep F) ps A) x y = Z.lxor (at_ A x y) (F i)).
Proof.
  intros HF. induction ps as [|[i [x y]] ps IH]; intros HR HN A HA.
  - cbn. split; [exact HA|]. intros x y. split; [reflexivity|intros i []].
  - apply Forall_cons_iff in HR. destruct HR as [[Hx Hy] HR]. cbn [fst snd] in Hx, Hy.
    cbn [map snd] in HN. apply NoDup_cons_iff in HN. destruct HN as [HN1 HN].
    cbn [fold_left xstep]. set (A1 := set_at A x y (Z.lxor (at_ A x y) (F i))).
    assert (H1 : wf A1) by (apply set_at_wf; [exact HA|exact Hx|apply lane_xor; [apply wf_at; assumption|apply HF]]).
    destruct (IH HR HN A1 H1) as [W P]. split; [exact W|].
    intros u v. destruct (P u v) as [P1 P2]. split.
    + intros NI. cbn [map snd In] in NI. rewrite P1 by tauto. unfold A1. rewrite at_set by assumption.
      destruct (Nat.eqb u x && Nat.eqb v y)%bool eqn:E; [|reflexivity].
      apply andb_true_iff in E. destruct E as [E1 E2]. apply Nat.eqb_eq in E1. apply Nat.eqb_eq in E2. subst. tauto.
    + intros k [E|I].
      * injection E as -> -> ->. rewrite P1 by exact HN1. unfold A1. rewrite at_set by assumption.
        rewrite !Nat.eqb_refl. reflexivity.
      * rewrite (P2 k I). unfold A1. rewrite at_set by assumption.
        destruct (Nat.eqb u x && Nat.eqb v y)%bool eqn:E; [|reflexivity].
        apply andb_true_iff in E. destruct E as [E1 E2]. apply Nat.eqb_eq in E1. apply Nat.eqb_eq in E2. subst.
        exfalso. apply HN1. apply in_map_iff. exists (k, (x, y)). split; [reflexivity|exact I].
Qed.
Lemma lane_positions : NoDup (map snd (combine (seq 0 25) lane_order)) /\
  Forall (fun p : nat * (nat * nat) => (fst (snd p) < 5)%nat /\ (snd (snd p) < 5)%nat) (combine (seq 0 25) lane_order) /\
  forall x y, (x < 5)%nat -> (y < 5)%nat -> In ((5 * y + x)%nat, (x, y)) (combine (seq 0 25) lane_order).
Proof.
  split; [|split].
  - cbn. repeat (constructor; [cbn; intuition congruence|]). constructor.
  - cbn. repeat constructor.
  - intros x y Hx Hy. revert x Hx. apply nat5; revert y Hy; apply nat5; cbn; tauto.
Qed.

(** absorbing one block *)
Lemma st_absorb_ok rate A bb : wf A -> bytes_ok bb -> zlen bb = rate -> rate <= 200 ->
  exists A', st_absorb rate A bb = Ok A' /\ wf A' /\
    forall a, beq (abs A) a -> beq (abs A') (xor_block a (bits_of bb)).
Proof.
  intros HA Hb Hl Hr. unfold st_absorb. rewrite Hl, Z.eqb_refl. cbn [negb].
  set (B := bb ++ repeat 0 (Z.to_nat (200 - rate))).
  assert (HB : bytes_ok B).
  { apply bytes_ok_app. split; [exact Hb|]. apply Forall_forall. intros v Hv. apply repeat_spec in Hv. subst. split; lia. }
  assert (Hnth : forall j, nth j B 0 = nth j bb 0).
  { intros j. unfold B. destruct (Nat.lt_ge_cases j (length bb)).
    - apply app_nth1. assumption.
    - rewrite app_nth2 by assumption. rewrite (nth_overflow bb) by assumption. apply nth_repeat. }
  assert (Hlane : forall i, lane_ok (bytes2lane (firstn 8 (skipn (8 * i) B)))).
  { intros i. apply bytes2lane_lane; [apply bytes_ok_firstn, bytes_ok_skipn, HB|]. rewrite firstn_length. lia. }
  assert (Hbit : forall x y z, 0 <= z < 64 ->
     Z.testbit (bytes2lane (firstn 8 (skipn (8 * (5 * y + x)) B))) z = nth (pos x y z) (bits_of bb) false).
  { intros x y z Hz. rewrite pos_split by assumption. rewrite bits_of_nth by lia.
    replace z with (Z.of_nat (8 * Z.to_nat (z / 8) + Z.to_nat (z mod 8))) at 1 by lia.
    rewrite bytes2lane_bits; [|apply bytes_ok_firstn, bytes_ok_skipn, HB|lia].
    rewrite slice_nth by lia. rewrite Hnth. reflexivity. }
  clearbody B. eexists. split; [reflexivity|].
  remember (fun i => bytes2lane (firstn 8 (skipn (8 * i) B))) as F eqn:EF.
  match goal with |- wf ?T /\ _ => assert (ET : T = fold_left (fun A (p : nat * (nat * nat)) =>
          let '(i, (x, y)) := p in set_at A x y (Z.lxor (at_ A x y) (F i))) (combine (seq 0 25) lane_order) A) by (subst F; reflexivity); rewrite ET; clear ET end.
  assert (HF : forall i, lane_ok (F i)) by (intros i; subst F; apply Hlane).
  assert (HFb : forall x y z, 0 <= z < 64 -> Z.testbit (F (5 * y + x)%nat) z = nth (pos x y z) (bits_of bb) false)
    by (intros x y z Hz; subst F; apply Hbit, Hz).
  clear EF Hlane Hbit Hnth HB.
  destruct lane_positions as (N & R & I).
  destruct (xfold_ok F _ HF R N A HA) as [W P].
  split; [exact W|]. intros a Ha x y z Hx Hy Hz. unfold xor_block. rewrite <- (Ha x y z Hx Hy Hz), <- HFb by assumption.
  unfold abs. change (fold_left _ (combine (seq 0 25) lane_order) A) with (fold_left (xstep F) (combine (seq 0 25) lane_order) A).
  destruct (P x y) as [_ P2]. rewrite (P2 _ (I x y Hx Hy)). apply Z.lxor_spec.
Qed.
Lemma zero_wf : wf zero_table.
Proof. split; [reflexivity|]. repeat constructor; cbn; try lia. Qed.
Lemma zero_bits : beq (abs zero_table) bzero.
Proof.
  intros i j z Hi Hj Hz. revert i Hi. apply nat5; revert j Hj; apply nat5; unfold abs, at_; cbn [nth zero_table repeat];
  apply Z.testbit_0_l.
Qed.

(** padding *)
Lemma pad_bits rate m : 0 < rate -> bits_of (m ++ multirate_padding (zlen m mod rate) rate) = pad101 (8 * rate) (bits_of m).
Proof.
  intros Hr. rewrite bits_of_app. unfold pad101. f_equal.
  assert (E : zlen (bits_of m) = 8 * zlen m) by (unfold zlen; rewrite bits_of_length; lia).
  rewrite E. unfold multirate_padding.
  pose proof (Z.mod_pos_bound (zlen m) rate Hr) as B.
  pose proof (Z.div_mod (zlen m) rate ltac:(lia)) as D.
  set (u := zlen m mod rate) in *. set (w := zlen m / rate) in *. clearbody u w.
  replace (rate - u =? 0) with false by lia.
  assert (M : (- (8 * zlen m) - 2) mod (8 * rate) = 8 * (rate - u) - 2).
  { symmetry. apply Z.mod_unique_pos with (q := - w - 1); [lia|]. rewrite D. ring. }
  rewrite M. clear M E D. destruct (rate - u =? 1) eqn:E.
  - apply Z.eqb_eq in E. rewrite E. reflexivity.
  - replace (Z.to_nat (8 * (rate - u) - 2)) with (7 + (8 * Z.to_nat (rate - u - 2) + 7))%nat by lia.
    generalize (Z.to_nat (rate - u - 2)). intros n.
    rewrite !bits_of_app. rewrite !repeat_app, <- !app_assoc.
    assert (R : bits_of (repeat 0 n) = repeat false (8 * n)).
    { induction n as [|n IH]; [reflexivity|]. cbn [repeat].
      change (bits_of (0 :: repeat 0 n)) with (repeat false 8 ++ bits_of (repeat 0 n)). rewrite IH, <- repeat_app. f_equal. lia. }
    rewrite R. reflexivity.
Qed.

(** output *)
Lemma lane2bytes_bytes v : bytes_ok (lane2bytes v).
Proof.
  apply Forall_forall. intros b Hb. apply in_map_iff in Hb. destruct Hb as (i & <- & _).
  change 255 with (Z.ones 8). rewrite Z.land_ones by lia. apply Z.mod_pos_bound. reflexivity.
Qed.
Lemma lane2bytes_nth v j k : (j < 8)%nat -> (k < 8)%nat ->
  Z.testbit (nth j (lane2bytes v) 0) (Z.of_nat k) = Z.testbit v (Z.of_nat (8 * j + k)).
Proof.
  intros Hj Hk. assert (E : nth j (lane2bytes v) 0 = Z.land (Z.shiftr v (8 * Z.of_nat j)) 255).
  { do 8 (destruct j as [|j]; [reflexivity|]). lia. }
  rewrite E. change 255 with (Z.ones 8). rewrite Z.land_spec, Z.ones_spec_low by lia.
  rewrite andb_true_r, Z.shiftr_spec by lia. f_equal. lia.
Qed.
Lemma get_bytes_ok A : length (get_bytes A) = 200%nat /\ bytes_ok (get_bytes A).
Proof.
  split; [reflexivity|]. apply Forall_forall. intros b Hb. apply in_flat_map in Hb. destruct Hb as (p & _ & Hb).
  revert b Hb. apply Forall_forall. apply lane2bytes_bytes.
Qed.
Lemma get_bytes_nth A x y j : (x < 5)%nat -> (y < 5)%nat -> (j < 8)%nat ->
  nth (8 * (5 * y + x) + j) (get_bytes A) 0 = nth j (lane2bytes (at_ A x y)) 0.
Proof.
  intros Hx Hy Hj. unfold get_bytes. 
  assert (G : forall l n q, nth_error l n = Some q ->
     nth (8 * n + j) (flat_map (fun p : nat * nat => lane2bytes (at_ A (fst p) (snd p))) l) 0 = nth j (lane2bytes (at_ A (fst q) (snd q))) 0).
  { induction l as [|p l IH]; intros [|n] q E; cbn [nth_error] in E; try discriminate.
    - injection E as ->. cbn [flat_map]. rewrite app_nth1 by (cbn; lia). f_equal; lia.
    - cbn [flat_map]. rewrite app_nth2 by (change (length (lane2bytes (at_ A (fst p) (snd p)))) with 8%nat; lia).
      change (length (lane2bytes (at_ A (fst p) (snd p)))) with 8%nat.
      replace (8 * S n + j - 8)%nat with (8 * n + j)%nat by lia. apply IH, E. }
  rewrite (G lane_order (5 * y + x)%nat (x, y)); [reflexivity|].
  revert x Hx. apply nat5; revert y Hy; apply nat5; reflexivity.
Qed.
Lemma squeeze_bits A rate n : wf A -> 0 <= n <= rate -> rate <= 200 ->
  let d := py_upto (st_squeeze rate A) n in
  zlen d = n /\ bytes_ok d /\
  forall x y z, (x < 5)%nat -> (y < 5)%nat -> 0 <= z < 64 -> Z.of_nat (pos x y z) < 8 * n ->
    nth (pos x y z) (bits_of d) false = abs A x y z.
Proof.
  intros HA Hn Hr. cbv zeta. destruct (get_bytes_ok A) as [GL GB].
  assert (E : py_upto (st_squeeze rate A) n = firstn (Z.to_nat n) (get_bytes A)).
  { unfold py_upto, st_squeeze, py_clamp, zlen. rewrite firstn_length, GL. rewrite firstn_firstn. f_equal.
    replace (n <? 0) with false by lia.
    replace (Z.of_nat (Nat.min (Z.to_nat rate) 200) <? n) with false by lia. rewrite ?Tauto.if_same.
    replace (n <? 0) with false by lia. lia. }
  rewrite E. split; [unfold zlen; rewrite firstn_length, GL; lia|].
  split; [apply bytes_ok_firstn, GB|].
  intros x y z Hx Hy Hz Hp. rewrite pos_split in * by assumption. rewrite bits_of_nth by lia.
  assert (F : forall i, (i < Z.to_nat n)%nat -> nth i (firstn (Z.to_nat n) (get_bytes A)) 0 = nth i (get_bytes A) 0).
  { intros i Hi. rewrite <- (firstn_skipn (Z.to_nat n) (get_bytes A)) at 2. rewrite app_nth1; [reflexivity|].
    rewrite firstn_length, GL. lia. }
  rewrite F by lia. rewrite get_bytes_nth by lia. rewrite lane2bytes_nth by lia.
  unfold abs. f_equal. lia.
Qed.
