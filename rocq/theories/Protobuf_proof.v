From Verif Require Import Py PyLemmas Digits Protobuf_model Protobuf_spec.

(** bit lemmas *)
Lemma land_127 n : Z.land n 127 = n mod 128.
Proof. change 127 with (Z.ones 7). rewrite Z.land_ones by lia. reflexivity. Qed.
Lemma land_7 n : Z.land n 7 = n mod 8.
Proof. change 7 with (Z.ones 3). rewrite Z.land_ones by lia. reflexivity. Qed.
Lemma land_1 n : Z.land n 1 = n mod 2.
Proof. change 1 with (Z.ones 1) at 1. rewrite Z.land_ones by lia. reflexivity. Qed.
Lemma shr7 n : Z.shiftr n 7 = n / 128.
Proof. rewrite Z.shiftr_div_pow2 by lia. reflexivity. Qed.
Lemma shr3 n : Z.shiftr n 3 = n / 8.
Proof. rewrite Z.shiftr_div_pow2 by lia. reflexivity. Qed.
Lemma shl3 n : Z.shiftl n 3 = n * 8.
Proof. rewrite Z.shiftl_mul_pow2 by lia. reflexivity. Qed.

Lemma testbit_small x k j : 0 <= x < 2 ^ k -> 0 <= k <= j -> Z.testbit x j = false.
Proof.
  intros Hx Hj. destruct (Z.eq_dec x 0) as [->|]; [apply Z.bits_0|].
  apply Z.bits_above_log2; [lia|]. apply Z.lt_le_trans with k; [|lia].
  apply Z.log2_lt_pow2; lia.
Qed.

Lemma lor_disjoint a b k : 0 <= k -> 0 <= b < 2 ^ k -> Z.lor (a * 2 ^ k) b = a * 2 ^ k + b.
Proof.
  intros Hk Hb.
  assert (E : Z.land (a * 2 ^ k) b = 0).
  { apply Z.bits_inj'; intros j Hj; rewrite Z.land_spec, Z.bits_0;
    destruct (Z.lt_ge_cases j k);
    [rewrite Z.mul_pow2_bits_low by lia; reflexivity
    |rewrite (testbit_small b k j) by lia; apply andb_false_r]. }
  rewrite <- Z.lxor_lor by exact E. symmetry. apply Z.add_nocarry_lxor. exact E.
Qed.

Lemma lor_128 x : 0 <= x < 128 -> Z.lor x 128 = 128 + x.
Proof.
  intros. rewrite Z.lor_comm. change 128 with (1 * 2 ^ 7). apply lor_disjoint; [lia|].
  change (2^7) with 128. lia.
Qed.

Lemma land_128_high d : 0 <= d < 128 -> Z.land (128 + d) 128 = 128.
Proof.
  intros. rewrite <- lor_128 by lia. rewrite Z.land_lor_distr_l.
  change (Z.land 128 128) with 128.
  replace (Z.land d 128) with 0; [reflexivity|].
  symmetry. apply Z.bits_inj'; intros j Hj. rewrite Z.land_spec, Z.bits_0.
  destruct (Z.lt_ge_cases j 7).
  - change 128 with (1 * 2 ^ 7). rewrite (Z.mul_pow2_bits_low 1) by lia. apply andb_false_r.
  - rewrite (testbit_small d 7) by lia. reflexivity.
Qed.
Lemma land_128_low d : 0 <= d < 128 -> Z.land d 128 = 0.
Proof.
  intros. apply Z.bits_inj'; intros j Hj. rewrite Z.land_spec, Z.bits_0.
  destruct (Z.lt_ge_cases j 7).
  - change 128 with (1 * 2 ^ 7). rewrite (Z.mul_pow2_bits_low 1) by lia. apply andb_false_r.
  - rewrite (testbit_small d 7) by lia. reflexivity.
Qed.

(** zig-zag *)
Lemma lnot_opp x : Z.lnot x = - x - 1.
Proof. unfold Z.lnot. lia. Qed.
Lemma sint_to_uint_spec n : sint_to_uint n = zigzag n.
Proof.
  unfold sint_to_uint, zigzag. rewrite Z.shiftl_mul_pow2 by lia. rewrite lnot_opp.
  destruct (n <? 0); lia.
Qed.
Lemma uint_to_sint_eq u : uint_to_sint u = if u mod 2 =? 0 then u / 2 else - (u / 2) - 1.
Proof.
  unfold uint_to_sint. rewrite land_1, Z.shiftr_div_pow2, lnot_opp by lia.
  change (2 ^ 1) with 2. reflexivity.
Qed.
Lemma zigzag_nonneg n : 0 <= zigzag n.
Proof. unfold zigzag. destruct (n <? 0) eqn:?; lia. Qed.
Lemma uint_sint n : uint_to_sint (sint_to_uint n) = n.
Proof.
  rewrite sint_to_uint_spec, uint_to_sint_eq. unfold zigzag.
  destruct (n <? 0) eqn:?; destruct (_ mod 2 =? 0) eqn:?; lia.
Qed.
Lemma sint_uint u : 0 <= u -> sint_to_uint (uint_to_sint u) = u.
Proof.
  intros. rewrite sint_to_uint_spec, uint_to_sint_eq. unfold zigzag.
  destruct (u mod 2 =? 0) eqn:?; destruct (_ <? 0) eqn:?; lia.
Qed.

(** varints *)
Lemma varint_step n : 128 <= n -> varint n = (128 + n mod 128) :: varint (n / 128).
Proof.
  intros Hn. unfold varint.
  assert (E : Z.log2 n = Z.log2 (n / 128) + 7).
  { change 128 with (2 ^ 7). rewrite <- Z.shiftr_div_pow2 by lia.
    rewrite Z.log2_shiftr by lia.
    assert (7 <= Z.log2 n) by (apply Z.log2_le_pow2; lia). lia. }
  assert (H0 : 0 <= Z.log2 (n / 128)) by apply Z.log2_nonneg.
  rewrite E. replace ((Z.log2 (n / 128) + 7) / 7) with (Z.log2 (n / 128) / 7 + 1) by lia.
  set (k := Z.log2 (n / 128) / 7).
  assert (0 <= k) by (unfold k; lia).
  replace (Z.to_nat (k + 1)) with (S (Z.to_nat k)) by lia.
  cbn [le_digits map app]. f_equal. f_equal. f_equal.
  rewrite Z.pow_add_r by lia. rewrite Z.mul_comm. change (128 ^ 1) with 128.
  rewrite Z.div_div by (try lia; apply Z.pow_pos_nonneg; lia). reflexivity.
Qed.
Lemma varint_small n : 0 <= n < 128 -> varint n = [n].
Proof.
  intros Hn. unfold varint.
  assert (Z.log2 n < 7).
  { destruct (Z.eq_dec n 0) as [->|]; [cbn; lia|]. apply Z.log2_lt_pow2; lia. }
  replace (Z.log2 n / 7) with 0 by (pose proof (Z.log2_nonneg n); lia).
  cbn [Z.to_nat le_digits map app]. rewrite Z.pow_0_r, Z.div_1_r. reflexivity.
Qed.

Lemma varint_ind (P : Z -> Prop) :
  (forall n, 0 <= n < 128 -> P n) -> (forall n, 128 <= n -> P (n / 128) -> P n) ->
  forall n, 0 <= n -> P n.
Proof.
  intros H0 H1 n Hn. revert n Hn. apply (Zlt_0_ind P).
  intros n IH Hn. destruct (Z.lt_ge_cases n 128); [auto|].
  apply H1; [lia|]. apply IH. split; [lia|]. lia.
Qed.

Ltac vind := match goal with |- forall n, 0 <= n -> @?P n => refine (varint_ind P _ _); cbv beta end.

Lemma varint_bytes n : 0 <= n -> bytes_ok (varint n).
Proof.
  revert n. vind; intros n Hn.
  - rewrite varint_small by lia. repeat constructor; unfold byte_ok; lia.
  - intros IH. rewrite varint_step by lia. constructor; [unfold byte_ok; lia|exact IH].
Qed.
Lemma varint_nonempty n : varint n <> [].
Proof. unfold varint. destruct (map _ _); discriminate. Qed.
Lemma varint_len n : (1 <= length (varint n))%nat.
Proof. pose proof (varint_nonempty n). destruct (varint n); [congruence|cbn; lia]. Qed.

(** writers: the result is the fold of the writes *)
Lemma dump_uvarint_chunks n : 0 <= n -> exists cs, concat cs = varint n /\
  forall W (wr : W -> list Z -> W) w, dump_uvarint wr w n = Ok (fold_left wr cs w).
Proof.
  intros Hn. exists (map (fun b => [b]) (varint n)). split.
  { induction (varint n) as [|b l IH]; cbn; [reflexivity|]. now rewrite IH. }
  intros W wr w. unfold dump_uvarint. destruct (n <? 0) eqn:E; [lia|]. clear E.
  assert (G : forall fuel, 0 <= n -> Z.log2 n < Z.of_nat fuel ->
     dump_uvarint_loop wr fuel w n = Ok (fold_left wr (map (fun b => [b]) (varint n)) w)).
  { revert n Hn w. vind.
    - intros n Hn w [|fuel] _ Hf; [pose proof (Z.log2_nonneg n); lia|].
      rewrite varint_small by lia. cbn [dump_uvarint_loop map fold_left].
      rewrite shr7, Z.div_small by lia. cbn [Z.eqb].
      rewrite land_127, Z.mod_small, Z.lor_0_r by lia. reflexivity.
    - intros n Hn IH w [|fuel] _ Hf; [pose proof (Z.log2_nonneg n); lia|].
      rewrite varint_step by lia. cbn [dump_uvarint_loop map fold_left].
      rewrite shr7. replace (n / 128 =? 0) with false by lia.
      rewrite land_127, lor_128 by lia.
      apply IH; [lia|].
      assert (Z.log2 (n / 128) < Z.log2 n); [|lia].
      change 128 with (2 ^ 7). rewrite <- Z.shiftr_div_pow2 by lia.
      rewrite Z.log2_shiftr by lia.
      assert (7 <= Z.log2 n) by (apply Z.log2_le_pow2; lia). lia. }
  apply G; [exact Hn|]. pose proof (Z.log2_nonneg n). lia.
Qed.

(** reading *)
Definition lims_ge (n : Z) (lims : list Z) : Prop := Forall (fun l => n <= l) lims.
Definition lims_sub (n : Z) (lims : list Z) : list Z := map (fun l => l - n) lims.

Lemma existsb_lt n lims : lims_ge n lims -> existsb (fun l => l <? n) lims = false.
Proof. induction 1; cbn; [reflexivity|]. rewrite IHForall. lia. Qed.
Lemma lims_ge_sub a b lims : lims_ge (a + b) lims -> lims_ge b (lims_sub a lims).
Proof. unfold lims_ge, lims_sub. rewrite Forall_map. apply Forall_impl. lia. Qed.
Lemma lims_ge_le a b lims : a <= b -> lims_ge b lims -> lims_ge a lims.
Proof. intros H. apply Forall_impl. lia. Qed.
Lemma lims_sub_sub a b lims : lims_sub b (lims_sub a lims) = lims_sub (a + b) lims.
Proof. unfold lims_sub. rewrite map_map. apply map_ext. lia. Qed.
Lemma lims_sub_0 lims : lims_sub 0 lims = lims.
Proof. unfold lims_sub. rewrite <- (map_id lims) at 2. apply map_ext. lia. Qed.

Lemma load_varint_gen n : 0 <= n -> forall tail lims r sh, 0 <= sh -> lims_ge (zlen (varint n)) lims ->
  load_uvarint_from (varint n ++ tail) lims r sh
  = UVal (r + n * 2 ^ sh) {| rest := tail; limits := lims_sub (zlen (varint n)) lims |}.
Proof.
  revert n. vind.
  - intros n Hn tail lims r sh Hsh Hl. rewrite varint_small in * by lia.
    cbn [app load_uvarint_from]. change (zlen [n]) with 1 in *.
    rewrite existsb_lt by assumption.
    rewrite land_128_low by lia. cbn [Z.eqb]. rewrite land_127, Z.mod_small by lia.
    rewrite Z.shiftl_mul_pow2 by lia. reflexivity.
  - intros n Hn IH tail lims r sh Hsh Hl. rewrite varint_step in * by lia.
    cbn [app load_uvarint_from]. rewrite zlen_cons in *.
    pose proof (zlen_nonneg (varint (n / 128))).
    rewrite existsb_lt by (eapply lims_ge_le; [|exact Hl]; lia).
    rewrite land_128_high by lia. cbn [Z.eqb].
    change (map (fun l => l - 1) lims) with (lims_sub 1 lims).
    rewrite IH by (try lia; apply lims_ge_sub; exact Hl).
    rewrite lims_sub_sub. f_equal.
    rewrite land_127. rewrite Z.shiftl_mul_pow2 by lia. rewrite Z.pow_add_r by lia.
    change (2 ^ 7) with 128.
    replace ((128 + n mod 128) mod 128) with (n mod 128) by lia.
    replace n with (128 * (n / 128) + n mod 128) at 3 by lia. ring.
Qed.

Lemma load_varint n tail lims : 0 <= n -> lims_ge (zlen (varint n)) lims ->
  load_uvarint {| rest := varint n ++ tail; limits := lims |}
  = UVal n {| rest := tail; limits := lims_sub (zlen (varint n)) lims |}.
Proof.
  intros. unfold load_uvarint. cbn [rest limits]. rewrite load_varint_gen by (auto; lia).
  f_equal. lia.
Qed.
Lemma load_varint_exn n tail lims : 0 <= n -> lims_ge (zlen (varint n)) lims ->
  load_uvarint_exn {| rest := varint n ++ tail; limits := lims |}
  = Ok (n, {| rest := tail; limits := lims_sub (zlen (varint n)) lims |}).
Proof. intros. unfold load_uvarint_exn. rewrite load_varint by auto. reflexivity. Qed.

Lemma readinto_app l tail lims : lims_ge (zlen l) lims ->
  readinto {| rest := l ++ tail; limits := lims |} (zlen l)
  = Ok (l, zlen l, {| rest := tail; limits := lims_sub (zlen l) lims |}).
Proof.
  intros H. unfold readinto. cbn [rest limits]. rewrite existsb_lt by exact H.
  replace (firstn (Z.to_nat (zlen l)) (l ++ tail)) with l.
  2:{ unfold zlen. rewrite Nat2Z.id, firstn_app, firstn_all, Nat.sub_diag, firstn_O, app_nil_r. reflexivity. }
  replace (skipn (Z.to_nat (zlen l)) (l ++ tail)) with tail.
  2:{ unfold zlen. rewrite Nat2Z.id, skipn_app, skipn_all, Nat.sub_diag. reflexivity. }
  replace (Z.to_nat (zlen l - zlen l)) with 0%nat by lia. cbn [repeat]. rewrite app_nil_r. reflexivity.
Qed.

Lemma load_eof_limit rst lims : load_uvarint {| rest := rst; limits := 0 :: lims |} = UEof {| rest := rst; limits := 0 :: lims |}.
Proof. unfold load_uvarint. cbn [rest limits]. destruct rst; reflexivity. Qed.
Lemma load_eof_empty lims : load_uvarint {| rest := []; limits := lims |} = UEof {| rest := []; limits := lims |}.
Proof. unfold load_uvarint. cbn [rest limits load_uvarint_from]. destruct (existsb _ _); reflexivity. Qed.

(** keys *)
Lemma key_lor tag t : Z.lor (Z.shiftl tag 3) (wire_type t) = tag * 8 + wire_type t.
Proof.
  rewrite shl3. change 8 with (2 ^ 3). apply lor_disjoint; [lia|]. destruct t; cbn; lia.
Qed.
Lemma wire_type_range t : 0 <= wire_type t < 8.
Proof. destruct t; cbn; lia. Qed.

Lemma find_field_In s tag ft rep k : NoDup (map (fun e => fst (fst e)) s) -> In (tag, ft, rep) s ->
  exists j, find_field s tag k = Some ((k + j)%nat, ft, rep) /\ nth_error s j = Some (tag, ft, rep).
Proof.
  revert k. induction s as [|[[t f] r] s IH]; cbn [In map fst find_field]; intros k Hnd Hin; [tauto|].
  inversion Hnd as [|? ? Hn Hnd']; subst.
  destruct Hin as [E|Hin].
  - inversion E; subst. rewrite Z.eqb_refl. exists O. rewrite Nat.add_0_r. auto.
  - destruct (t =? tag) eqn:E.
    + exfalso. apply Hn. replace t with tag by lia. apply (in_map (fun e => fst (fst e))) in Hin. exact Hin.
    + destruct (IH (S k) Hnd' Hin) as [j [Hj Hn']]. exists (S j). rewrite Hj. split; [|exact Hn'].
      do 3 f_equal. lia.
Qed.
Lemma find_field_notIn s tag k : ~ In tag (map (fun e => fst (fst e)) s) -> find_field s tag k = None.
Proof.
  revert k. induction s as [|[[t f] r] s IH]; cbn [In map fst find_field]; intros k H; [reflexivity|].
  destruct (t =? tag) eqn:E; [exfalso; apply H; lia|]. apply IH. tauto.
Qed.

Lemma put_notin s m tag v : ~ In tag (map (fun e => fst (fst e)) s) -> put s m tag v = m.
Proof.
  revert m. induction s as [|[[t f] r] s IH]; intros [|x m] H; cbn [put map In fst] in *; try reflexivity.
  destruct (t =? tag) eqn:E; [exfalso; apply H; lia|]. rewrite IH by tauto. reflexivity.
Qed.
Lemma store_put s m tag ft rep v j : NoDup (map (fun e => fst (fst e)) s) ->
  nth_error s j = Some (tag, ft, rep) -> length m = length s -> store m j rep v = put s m tag v.
Proof.
  unfold store. revert m j. induction s as [|[[t f] r] s IH]; intros [|x m] [|j] Hnd Hj Hl; cbn [nth_error put map fst length] in *; try discriminate.
  - inversion Hj; subst. rewrite Z.eqb_refl. cbn [upd nth].
    inversion Hnd; subst. now rewrite put_notin.
  - inversion Hnd as [|? ? Hn Hnd']; subst.
    destruct (t =? tag) eqn:E.
    { exfalso. apply Hn. apply nth_error_In in Hj. apply (in_map (fun e => fst (fst e))) in Hj.
      cbn [fst] in Hj. replace t with tag by lia. exact Hj. }
    cbn [upd nth]. f_equal. apply IH; auto.
Qed.
Lemma put_length s m tag v : length (put s m tag v) = length m.
Proof. revert m. induction s as [|[[t f] r] s IH]; intros [|x m]; cbn [put length]; auto. Qed.

(** induction over values *)
Lemma value_ind' (P : value -> Prop) :
  (forall n, P (VInt n)) -> (forall b, P (VBool b)) -> (forall l, P (VBytes l)) -> (forall l, P (VStr l)) ->
  (forall fs, Forall (Forall P) fs -> P (VMsg fs)) -> forall v, P v.
Proof.
  intros H1 H2 H3 H4 H5.
  fix IH 1. intros [n|b|l|l|fs]; [apply H1|apply H2|apply H3|apply H4|].
  apply H5. induction fs as [|f fs IHf]; constructor; [|exact IHf].
  induction f as [|v f IHv]; constructor; [apply IH|exact IHv].
Qed.

Lemma wire_msg fs s : wire (VMsg fs) (TMsg s) = varint (zlen (message_bytes fs s)) ++ message_bytes fs s.
Proof.
  reflexivity.
Qed.

Lemma dump_value_msg W (wr : W -> list Z -> W) w fs s :
  dump_value (VMsg fs) (TMsg s) wr w =
  (let* size := dump_message count_write s fs 0 in
   let* w := dump_uvarint wr w size in dump_message wr s fs w).
Proof.
  assert (G : forall fs s (W : Type) (wr : W -> list Z -> W) (w : W),
    (fix dump_fields (fs : message) (s : schema) (W : Type) (wr : W -> list Z -> W) (w : W) {struct fs} : res W :=
           match fs, s with
           | f :: fs, (ftag, ft, _) :: s =>
               let fkey := Z.lor (Z.shiftl ftag 3) (wire_type ft) in
               let* w := (fix each (vs : list value) (w : W) {struct vs} : res W :=
                  match vs with
                  | [] => Ok w
                  | v :: vs =>
                      let* w := dump_uvarint wr w fkey in
                      let* w := dump_value v ft wr w in
                      each vs w
                  end) f w in
               dump_fields fs s W wr w
           | [], [] => Ok w
           | _, _ => Err TypeError
           end) fs s W wr w = dump_message wr s fs w).
  { clear. intros fs. induction fs as [|f fs IH]; intros [|[[tag ft] r] s] W wr w; try reflexivity.
    cbn [dump_message].
    match goal with |- bind ?a _ = bind ?b _ => replace a with b end.
    2:{ clear IH. revert w. induction f as [|v f IHf]; intros w; [reflexivity|].
        cbn [dump_each]. destruct (dump_uvarint wr w _) as [w1|]; [|reflexivity]. cbn [bind].
        destruct (dump_value v ft wr w1); [|reflexivity]. cbn [bind]. apply IHf. }
    destruct (dump_each _ _ _ _ _); [|reflexivity]. cbn [bind]. apply IH. }
  cbn [dump_value]. rewrite G. destruct (dump_message count_write s fs 0); [|reflexivity]. cbn [bind].
  destruct (dump_uvarint wr w a); [|reflexivity]. cbn [bind]. apply G.
Qed.

Lemma fold_bytes cs w : fold_left bytes_write cs w = w ++ concat cs.
Proof. revert w. induction cs as [|c cs IH]; intros w; cbn; [now rewrite app_nil_r|]. rewrite IH. unfold bytes_write. now rewrite app_assoc. Qed.
Lemma fold_count cs w : fold_left count_write cs w = w + zlen (concat cs).
Proof. revert w. induction cs as [|c cs IH]; intros w; cbn [fold_left concat]; [change (zlen (@nil Z)) with 0; lia|]. rewrite IH. unfold count_write. rewrite zlen_app. lia. Qed.

Section Proof.
  Variable utf8_ok : list Z -> bool.

  (** *** writing produces the wire bytes, with any writer *)
  Definition writes (f : forall W, (W -> list Z -> W) -> W -> res W) (bs : list Z) : Prop :=
    exists cs, concat cs = bs /\ forall W wr w, f W wr w = Ok (fold_left wr cs w).

  Lemma writes_bind f g b1 b2 : writes f b1 -> writes g b2 ->
    writes (fun W wr w => let* w := f W wr w in g W wr w) (b1 ++ b2).
  Proof.
    intros (c1 & E1 & H1) (c2 & E2 & H2). exists (c1 ++ c2). rewrite concat_app, E1, E2.
    split; [reflexivity|]. intros. rewrite H1. cbn [bind]. rewrite H2, fold_left_app. reflexivity.
  Qed.
  Lemma writes_ext f g b : (forall W wr w, f W wr w = g W wr w) -> writes g b -> writes f b.
  Proof. intros H (c & E & Hc). exists c. split; [exact E|]. intros. now rewrite H, Hc. Qed.
  Lemma writes_uvarint n : 0 <= n -> writes (fun W wr w => dump_uvarint wr w n) (varint n).
  Proof. intros. apply dump_uvarint_chunks. assumption. Qed.
  Lemma writes_buf l : writes (fun W wr w => Ok (wr w l)) l.
  Proof. exists [l]. cbn. rewrite app_nil_r. auto. Qed.
  Lemma writes_nil : writes (fun W wr w => Ok w) [].
  Proof. exists []. cbn. auto. Qed.

  Definition Pw (v : value) := forall t, has_type utf8_ok t v -> writes (fun W wr w => dump_value v t wr w) (wire v t).

  Lemma writes_each tag ft f : 0 <= tag -> Forall Pw f -> Forall (has_type utf8_ok ft) f ->
    writes (fun W wr w => dump_each wr (Z.lor (Z.shiftl tag 3) (wire_type ft)) ft f w)
           (flat_map (fun v => key_bytes tag (wire_type ft) ++ wire v ft) f).
  Proof.
    intros Htag HP HT. induction HP as [|v f Hv HP IH]; [apply writes_nil|].
    inversion HT; subst. cbn [flat_map dump_each]. rewrite <- app_assoc.
    rewrite key_lor in *. pose proof (wire_type_range ft).
    apply (writes_bind (fun W wr w => dump_uvarint wr w (tag * 8 + wire_type ft))
      (fun W wr w => let* w := dump_value v ft wr w in dump_each wr (tag * 8 + wire_type ft) ft f w)).
    { apply writes_uvarint. lia. }
    apply (writes_bind (fun W wr w => dump_value v ft wr w)
      (fun W wr w => dump_each wr (tag * 8 + wire_type ft) ft f w)); auto.
  Qed.

  Lemma writes_message fs s : tags_ok s -> Forall (Forall Pw) fs ->
    Forall2 (fun f e => (snd e = false -> (length f <= 1)%nat) /\ Forall (has_type utf8_ok (snd (fst e))) f) fs s ->
    writes (fun W wr w => dump_message wr s fs w) (message_bytes fs s).
  Proof.
    intros [_ Ht] HP HF. induction HF as [|f [[tag ft] rep] fs s [Hlen Hty] HF IH]; [apply writes_nil|].
    inversion HP; inversion Ht; subst. cbn [dump_message message_bytes fst snd] in *.
    apply (writes_bind (fun W wr w => dump_each wr (Z.lor (Z.shiftl tag 3) (wire_type ft)) ft f w)
       (fun W wr w => dump_message wr s fs w)); auto.
    apply writes_each; auto.
  Qed.

  Lemma writes_value v : Pw v.
  Proof.
    induction v as [n|b|l|l|fs HP] using value_ind'; intros t Ht; inversion Ht; subst; clear Ht.
    - cbn [wire dump_value]. apply writes_uvarint. assumption.
    - cbn [wire dump_value]. rewrite <- sint_to_uint_spec. apply writes_uvarint. rewrite sint_to_uint_spec. apply zigzag_nonneg.
    - cbn [wire dump_value]. apply writes_uvarint. destruct b; lia.
    - apply (writes_bind (fun W wr w => dump_uvarint wr w (zlen l)) (fun W wr w => Ok (wr w l))).
      + apply writes_uvarint, zlen_nonneg.
      + apply writes_buf.
    - apply (writes_bind (fun W wr w => dump_uvarint wr w (zlen l)) (fun W wr w => Ok (wr w l))).
      + apply writes_uvarint, zlen_nonneg.
      + apply writes_buf.
    - rewrite wire_msg. pose proof (writes_message fs s H0 HP H2) as HW.
      eapply writes_ext; [intros; apply dump_value_msg|].
      destruct HW as (cs & Ecs & Hcs).
      apply (writes_ext _ (fun W wr w => let* w := dump_uvarint wr w (zlen (message_bytes fs s)) in dump_message wr s fs w)).
      { intros. rewrite Hcs. cbn [bind]. rewrite fold_count, Ecs. reflexivity. }
      apply (writes_bind (fun W wr w => dump_uvarint wr w (zlen (message_bytes fs s))) (fun W wr w => dump_message wr s fs w)).
      + apply writes_uvarint, zlen_nonneg.
      + exists cs. auto.
  Qed.

  Lemma dump_bytes_wire s m : message_fits utf8_ok s m -> dump_bytes s m = Ok (message_bytes m s).
  Proof.
    intros H. inversion H; subst. unfold dump_bytes.
    destruct (writes_message m s) as (cs & E & Hcs); auto.
    { apply Forall_forall. intros f _. apply Forall_forall. intros v _. apply writes_value. }
    rewrite Hcs, fold_bytes, E. reflexivity.
  Qed.
  Lemma dump_count_wire s m : message_fits utf8_ok s m -> dump_message count_write s m 0 = Ok (zlen (message_bytes m s)).
  Proof.
    intros H. inversion H; subst.
    destruct (writes_message m s) as (cs & E & Hcs); auto.
    { apply Forall_forall. intros f _. apply Forall_forall. intros v _. apply writes_value. }
    rewrite Hcs, fold_count, E. reflexivity.
  Qed.

  (** *** reading *)
  (** reading one known field *)
  Definition Pr (v : value) := forall t, has_type utf8_ok t v ->
    forall fuel s tag rep j msg tail lims,
      0 <= tag -> find_field s tag 0 = Some (j, t, rep) ->
      let bs := key_bytes tag (wire_type t) ++ wire v t in
      (length (wire v t) <= fuel)%nat -> lims_ge (zlen bs) lims ->
      load_loop utf8_ok (S fuel) s {| rest := bs ++ tail; limits := lims |} msg
      = load_loop utf8_ok fuel s {| rest := tail; limits := lims_sub (zlen bs) lims |} (store msg j rep v).

  Lemma load_items (items : list item) : forall s fuel msg tail lims,
    tags_ok s -> length msg = length s ->
    Forall (item_ok utf8_ok s) items ->
    (forall tag ft v, In (Known tag ft v) items -> Pr v) ->
    let bs := concat (map item_bytes items) in
    (length bs < fuel)%nat -> lims_ge (zlen bs) lims ->
    exists fuel', (0 < fuel')%nat /\
    load_loop utf8_ok fuel s {| rest := bs ++ tail; limits := lims |} msg
    = load_loop utf8_ok fuel' s {| rest := tail; limits := lims_sub (zlen bs) lims |} (fold_left (receive s) items msg).
  Proof.
    induction items as [|it items IH]; intros s fuel msg tail lims Hs Hm Hok HP; cbn [map concat fold_left]; intros Hf Hl.
    { exists fuel. split; [cbn in Hf; lia|]. change (zlen (@nil Z)) with 0. rewrite lims_sub_0. reflexivity. }
    inversion Hok as [|? ? Hit Hok']; subst.
    rewrite app_length in Hf. rewrite zlen_app in Hl |- *. rewrite <- app_assoc.
    set (ib := item_bytes it) in *. set (rb := concat (map item_bytes items)) in *.
    assert (Hone : exists fuel1, (length rb < fuel1)%nat /\
       load_loop utf8_ok fuel s {| rest := ib ++ rb ++ tail; limits := lims |} msg
       = load_loop utf8_ok fuel1 s {| rest := rb ++ tail; limits := lims_sub (zlen ib) lims |} (receive s msg it)).
    { assert (Hl' : lims_ge (zlen ib) lims) by (eapply lims_ge_le; [|exact Hl]; pose proof (zlen_nonneg rb); lia).
      destruct it as [tag ft v|tag n|tag l]; cbn [item_ok item_bytes receive] in *.
      - destruct Hit as [[rep Hin] Hty]. destruct Hs as [Hnd Htag].
        destruct (find_field_In s tag ft rep 0 Hnd Hin) as [j [Hj Hnj]]. cbn [Nat.add] in Hj.
        assert (0 <= tag) by (rewrite Forall_forall in Htag; apply (Htag _ Hin)).
        destruct fuel as [|fuel]; [lia|]. exists fuel.
        assert (Hne : (1 <= length (key_bytes tag (wire_type ft)))%nat).
        { unfold key_bytes. apply varint_len. }
        assert (length ib = length (key_bytes tag (wire_type ft)) + length (wire v ft))%nat by (apply app_length).
        split.
        + pose proof (varint_nonempty 0).
          assert (1 <= length (wire v ft))%nat.
          { destruct v; cbn [wire]; rewrite ?app_length;
            match goal with |- context [varint ?x] => pose proof (varint_len x); lia end. }
          lia.
        + rewrite <- (store_put s msg tag ft rep v j) by auto.
          apply (HP tag ft v (or_introl eq_refl)); auto; lia.
      - destruct Hit as (Htag & Hn & Hnin).
        destruct fuel as [|fuel]; [lia|]. exists fuel.
        assert (Hne : (1 <= length (key_bytes tag 0))%nat).
        { unfold key_bytes. apply varint_len. }
        assert (length ib = length (key_bytes tag 0) + length (varint n))%nat by (apply app_length).
        split; [lia|].
        cbn [load_loop]. subst ib. unfold key_bytes in *. rewrite <- app_assoc. rewrite zlen_app in Hl' |- *.
        pose proof (zlen_nonneg (varint n)).
        rewrite load_varint by (first [lia|eapply lims_ge_le; [|exact Hl']; lia]).
        rewrite shr3, land_7. replace ((tag * 8 + 0) / 8) with tag by lia. replace ((tag * 8 + 0) mod 8) with 0 by lia.
        rewrite find_field_notIn by assumption. cbn [Z.eqb].
        rewrite load_varint_exn by (try lia; apply lims_ge_sub; assumption).
        cbn [bind]. rewrite lims_sub_sub. reflexivity.
      - destruct Hit as (Htag & Hnin).
        destruct fuel as [|fuel]; [lia|]. exists fuel.
        assert (Hne : (1 <= length (key_bytes tag 2))%nat).
        { unfold key_bytes. apply varint_len. }
        assert (length ib = length (key_bytes tag 2) + length (varint (zlen l) ++ l))%nat by (apply app_length).
        split; [lia|].
        cbn [load_loop]. subst ib. unfold key_bytes in *. rewrite <- !app_assoc. rewrite !zlen_app in Hl' |- *.
        pose proof (zlen_nonneg (varint (zlen l))). pose proof (zlen_nonneg l).
        rewrite load_varint by (first [lia|eapply lims_ge_le; [|exact Hl']; lia]).
        rewrite shr3, land_7. replace ((tag * 8 + 2) / 8) with tag by lia. replace ((tag * 8 + 2) mod 8) with 2 by lia.
        rewrite find_field_notIn by assumption. cbn [Z.eqb Pos.eqb].
        apply lims_ge_sub in Hl'.
        rewrite load_varint_exn by (first [lia|eapply lims_ge_le; [|exact Hl']; lia]).
        cbn [bind]. apply lims_ge_sub in Hl'. rewrite readinto_app by assumption.
        cbn [bind]. rewrite !lims_sub_sub. rewrite Z.add_assoc. reflexivity. }
    destruct Hone as (fuel1 & Hf1 & ->).
    assert (Hm' : length (receive s msg it) = length s).
    { destruct it; cbn [receive]; auto. now rewrite put_length. }
    destruct (IH s fuel1 (receive s msg it) tail (lims_sub (zlen ib) lims) Hs Hm' Hok') as (fuel' & Hf' & E).
    { intros tag ft v Hin. apply (HP tag ft v). now right. }
    { exact Hf1. }
    { apply lims_ge_sub. exact Hl. }
    exists fuel'. split; [exact Hf'|]. fold rb in E. rewrite E, lims_sub_sub. reflexivity.
  Qed.

  (** a message as a list of items *)
  Fixpoint items_of (fs : message) (s : schema) : list item :=
    match fs, s with
    | f :: fs, (tag, ft, _) :: s => map (Known tag ft) f ++ items_of fs s
    | _, _ => []
    end.
  Lemma items_of_bytes fs s : concat (map item_bytes (items_of fs s)) = message_bytes fs s.
  Proof.
    revert s. induction fs as [|f fs IH]; intros [|[[tag ft] r] s]; cbn [items_of message_bytes]; try reflexivity.
    rewrite map_app, concat_app, IH. f_equal. rewrite flat_map_concat_map, map_map. reflexivity.
  Qed.
  Lemma items_of_values fs s tag ft v : In (Known tag ft v) (items_of fs s) -> exists f, In f fs /\ In v f.
  Proof.
    revert s. induction fs as [|f fs IH]; intros [|[[tg t] r] s]; cbn [items_of]; try (intros []).
    rewrite in_app_iff, in_map_iff. intros [(v' & E & Hin)|H].
    - inversion E; subst. exists f. split; [now left|exact Hin].
    - destruct (IH s H) as (f' & H1 & H2). exists f'. split; [now right|exact H2].
  Qed.
  Lemma items_of_ok fs s S : incl s S ->
    Forall2 (fun f e => (snd e = false -> (length f <= 1)%nat) /\ Forall (has_type utf8_ok (snd (fst e))) f) fs s ->
    Forall (item_ok utf8_ok S) (items_of fs s).
  Proof.
    intros Hincl HF. induction HF as [|f [[tag ft] rep] fs s [Hl Hty] HF IH]; cbn [items_of]; [constructor|].
    apply Forall_app. split; [|apply IH; intros x Hx; apply Hincl; now right].
    apply Forall_map. cbn [fst snd] in Hty. revert Hty. apply Forall_impl. intros v Hv. cbn [item_ok].
    split; [|exact Hv]. exists rep. apply Hincl. now left.
  Qed.
  Lemma put_app s0 s m0 m tag v : ~ In tag (map (fun e => fst (fst e)) s0) -> length m0 = length s0 ->
    put (s0 ++ s) (m0 ++ m) tag v = m0 ++ put s m tag v.
  Proof.
    revert m0. induction s0 as [|[[t f] r] s0 IH]; intros [|x m0] Hn Hl; cbn [app put map In fst length] in *; try discriminate; [reflexivity|].
    destruct (t =? tag) eqn:E; [exfalso; apply Hn; lia|]. f_equal. apply IH; [tauto|lia].
  Qed.
  Lemma NoDup_mid {A} (l : list A) x r : NoDup (l ++ x :: r) -> ~ In x l /\ ~ In x r.
  Proof. intros H. apply NoDup_remove_2 in H. rewrite in_app_iff in H. tauto. Qed.

  Lemma receive_field s0 tag ft rep s m0 m f acc :
    NoDup (map (fun e => fst (fst e)) (s0 ++ (tag, ft, rep) :: s)) -> length m0 = length s0 ->
    (rep = false -> (length f <= 1)%nat /\ acc = []) ->
    fold_left (receive (s0 ++ (tag, ft, rep) :: s)) (map (Known tag ft) f) (m0 ++ acc :: m) = m0 ++ (acc ++ f) :: m.
  Proof.
    intros Hnd Hl. pose proof Hnd as Hnd'. rewrite map_app in Hnd'. cbn [map fst] in Hnd'. apply NoDup_mid in Hnd'. destruct Hnd' as [H0 H1].
    revert acc. induction f as [|v f IH]; intros acc Hr; cbn [map fold_left]; [now rewrite app_nil_r|].
    cbn [receive]. rewrite put_app by assumption. cbn [put]. rewrite Z.eqb_refl. rewrite put_notin by assumption.
    destruct rep.
    - rewrite IH by discriminate. rewrite <- app_assoc. reflexivity.
    - destruct (Hr eq_refl) as [Hlen ->]. destruct f; [|cbn in Hlen; lia]. reflexivity.
  Qed.

  Lemma receive_all fs s : forall s0 m0, NoDup (map (fun e => fst (fst e)) (s0 ++ s)) -> length m0 = length s0 ->
    Forall2 (fun f e => (snd e = false -> (length f <= 1)%nat) /\ Forall (has_type utf8_ok (snd (fst e))) f) fs s ->
    fold_left (receive (s0 ++ s)) (items_of fs s) (m0 ++ empty_msg s) = m0 ++ fs.
  Proof.
    intros s0 m0 Hnd Hl HF. revert s0 m0 Hnd Hl.
    induction HF as [|f [[tag ft] rep] fs s [Hlen Hty] HF IH]; intros s0 m0 Hnd Hl; cbn [items_of empty_msg map]; [reflexivity|].
    rewrite fold_left_app. rewrite receive_field; auto.
    change (s0 ++ (tag, ft, rep) :: s) with (s0 ++ [(tag, ft, rep)] ++ s).
    change (m0 ++ ([] ++ f) :: ?x) with (m0 ++ [f] ++ x). rewrite !app_assoc.
    fold (empty_msg s). rewrite IH.
    - rewrite <- app_assoc. reflexivity.
    - rewrite <- app_assoc. exact Hnd.
    - rewrite !app_length, Hl. reflexivity.
  Qed.

  Lemma read_value v : Pr v.
  Proof.
    induction v as [n|b|l|l|fs HP] using value_ind'; intros t Ht fuel s tag rep j msg tail lims Htag Hfind; cbv zeta;
      intros Hfuel Hl; unfold key_bytes in *; rewrite <- app_assoc; pose proof (wire_type_range t) as Hwt;
      rewrite zlen_app in Hl |- *; cbn [load_loop];
      match goal with Hl : lims_ge (_ + zlen ?w) _ |- _ => pose proof (zlen_nonneg w) end;
      (rewrite load_varint by (first [lia|eapply lims_ge_le; [|exact Hl]; lia]));
      rewrite shr3, land_7;
      (replace ((tag * 8 + wire_type t) / 8) with tag by lia); (replace ((tag * 8 + wire_type t) mod 8) with (wire_type t) by lia);
      rewrite Hfind, Z.eqb_refl; cbn [negb]; apply lims_ge_sub in Hl;
      inversion Ht; subst; clear Ht.
    - cbn [wire] in *. rewrite load_varint_exn by (assumption || lia). cbn [bind]. rewrite lims_sub_sub. reflexivity.
    - cbn [wire] in *. rewrite load_varint_exn by (try apply zigzag_nonneg; assumption). cbn [bind].
      rewrite <- !sint_to_uint_spec, uint_sint, lims_sub_sub. reflexivity.
    - cbn [wire] in *. rewrite load_varint_exn by (try assumption; destruct b; lia). cbn [bind]. rewrite lims_sub_sub.
      replace (negb ((if b then 1 else 0) =? 0)) with b by (destruct b; reflexivity). reflexivity.
    - cbn [wire] in *. rewrite zlen_app in Hl |- *. rewrite <- app_assoc. pose proof (zlen_nonneg l).
      rewrite load_varint_exn by (first [lia|eapply lims_ge_le; [|exact Hl]; lia]). cbn [bind].
      apply lims_ge_sub in Hl. rewrite readinto_app by assumption. cbn [bind]. rewrite !lims_sub_sub, Z.add_assoc. reflexivity.
    - cbn [wire] in *. rewrite zlen_app in Hl |- *. rewrite <- app_assoc. pose proof (zlen_nonneg l).
      rewrite load_varint_exn by (first [lia|eapply lims_ge_le; [|exact Hl]; lia]). cbn [bind].
      apply lims_ge_sub in Hl. rewrite readinto_app by assumption. cbn [bind]. 
      match goal with H : utf8_ok l = true |- _ => rewrite H end. cbn [bind].
      rewrite !lims_sub_sub, Z.add_assoc. reflexivity.
    - rewrite wire_msg in *. set (body := message_bytes fs s0) in *.
      rewrite zlen_app in Hl |- *. rewrite <- app_assoc. pose proof (zlen_nonneg body).
      rewrite load_varint_exn by (first [lia|eapply lims_ge_le; [|exact Hl]; lia]). cbn [bind rest limits].
      apply lims_ge_sub in Hl. rewrite lims_sub_sub in Hl |- *.
      set (L := lims_sub _ lims) in *.
      assert (Hsz : (length body < fuel)%nat).
      { rewrite app_length in Hfuel. pose proof (varint_nonempty (zlen body)). destruct (varint (zlen body)); [congruence|cbn in Hfuel; lia]. }
      destruct (load_items (items_of fs s0) s0 fuel (empty_msg s0) tail (zlen body :: L)) as (fuel' & Hf' & E).
      + assumption.
      + unfold empty_msg. apply map_length.
      + apply items_of_ok; [apply incl_refl|assumption].
      + intros tg ft v Hin. apply items_of_values in Hin. destruct Hin as (f & Hf & Hv).
        rewrite Forall_forall in HP. specialize (HP f Hf). rewrite Forall_forall in HP. apply HP. exact Hv.
      + rewrite items_of_bytes. fold body. exact Hsz.
      + rewrite items_of_bytes. fold body. constructor; [lia|exact Hl].
      + rewrite items_of_bytes in E. fold body in E. rewrite E. clear E.
        destruct fuel' as [|fuel']; [lia|].
        cbn [load_loop lims_sub map]. rewrite Z.sub_diag. rewrite load_eof_limit. cbn [bind rest limits tl].
        match goal with H : tags_ok s0 |- _ => destruct H as [Hnd _] end.
        match goal with H : Forall2 _ fs s0 |- _ => pose proof (receive_all fs s0 [] [] Hnd eq_refl H) as ER end. cbn [app] in ER. rewrite ER.
        fold (lims_sub (zlen body) L). unfold L. rewrite lims_sub_sub. rewrite Z.add_assoc. reflexivity.
  Qed.

  Lemma load_stream s items : tags_ok s -> Forall (item_ok utf8_ok s) items ->
    load_message utf8_ok s (concat (map item_bytes items)) = Ok (fold_left (receive s) items (empty_msg s)).
  Proof.
    intros Hs Hok. unfold load_message.
    destruct (load_items items s (S (length (concat (map item_bytes items)))) (empty_msg s) [] []) as (fuel' & Hf & E); auto.
    - unfold empty_msg. apply map_length.
    - intros. apply read_value.
    - constructor.
    - rewrite app_nil_r in E. rewrite E. destruct fuel' as [|fuel']; [lia|].
      cbn [load_loop lims_sub map]. rewrite load_eof_empty. reflexivity.
  Qed.

  Lemma message_round_trip s m : message_fits utf8_ok s m ->
    exists bs, dump_bytes s m = Ok bs /\ load_message utf8_ok s bs = Ok m.
  Proof.
    intros H. exists (message_bytes m s). split; [now apply dump_bytes_wire|].
    inversion H; subst. rewrite <- items_of_bytes. rewrite load_stream; [|assumption|apply items_of_ok; [apply incl_refl|assumption]].
    f_equal. match goal with H : tags_ok s |- _ => destruct H as [Hnd _] end.
    match goal with H : Forall2 _ m s |- _ => apply (receive_all m s [] [] Hnd eq_refl H) end.
  Qed.
End Proof.

(** *** the reader stops on every input *)
Lemma load_uvarint_consumes rst : forall lims r sh n rd,
  load_uvarint_from rst lims r sh = UVal n rd -> (length (rest rd) < length rst)%nat.
Proof.
  induction rst as [|b t IH]; intros lims r sh n rd; cbn [load_uvarint_from]; destruct (existsb _ _); try discriminate.
  destruct (Z.land b 128 =? 0).
  - intros E. injection E as <- <-. cbn [rest length]. lia.
  - intros E. apply IH in E. cbn [length]. lia.
Qed.
Lemma load_uvarint_eof_le rst : forall lims r sh rd,
  load_uvarint_from rst lims r sh = UEof rd -> (length (rest rd) <= length rst)%nat.
Proof.
  induction rst as [|b t IH]; intros lims r sh rd; cbn [load_uvarint_from]; destruct (existsb _ _);
    try (intros E; injection E as <-; cbn [rest length]; lia).
  destruct (Z.land b 128 =? 0); [discriminate|]. intros E. apply IH in E. cbn [length]. lia.
Qed.
Lemma readinto_le rd n b k rd' : readinto rd n = Ok (b, k, rd') -> (length (rest rd') <= length (rest rd))%nat.
Proof.
  unfold readinto. destruct (existsb _ _); [discriminate|].
  intros E. injection E as _ _ <-. cbn [rest]. rewrite skipn_length. lia.
Qed.
Lemma readinto_exn rd n e : readinto rd n = Err e -> e = EOFErr.
Proof. unfold readinto. destruct (existsb _ _); congruence. Qed.

Lemma load_loop_total u : forall fuel s rd msg, (length (rest rd) < fuel)%nat ->
  match load_loop u fuel s rd msg with
  | Ok (_, rd') => (length (rest rd') <= length (rest rd))%nat
  | Err e => e = EOFErr \/ e = ValueError \/ e = TypeError
  end.
Proof.
  induction fuel as [|fuel IH]; intros s rd msg Hf; [lia|]. cbn [load_loop].
  destruct (load_uvarint rd) as [fkey rd1|rd1] eqn:E1; unfold load_uvarint in E1.
  2:{ apply load_uvarint_eof_le in E1. exact E1. }
  apply load_uvarint_consumes in E1.
  assert (Hex : forall rd0 k, (length (rest rd0) < fuel)%nat ->
     (forall n rd2, (length (rest rd2) <= length (rest rd0))%nat -> 
        match k (n, rd2) with
        | Ok (_, rd') => (length (rest rd') <= length (rest rd))%nat
        | Err e => e = EOFErr \/ e = ValueError \/ e = TypeError end) ->
     match (let* x := load_uvarint_exn rd0 in k x : res (message * reader)) with
     | Ok (_, rd') => (length (rest rd') <= length (rest rd))%nat
     | Err e => e = EOFErr \/ e = ValueError \/ e = TypeError end).
  { intros rd0 k H0 Hk. unfold load_uvarint_exn, load_uvarint. destruct (load_uvarint_from _ _ _ _) as [n rd2|rd2] eqn:E; cbn [bind]; [|auto].
    apply load_uvarint_consumes in E. apply Hk. lia. }
  assert (Hgo : forall rd2 m, (length (rest rd2) <= length (rest rd1))%nat ->
     match load_loop u fuel s rd2 m with
     | Ok (_, rd') => (length (rest rd') <= length (rest rd))%nat
     | Err e => e = EOFErr \/ e = ValueError \/ e = TypeError end).
  { intros rd2 m H2. specialize (IH s rd2 m). destruct (load_loop u fuel s rd2 m) as [[m' rd']|e].
    - specialize (IH ltac:(lia)). lia.
    - apply IH. lia. }
  destruct (find_field s (Z.shiftr fkey 3) 0) as [[[k ft] rep]|].
  - destruct (negb _); [auto|].
    apply (Hex rd1); [lia|]. intros n rd2 H2.
    destruct ft as [| | | | |s'].
    + cbn [bind]. apply Hgo. exact H2.
    + cbn [bind]. apply Hgo. exact H2.
    + cbn [bind]. apply Hgo. exact H2.
    + destruct (readinto rd2 n) as [[[buf nr] rd3]|e] eqn:E; cbn [bind]; [|apply readinto_exn in E; auto].
      apply readinto_le in E. apply Hgo. lia.
    + destruct (readinto rd2 n) as [[[buf nr] rd3]|e] eqn:E; cbn [bind]; [|apply readinto_exn in E; auto].
      apply readinto_le in E. destruct (u buf); cbn [bind]; [|auto]. apply Hgo. lia.
    + pose proof (IH s' {| rest := rest rd2; limits := n :: limits rd2 |} (empty_msg s')) as IHn.
      cbn [rest] in IHn. specialize (IHn ltac:(lia)).
      destruct (load_loop u fuel s' _ _) as [[m' rd']|e]; cbn [bind]; [|exact IHn].
      apply Hgo. cbn [rest]. lia.
  - destruct (Z.land fkey 7 =? 0).
    + apply (Hex rd1); [lia|]. intros n rd2 H2. apply Hgo. exact H2.
    + destruct (Z.land fkey 7 =? 2); [|auto].
      apply (Hex rd1); [lia|]. intros n rd2 H2.
      destruct (readinto rd2 n) as [[[buf nr] rd3]|e] eqn:E; cbn [bind]; [|apply readinto_exn in E; auto].
      apply readinto_le in E. apply Hgo. lia.
Qed.

Lemma load_message_total u s bs :
  match load_message u s bs with
  | Ok _ => True | Err e => e = EOFErr \/ e = ValueError \/ e = TypeError end.
Proof.
  unfold load_message. pose proof (load_loop_total u (S (length bs)) s {| rest := bs; limits := [] |} (empty_msg s)) as H.
  cbn [rest] in H. specialize (H ltac:(lia)). destruct (load_loop _ _ _ _ _) as [[m rd]|e]; cbn [bind]; auto.
Qed.

(** a varint cut short *)
Lemma load_cut n : 0 <= n -> forall p q r sh, varint n = p ++ q -> q <> [] ->
  exists rd, load_uvarint_from p [] r sh = UEof rd.
Proof.
  revert n. vind.
  - intros n Hn p q r sh E Hq. rewrite varint_small in E by lia.
    destruct p as [|b [|b' p]]; cbn [app] in E; try discriminate.
    + eexists. reflexivity.
    + injection E as _ E. congruence.
  - intros n Hn IH p q r sh E Hq. rewrite varint_step in E by lia.
    destruct p as [|b p]; cbn [app] in E.
    + eexists. reflexivity.
    + assert (Hb : b = 128 + n mod 128) by congruence.
      assert (E' : varint (n / 128) = p ++ q) by congruence. subst b.
      cbn [load_uvarint_from existsb map].
      rewrite land_128_high by lia. cbn [Z.eqb]. eapply IH; eassumption.
Qed.

Lemma load_cut_value u s items tag ft n p q : tags_ok s -> Forall (item_ok u s) items ->
  (exists rep, In (tag, ft, rep) s) -> wire_type ft = 0 -> 0 <= n ->
  varint n = p ++ q -> q <> [] ->
  load_message u s (concat (map item_bytes items) ++ key_bytes tag 0 ++ p) = Err EOFErr.
Proof.
  intros Hs Hok [rep Hin] Hw Hn E Hq. unfold load_message.
  set (tail := key_bytes tag 0 ++ p).
  assert (Htag : 0 <= tag) by (destruct Hs as [_ H]; rewrite Forall_forall in H; apply (H _ Hin)).
  destruct (load_items u items s (S (length (concat (map item_bytes items) ++ tail))) (empty_msg s) tail []) as (fuel' & Hf & EL); auto.
  - unfold empty_msg. apply map_length.
  - intros. apply read_value.
  - rewrite app_length. lia.
  - constructor.
  - rewrite EL. destruct fuel' as [|fuel']; [lia|]. cbn [load_loop].
    unfold tail at 1, key_bytes. cbn [lims_sub map]. rewrite load_varint by (try lia; constructor).
    rewrite shr3, land_7. replace ((tag * 8 + 0) / 8) with tag by lia. replace ((tag * 8 + 0) mod 8) with 0 by lia.
    destruct Hs as [Hnd _]. destruct (find_field_In s tag ft rep 0 Hnd Hin) as (j & -> & _).
    rewrite Hw. cbn [Z.eqb negb lims_sub map].
    unfold load_uvarint_exn, load_uvarint. cbn [rest limits].
    destruct (load_cut n Hn p q 0 0 E Hq) as [rd ->]. reflexivity.
Qed.

Lemma dump_uvarint_bytes n : dump_uvarint bytes_write [] n = if n <? 0 then Err ValueError else Ok (varint n).
Proof.
  destruct (n <? 0) eqn:E.
  - unfold dump_uvarint. now rewrite E.
  - destruct (dump_uvarint_chunks n ltac:(lia)) as (cs & Ec & H). rewrite H, fold_bytes, Ec. reflexivity.
Qed.
Lemma dump_uvarint_count n : 0 <= n -> dump_uvarint count_write 0 n = Ok (zlen (varint n)).
Proof.
  intros Hn. destruct (dump_uvarint_chunks n Hn) as (cs & Ec & H). rewrite H, fold_count, Ec. reflexivity.
Qed.
Lemma varint_length n : 0 <= n -> zlen (varint n) = Z.log2 n / 7 + 1.
Proof.
  intros Hn. unfold varint. rewrite zlen_app, zlen_map, le_digits_zlen. pose proof (Z.log2_nonneg n).
  change (zlen [n / 128 ^ (Z.log2 n / 7)]) with 1. lia.
Qed.

Lemma wire_bytes_ok u v : forall t, has_type u t v -> bytes_ok (wire v t).
Proof.
  induction v as [n|b|l|l|fs HP] using value_ind'; intros t Ht; inversion Ht; subst; clear Ht.
  - cbn [wire]. apply varint_bytes. assumption.
  - cbn [wire]. apply varint_bytes, zigzag_nonneg.
  - cbn [wire]. apply varint_bytes. destruct b; lia.
  - cbn [wire]. apply bytes_ok_app. split; [apply varint_bytes, zlen_nonneg|assumption].
  - cbn [wire]. apply bytes_ok_app. split; [apply varint_bytes, zlen_nonneg|assumption].
  - rewrite wire_msg. apply bytes_ok_app. split; [apply varint_bytes, zlen_nonneg|].
    match goal with H : tags_ok s |- _ => destruct H as [_ Htag] end.
    match goal with H : Forall2 _ fs s |- _ => revert Htag HP; induction H as [|f [[tag ft] rep] fs s [Hl Hty] HF IH] end;
      intros Htag HP; cbn [message_bytes]; [constructor|].
    inversion HP; inversion Htag; subst. apply bytes_ok_app. split; [|apply IH; auto].
    cbn [fst snd] in *. pose proof (wire_type_range ft).
    apply Forall_forall. intros x Hx. apply in_flat_map in Hx. destruct Hx as (v & Hv & Hx).
    apply in_app_iff in Hx. destruct Hx as [Hx|Hx].
    + assert (Hb : bytes_ok (key_bytes tag (wire_type ft))) by (apply varint_bytes; lia).
      unfold bytes_ok in Hb. rewrite Forall_forall in Hb. auto.
    + match goal with H : Forall _ f |- _ => rewrite Forall_forall in H end.
      rewrite Forall_forall in Hty.
      match goal with H : forall x, In x f -> forall t, _ |- _ => specialize (H v Hv ft (Hty v Hv)); unfold bytes_ok in H; rewrite Forall_forall in H; auto end.
Qed.
Lemma message_bytes_ok u s m : message_fits u s m -> bytes_ok (message_bytes m s).
Proof. intros H. apply wire_bytes_ok in H. rewrite wire_msg in H. apply bytes_ok_app in H. tauto. Qed.
