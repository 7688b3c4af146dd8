From Verif Require Import Py PyLemmas B58Mnr_model Mnemonic_words Mnemonic_model Crc_spec.

Lemma crc_poly_val : crc_poly = 3988292384.
Proof. vm_compute. reflexivity. Qed.
Lemma crc_bits_shift : forall k c b, 0 <= b < 2 ^ Z.of_nat k ->
  crc_bits k (Z.lxor c b) = fold_left crc_shift (map (fun i => Z.testbit b (Z.of_nat i)) (seq 0 k)) c.
Proof.
  induction k as [|k IH]; intros c b Hb.
  - change (2 ^ Z.of_nat 0) with 1 in Hb. replace b with 0 by lia. rewrite Z.lxor_0_r. reflexivity.
  - cbn [crc_bits seq map fold_left].
    assert (Hh : 0 <= b / 2 < 2 ^ Z.of_nat k).
    { rewrite Nat2Z.inj_succ, Z.pow_succ_r in Hb by lia. split; [apply Z.div_pos; lia|apply Z.div_lt_upper_bound; lia]. }
    assert (Eo : Z.odd (Z.lxor c b) = xorb (Z.odd c) (Z.testbit b 0)).
    { rewrite <- !Z.bit0_odd. apply Z.lxor_spec. }
    rewrite Eo, Z.shiftr_lxor. rewrite <- (Z.div2_spec c), <- (Z.div2_spec b), !Z.div2_div.
    change (Z.of_nat 0) with 0. unfold crc_shift at 2. rewrite crc_poly_val.
    set (t := if xorb (Z.odd c) (Z.testbit b 0) then 3988292384 else 0).
    rewrite (Z.lxor_assoc (c / 2)), (Z.lxor_comm (b / 2)), <- Z.lxor_assoc. rewrite IH by exact Hh.
    f_equal. rewrite <- (seq_shift k 0), map_map. apply map_ext. intros i.
    rewrite Nat2Z.inj_succ. rewrite <- Z.div2_div, Z.div2_spec, Z.shiftr_spec by lia. reflexivity.
Qed.
Lemma bits8 b : map (fun i => Z.testbit b (Z.of_nat i)) (seq 0 8) = map (Z.testbit b) [0; 1; 2; 3; 4; 5; 6; 7].
Proof. cbn [seq map]. reflexivity. Qed.
Lemma crc_byte c b : byte_ok b -> crc_bits 8 (Z.lxor c b) = fold_left crc_shift (map (Z.testbit b) [0; 1; 2; 3; 4; 5; 6; 7]) c.
Proof. intros Hb. rewrite <- bits8. apply crc_bits_shift. unfold byte_ok in Hb. change (2 ^ Z.of_nat 8) with 256. lia. Qed.
Lemma message_bits_cons b m : message_bits (b :: m) = map (Z.testbit b) [0; 1; 2; 3; 4; 5; 6; 7] ++ message_bits m.
Proof. reflexivity. Qed.
Lemma crc_all (f : Z -> Z -> Z) :
  (forall c b, byte_ok b -> f c b = fold_left crc_shift (map (Z.testbit b) [0; 1; 2; 3; 4; 5; 6; 7]) c) ->
  forall m c, bytes_ok m -> fold_left f m c = fold_left crc_shift (message_bits m) c.
Proof.
  intros Hf. induction m as [|b m IH]; intros c H; [reflexivity|]. inversion H as [|? ? Hb Hm]; subst.
  rewrite message_bits_cons, fold_left_app, <- (Hf c b Hb). exact (IH (f c b) Hm).
Qed.
Lemma crc_ok m : bytes_ok m -> crc32 m = crc_standard m.
Proof. intros H. unfold crc32, crc_standard. rewrite (crc_all _ crc_byte m _ H). reflexivity. Qed.

Lemma words_bytes : Forall bytes_ok words.
Proof.
  assert (H : forallb bytes_okb words = true) by (vm_compute; reflexivity).
  rewrite forallb_forall in H. apply Forall_forall. intros w Hw. specialize (H w Hw).
  apply bytes_okb_spec, H.
Qed.
Lemma words_of_in : forall idx message out ws, Forall (fun w => In w words) out ->
  foldM (fun out i =>
      let word := py_slice message (8 * i) (8 * i + 8) in
      let* x := int16 word in
      let w1 := x mod zlen words in
      let w2 := (x / zlen words + w1) mod zlen words in
      let w3 := (x / zlen words / zlen words + w2) mod zlen words in
      let* a := word_at words w1 in let* b := word_at words w2 in let* c := word_at words w3 in
      Ok (out ++ [a; b; c])) idx out = Ok ws -> Forall (fun w => In w words) ws.
Proof.
  assert (G : forall i w, word_at words i = Ok w -> In w words).
  { intros i w H. unfold word_at in H. unfold py_get in H. destruct (py_idx _ _) as [k|]; [|discriminate].
    destruct (nth_error words k) as [w'|] eqn:E; [|discriminate]. apply nth_error_In in E. congruence. }
  induction idx as [|i idx IH]; intros message out ws Ho H; cbn [foldM] in H.
  - match type of H with Ok ?a = Ok ?b => assert (X : a = b) by congruence end. subst ws. exact Ho.
  - apply bind_ok_inv in H. destruct H as (o & H1 & H). eapply IH; [|exact H].
    cbv zeta in H1. apply bind_ok_inv in H1. destruct H1 as (x & _ & H1). apply bind_ok_inv in H1. destruct H1 as (a & A & H1).
    apply bind_ok_inv in H1. destruct H1 as (b & B & H1). apply bind_ok_inv in H1. destruct H1 as (c & C & H1).
    match type of H1 with Ok ?a = Ok ?b => assert (X : a = b) by congruence end. subst o.
    apply Forall_app. split; [exact Ho|]. apply G in A, B, C. apply Forall_forall. intros w Iw. cbn [In] in Iw. clear - A B C Iw. intuition congruence.
Qed.
Lemma trim3 w : trim w = firstn 3 w.
Proof.
  unfold trim. destruct (Z.ltb_spec 3 (zlen w)) as [H|H].
  - unfold py_upto, py_clamp. change (3 <? 0) with false. cbv beta iota zeta. change (3 <? 0) with false. cbv beta iota zeta.
    destruct (Z.ltb_spec (zlen w) 3); [lia|]. reflexivity.
  - symmetry. apply firstn_all2. unfold zlen in H. lia.
Qed.
Lemma checksum_ok ws i : Forall (fun w => In w words) ws -> checksum_create ws = Ok i ->
  ws <> [] /\ i = crc_standard (concat (map (firstn 3) ws)) mod Z.of_nat (length ws).
Proof.
  intros Hw H. unfold checksum_create in H. destruct (zlen ws =? 0) eqn:E; [discriminate|].
  split; [intros ->; discriminate E|].
  match type of H with Ok ?a = Ok ?b => assert (X : a = b) by congruence end. subst i.
  unfold zlen. f_equal. rewrite crc_ok.
  - f_equal. rewrite flat_map_concat_map. f_equal. apply map_ext. exact trim3.
  - rewrite flat_map_concat_map. apply Forall_concat. apply Forall_map. eapply Forall_impl; [|exact Hw].
    intros w Iw. rewrite trim3. pose proof (proj1 (Forall_forall _ _) words_bytes w Iw) as B.
    apply Forall_forall. intros b Ib. apply (proj1 (Forall_forall _ _) B).
    rewrite <- (firstn_skipn 3 w). apply in_or_app. left. exact Ib.
Qed.
