From Verif Require Import Py PyLemmas Digits Ints_model Protobuf_spec Ec_model Ec_spec Ec_proof Sigs_model Sigs_spec Sigs_proof Mlsag_model Mlsag_spec Borromean_model Bp_model Bp_proof1 Accept_spec.

Lemma Ok_inj' {A} (x y : A) : Ok x = Ok y -> x = y.
Proof. congruence. Qed.

Section A.
Context (E : ecops) (L : ec_laws E).
Local Notation hts := (hash_to_scalar E).
Local Notation zmul := (zmul E).

Lemma in_group_sub P : in_group E P <-> sub E P.
Proof. Local Transparent sub. unfold in_group, sub. rewrite (smul_zmul E L) by discriminate. reflexivity. Local Opaque sub. Qed.

(** ** Borromean *)
Lemma double_smul n : point_double E (smul E (Hb E) (2 ^ Z.of_nat n)) = smul E (Hb E) (2 ^ Z.of_nat (S n)).
Proof.
  unfold point_double. rewrite !(smul_zmul E L) by (apply Z.pow_nonneg; lia).
  rewrite Nat2Z.inj_succ, Z.pow_succ_r by lia. lin E L.
Qed.
Lemma vr_loop_spec : forall n k Ci T r, (k = length Ci)%nat -> 
  vr_loop E n Ci (smul E (Hb E) (2 ^ Z.of_nat r)) T =
  if (k <? n)%nat then Err IndexError
  else Ok (map (fun i => padd E (nth i Ci (pid E)) (pneg E (smul E (Hb E) (2 ^ Z.of_nat (r + i))))) (seq 0 n), padd E T (psum E (firstn n Ci))).
Proof.
  induction n as [|n IH]; intros k Ci T r ->; cbn [vr_loop].
  - cbn [psum firstn fold_right]. rewrite (id_r E L). reflexivity.
  - destruct Ci as [|c Ci]; [reflexivity|]. rewrite double_smul, (IH (length Ci)) by reflexivity. cbn [length].
    change (S (length Ci) <? S n)%nat with (length Ci <? n)%nat. destruct (length Ci <? n)%nat; [reflexivity|]. cbn [bind].
    f_equal. f_equal.
    + cbn [seq map nth]. rewrite Nat.add_0_r. f_equal. rewrite <- seq_shift, map_map. apply map_ext. intros i. cbn [nth].
      rewrite Nat.add_succ_comm. reflexivity.
    + cbn [firstn psum fold_right]. fold (psum E (firstn n Ci)). unfold point_add. rewrite <- (law_assoc E L). reflexivity.
Qed.
Lemma vb_spec ee : forall P1 P2 s0 s1, 
  vb_points E P1 P2 s0 s1 ee =
  if ((length P1 <=? length P2) && (length P1 <=? length s0) && (length P1 <=? length s1))%nat then
    Ok (concat (map (fun i => encp E (padd E (smul E (Gb E) (nth i s1 0)) (smul E (nth i P2 (pid E))
       (hs E (encp E (padd E (smul E (Gb E) (nth i s0 0)) (smul E (nth i P1 (pid E)) ee))))))) (seq 0 (length P1))))
  else Err IndexError.
Proof.
  induction P1 as [|P P1 IH]; intros P2 s0 s1; [reflexivity|]. cbn [vb_points length].
  destruct P2 as [|Q P2]; [reflexivity|]. destruct s0 as [|x s0]; [cbn; rewrite andb_false_r; reflexivity|].
  destruct s1 as [|y s1]; [cbn; rewrite !andb_false_r; reflexivity|]. rewrite IH. cbn [length].
  change (S (length P1) <=? S (length P2))%nat with (length P1 <=? length P2)%nat.
  change (S (length P1) <=? S (length s0))%nat with (length P1 <=? length s0)%nat.
  change (S (length P1) <=? S (length s1))%nat with (length P1 <=? length s1)%nat.
  destruct (_ && _)%bool; [|reflexivity]. cbn [bind]. f_equal. cbn [seq map concat nth]. rewrite <- seq_shift, map_map. reflexivity.
Qed.
Lemma range_iff C R : ver_range E (Some C) R = Ok true <-> range_valid E C R.
Proof.
  unfold ver_range, range_valid, ver_borromean.
  assert (H1 : Hb E = smul E (Hb E) (2 ^ Z.of_nat 0)).
  { rewrite (smul_zmul E L) by discriminate. symmetry. apply (zmul_1 E L). }
  rewrite H1 at 1. rewrite (vr_loop_spec _ (length (rs_Ci E R))) by reflexivity. unfold ATOMS.
  destruct (Nat.ltb_spec (length (rs_Ci E R)) 64) as [B|B].
  { cbn [bind]. split; [discriminate|]. intros (H & _). lia. }
  cbn [bind]. rewrite (law_id E L).
  rewrite vb_spec, map_length, seq_length.
  destruct (pt_eqb E (psum E (firstn 64 (rs_Ci E R))) C) eqn:EC; cbn [negb].
  - apply (law_eqb E L) in EC.
    destruct (Nat.leb_spec (length (rs_Ci E R)) 64) as [B1|B1]; cbn [andb].
    2:{ cbn [bind]. split; [discriminate|]. intros (H & _). lia. }
    assert (Len : length (rs_Ci E R) = 64%nat) by lia. rewrite Len.
    destruct (Nat.leb_spec 64 (length (rs_s0 E R))) as [B2|B2]; cbn [andb].
    2:{ cbn [bind]. split; [discriminate|]. intros (_ & H & _). lia. }
    destruct (Nat.leb_spec 64 (length (rs_s1 E R))) as [B3|B3]; cbn [andb].
    2:{ cbn [bind]. split; [discriminate|]. intros (_ & _ & H & _). lia. }
    cbn [bind]. rewrite firstn_all2 in EC by lia.
    assert (X : map (fun i => encp E (padd E (smul E (Gb E) (nth i (rs_s1 E R) 0))
        (smul E (nth i (map (fun i0 => padd E (nth i0 (rs_Ci E R) (pid E)) (pneg E (smul E (Hb E) (2 ^ Z.of_nat (0 + i0))))) (seq 0 64)) (pid E))
          (hs E (encp E (padd E (smul E (Gb E) (nth i (rs_s0 E R) 0)) (smul E (nth i (rs_Ci E R) (pid E)) (rs_ee E R)))))))) (seq 0 64) =
      map (fun i => let Ci := nth i (rs_Ci E R) (pid E) in
        let L0 := padd E (smul E (Gb E) (nth i (rs_s0 E R) 0)) (smul E Ci (rs_ee E R)) in
        let Q := padd E Ci (pneg E (smul E (Hb E) (2 ^ Z.of_nat i))) in
        encp E (padd E (smul E (Gb E) (nth i (rs_s1 E R) 0)) (smul E Q (hs E (encp E L0))))) (seq 0 64)).
    { apply map_ext_in. intros i Hi. apply in_seq in Hi. cbv zeta. do 3 f_equal.
      rewrite nth_indep with (d' := (fun i0 => padd E (nth i0 (rs_Ci E R) (pid E)) (pneg E (smul E (Hb E) (2 ^ Z.of_nat (0 + i0))))) O) by (rewrite map_length, seq_length; lia).
      rewrite (map_nth (fun i0 => padd E (nth i0 (rs_Ci E R) (pid E)) (pneg E (smul E (Hb E) (2 ^ Z.of_nat (0 + i0)))))). rewrite seq_nth by lia. reflexivity. }
    rewrite X. split.
    + intros H. assert (Y := Ok_inj' _ _ H). apply Z.eqb_eq in Y. repeat split; auto.
    + intros (_ & _ & _ & _ & H). f_equal. apply Z.eqb_eq. symmetry. exact H.
  - split; [discriminate|]. intros (Hl & _ & _ & H & _). rewrite firstn_all2 in EC by lia.
    apply (law_eqb E L) in H. congruence.
Qed.
End A.
