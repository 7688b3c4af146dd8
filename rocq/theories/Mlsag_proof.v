From Verif Require Import Py PyLemmas Digits Ints_model Protobuf_spec Ec_model Ec_spec Ec_proof Sigs_spec Sigs_proof Mlsag_model Mlsag_spec.

(** ** The ring loop *)
Section Ring.
Context {R : Type} (g : nat -> Z -> res Z) (gf : nat -> Z -> Z) (row : nat -> R) (n index : nat).
Context (Hg : forall i c, (i < n)%nat -> i <> index -> g i c = Ok (gf i c)) (Hi : (index < n)%nat).

Definition walk (a d : nat) (c : Z) : Z := fold_left (fun c j => gf j c) (seq a d) c.
Definition setrows (a d : nat) (ss : list R) : list R := fold_left (fun s j => upd s j (row j)) (seq a d) ss.

Lemma ring_phase2 : forall d i fuel c cc ss, (i + d = index)%nat -> (d <= fuel)%nat ->
  ring_loop fuel g row n index i c cc ss = Ok (walk i d c, cc, setrows i d ss).
Proof.
  induction d as [|d IH]; intros i fuel c cc ss Hd Hf.
  - assert (Eq : (i =? index)%nat = true) by (apply Nat.eqb_eq; lia). destruct fuel; cbn [ring_loop]; rewrite Eq; reflexivity.
  - destruct fuel as [|fuel]; [lia|]. cbn [ring_loop].
    assert (Eq : (i =? index)%nat = false) by (apply Nat.eqb_neq; lia). rewrite Eq, Hg by lia. cbn [bind].
    rewrite Nat.mod_small by lia.
    assert (Eq0 : (i + 1 =? 0)%nat = false) by (apply Nat.eqb_neq; lia). rewrite Eq0.
    rewrite IH by lia. rewrite Nat.add_1_r. reflexivity.
Qed.
Lemma ring_phase1 : forall d i fuel c cc ss, (i + S d = n)%nat -> (index < i)%nat -> (S d + index <= fuel)%nat ->
  ring_loop fuel g row n index i c cc ss =
  Ok (walk 0 index (walk i (S d) c), Some (walk i (S d) c), setrows 0 index (setrows i (S d) ss)).
Proof.
  induction d as [|d IH]; intros i fuel c cc ss Hd Hx Hf.
  - destruct fuel as [|fuel]; [lia|]. cbn [ring_loop].
    assert (Eq : (i =? index)%nat = false) by (apply Nat.eqb_neq; lia). rewrite Eq, Hg by lia. cbn [bind].
    rewrite Hd, Nat.mod_same by lia. cbn [Nat.eqb]. rewrite (ring_phase2 index) by lia. reflexivity.
  - destruct fuel as [|fuel]; [lia|]. cbn [ring_loop].
    assert (Eq : (i =? index)%nat = false) by (apply Nat.eqb_neq; lia). rewrite Eq, Hg by lia. cbn [bind].
    rewrite Nat.mod_small by lia.
    assert (Eq0 : (i + 1 =? 0)%nat = false) by (apply Nat.eqb_neq; lia). rewrite Eq0.
    rewrite IH by lia. rewrite Nat.add_1_r. reflexivity.
Qed.
(** the whole loop, started after the secret column with challenge [c] *)
Lemma ring_loop_all c d0 ss :
  ring_loop n g row n index ((index + 1) mod n)%nat c (if ((index + 1) mod n =? 0)%nat then Some c else d0) ss =
  Ok (walk 0 index (walk (index + 1) (n - (index + 1)) c), Some (walk (index + 1) (n - (index + 1)) c),
      setrows 0 index (setrows (index + 1) (n - (index + 1)) ss)).
Proof.
  destruct (Nat.eq_dec (index + 1) n) as [E|E].
  - rewrite E, Nat.mod_same, Nat.sub_diag by lia. cbn [Nat.eqb]. rewrite (ring_phase2 index) by lia. reflexivity.
  - rewrite Nat.mod_small by lia.
    assert (Eq0 : (index + 1 =? 0)%nat = false) by (apply Nat.eqb_neq; lia). rewrite Eq0.
    destruct (n - (index + 1))%nat as [|d] eqn:Ed; [lia|].
    rewrite (ring_phase1 d) by lia. reflexivity.
Qed.

Lemma nth_error_upd (s : list R) k (x : R) j : nth_error (upd s k x) j =
  if (j =? k)%nat then (if (k <? length s)%nat then Some x else None) else nth_error s j.
Proof.
  revert k j. induction s as [|y s IH]; intros k j.
  - cbn [upd length]. rewrite (proj2 (Nat.ltb_ge k 0)) by lia. destruct (j =? k)%nat, j, k; reflexivity.
  - destruct k as [|k], j as [|j]; cbn; try reflexivity. rewrite IH. reflexivity.
Qed.
Lemma upd_len (s : list R) k (x : R) : length (upd s k x) = length s.
Proof. revert k. induction s as [|y s IH]; intros [|k]; cbn; auto. Qed.
Lemma setrows_nth : forall d a ss j, (a + d <= length ss)%nat ->
  nth_error (setrows a d ss) j = if ((a <=? j) && (j <? a + d))%nat then Some (row j) else nth_error ss j.
Proof.
  induction d as [|d IH]; intros a ss j H.
  - unfold setrows. cbn [seq fold_left]. destruct (Nat.leb_spec a j), (Nat.ltb_spec j (a + 0)); cbn [andb]; reflexivity || lia.
  - change (setrows a (S d) ss) with (setrows (S a) d (upd ss a (row a))).
    rewrite IH by (rewrite upd_len; lia). rewrite nth_error_upd.
    destruct (Nat.leb_spec (S a) j), (Nat.ltb_spec j (S a + d)), (Nat.eqb_spec j a), (Nat.leb_spec a j), (Nat.ltb_spec j (a + S d)),
      (Nat.ltb_spec a (length ss)); cbn; subst; try reflexivity; lia.
Qed.
Lemma setrows_len d : forall a ss, length (setrows a d ss) = length ss.
Proof.
  induction d as [|d IH]; intros a ss; [reflexivity|]. change (setrows a (S d) ss) with (setrows (S a) d (upd ss a (row a))).
  rewrite IH. apply upd_len.
Qed.
(** every column ends up with its random row, the secret column with [x] *)
Definition final_rows (x : R) : list R := map (fun j => if (j =? index)%nat then x else row j) (seq 0 n).
Lemma nth_error_ext' (a b : list R) : (forall j, nth_error a j = nth_error b j) -> a = b.
Proof.
  revert b. induction a as [|x a IH]; intros [|y b] H.
  - reflexivity.
  - discriminate (H O).
  - discriminate (H O).
  - f_equal; [specialize (H O); cbn in H; congruence|]. apply IH. intros j. exact (H (S j)).
Qed.
Lemma rows_final x ss : length ss = n ->
  upd (setrows 0 index (setrows (index + 1) (n - (index + 1)) ss)) index x = final_rows x.
Proof.
  intros Hl. apply nth_error_ext'. intros j. rewrite nth_error_upd, !setrows_len.
  rewrite setrows_nth by (rewrite setrows_len; lia). rewrite setrows_nth by lia.
  unfold final_rows. destruct (Nat.lt_ge_cases j n) as [Hj|Hj].
  - rewrite (map_nth_error _ j (seq 0 n) (d := j)).
    2:{ rewrite (nth_error_nth' _ O) by (rewrite seq_length; lia). rewrite seq_nth by lia. reflexivity. }
    destruct (Nat.eqb_spec j index), (Nat.ltb_spec index (length ss)), (Nat.leb_spec 0 j), (Nat.ltb_spec j (0 + index)),
      (Nat.leb_spec (index + 1) j), (Nat.ltb_spec j (index + 1 + (n - (index + 1)))); cbn; subst; try reflexivity; lia.
  - destruct (Nat.eqb_spec j index), (Nat.leb_spec 0 j), (Nat.ltb_spec j (0 + index)),
      (Nat.leb_spec (index + 1) j), (Nat.ltb_spec j (index + 1 + (n - (index + 1)))); cbn; try lia.
    transitivity (@None R); [|symmetry]; apply nth_error_None; [lia|]. rewrite map_length, seq_length. lia.
Qed.
End Ring.

(** the verifier's walk around the ring closes *)
Lemma ring_close (f : nat -> Z -> Z) n index c0 : (index < n)%nat ->
  let cc := walk f (index + 1) (n - (index + 1)) c0 in
  f index (walk f 0 index cc) = c0 -> walk f 0 n cc = cc.
Proof.
  intros Hi cc Hc. replace n with (index + S (n - (index + 1)))%nat at 1 by lia.
  unfold walk at 1. rewrite seq_app, fold_left_app. cbn [seq fold_left plus].
  change (fold_left (fun c j => f j c) (seq 0 index) cc) with (walk f 0 index cc).
  rewrite Hc, <- (Nat.add_1_r index). reflexivity.
Qed.
Lemma walk_ext f g a d c : (forall j c, (a <= j < a + d)%nat -> f j c = g j c) -> walk f a d c = walk g a d c.
Proof.
  revert a c. induction d as [|d IH]; intros a c H; [reflexivity|].
  change (walk f (S a) d (f a c) = walk g (S a) d (g a c)). rewrite H by lia. apply IH. intros. apply H. lia.
Qed.
