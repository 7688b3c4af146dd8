(** Facts about the Python base notions of Py.v. *)
From Verif Require Import Py.

Lemma zlist_eqb_spec a b : zlist_eqb a b = true <-> a = b.
Proof.
  revert b; induction a as [|x a IH]; intros [|y b]; cbn [zlist_eqb];
    try (split; [discriminate|congruence]); [tauto|].
  rewrite andb_true_iff, Z.eqb_eq, IH. split; [intros [-> ->]; auto|intros [= -> ->]; auto].
Qed.
Lemma zlist_eqb_refl a : zlist_eqb a a = true.
Proof. apply zlist_eqb_spec; reflexivity. Qed.

Lemma zlen_app {A} (a b : list A) : zlen (a ++ b) = zlen a + zlen b.
Proof. unfold zlen. rewrite app_length. lia. Qed.
Lemma zlen_cons {A} (a : A) b : zlen (a :: b) = 1 + zlen b.
Proof. unfold zlen. cbn [length]. lia. Qed.
Lemma zlen_nil {A} : zlen (@nil A) = 0.
Proof. reflexivity. Qed.
Lemma zlen_nonneg {A} (l : list A) : 0 <= zlen l.
Proof. unfold zlen; lia. Qed.
Lemma zlen_map {A B} (f : A -> B) l : zlen (map f l) = zlen l.
Proof. unfold zlen. now rewrite map_length. Qed.

Lemma py_idx_nonneg len i : 0 <= i < len -> py_idx len i = Some (Z.to_nat i).
Proof. intros H. unfold py_idx. destruct ((0 <=? i) && (i <? len)) eqn:E; [reflexivity|lia]. Qed.

Lemma upd_length {A} (l : list A) k v : length (upd l k v) = length l.
Proof. revert k; induction l as [|h t IH]; intros [|k]; cbn; auto. Qed.

Lemma upd_app_mid {A} (l : list A) x r v : upd (l ++ x :: r) (length l) v = l ++ v :: r.
Proof. induction l as [|h t IH]; cbn; [reflexivity|now rewrite IH]. Qed.

Lemma nth_error_upd_same {A} (l : list A) k v :
  (k < length l)%nat -> nth_error (upd l k v) k = Some v.
Proof. revert k; induction l as [|h t IH]; intros [|k]; cbn; intros H; auto; try lia. apply IH; lia. Qed.

Lemma nth_error_upd_other {A} (l : list A) k j v :
  k <> j -> nth_error (upd l k v) j = nth_error l j.
Proof.
  revert k j; induction l as [|h t IH]; intros [|k] [|j]; cbn; intros H; auto; try lia.
Qed.

Lemma py_get_nonneg {A} (l : list A) i a :
  0 <= i -> nth_error l (Z.to_nat i) = Some a -> py_get l i = Ok a.
Proof.
  intros Hi Hn. assert (Hl : (Z.to_nat i < length l)%nat) by (apply nth_error_Some; congruence).
  unfold py_get. rewrite py_idx_nonneg by (unfold zlen; lia). now rewrite Hn.
Qed.

Lemma py_get_mid {A} (l : list A) x r i :
  i = zlen l -> py_get (l ++ x :: r) i = Ok x.
Proof.
  intros ->. apply py_get_nonneg; [apply zlen_nonneg|]. unfold zlen. rewrite Nat2Z.id.
  rewrite nth_error_app2 by lia. now rewrite Nat.sub_diag.
Qed.

Lemma py_set_mid {A} (l : list A) x r v i :
  i = zlen l -> py_set (l ++ x :: r) i v = Ok (l ++ v :: r).
Proof.
  intros ->. unfold py_set. rewrite py_idx_nonneg.
  - unfold zlen. rewrite Nat2Z.id, upd_app_mid. reflexivity.
  - rewrite zlen_app, zlen_cons. pose proof (zlen_nonneg l). pose proof (zlen_nonneg r). lia.
Qed.

Lemma py_get_inv {A} (l : list A) i a :
  py_get l i = Ok a -> 0 <= i -> nth_error l (Z.to_nat i) = Some a.
Proof.
  unfold py_get, py_idx. intros H Hi.
  destruct ((0 <=? i) && (i <? zlen l)) eqn:E1.
  - destruct (nth_error l (Z.to_nat i)); congruence.
  - destruct ((i <? 0) && (0 <=? i + zlen l)) eqn:E2; [lia|discriminate].
Qed.

Lemma py_slice_app {A} (l m r : list A) a b :
  a = zlen l -> b = zlen l + zlen m -> py_slice (l ++ m ++ r) a b = m.
Proof.
  intros -> ->. unfold py_slice, py_clamp.
  rewrite !zlen_app. pose proof (zlen_nonneg l). pose proof (zlen_nonneg m). pose proof (zlen_nonneg r).
  destruct (zlen l <? 0) eqn:E1; [lia|]. rewrite E1.
  destruct (zlen l + zlen m <? 0) eqn:E2; [lia|]. rewrite E2.
  destruct (_ <? zlen l) eqn:E3; [lia|].
  destruct (_ <? zlen l + zlen m) eqn:E4; [lia|].
  replace (Z.to_nat (zlen l)) with (length l) by (unfold zlen; lia).
  replace (Z.to_nat (zlen l + zlen m - zlen l)) with (length m) by (unfold zlen; lia).
  rewrite skipn_app, skipn_all, Nat.sub_diag. cbn [app skipn].
  rewrite firstn_app, firstn_all, Nat.sub_diag. cbn [firstn]. apply app_nil_r.
Qed.

Lemma py_slice_nonneg {A} (l : list A) a b :
  0 <= a -> a <= b -> b <= zlen l ->
  py_slice l a b = firstn (Z.to_nat (b - a)) (skipn (Z.to_nat a) l).
Proof.
  intros. unfold py_slice, py_clamp.
  destruct (a <? 0) eqn:E1; [lia|]. rewrite E1.
  destruct (b <? 0) eqn:E2; [lia|]. rewrite E2.
  destruct (zlen l <? a) eqn:E3; [lia|]. destruct (zlen l <? b) eqn:E4; [lia|]. reflexivity.
Qed.

Lemma py_upto_neg_app {A} (l r : list A) k :
  k = - zlen r -> 0 < zlen r -> py_upto (l ++ r) k = l.
Proof.
  intros -> Hr. unfold py_upto, py_clamp. rewrite zlen_app. pose proof (zlen_nonneg l).
  destruct (- zlen r <? 0) eqn:E1; [|lia].
  replace (- zlen r + (zlen l + zlen r)) with (zlen l) by lia.
  destruct (zlen l <? 0) eqn:E2; [lia|]. destruct (_ <? zlen l) eqn:E3; [lia|].
  replace (Z.to_nat (zlen l)) with (length l) by (unfold zlen; lia).
  rewrite firstn_app, firstn_all, Nat.sub_diag. cbn [firstn]. apply app_nil_r.
Qed.

Lemma py_from_neg_app {A} (l r : list A) k :
  k = - zlen r -> 0 < zlen r -> py_from (l ++ r) k = r.
Proof.
  intros -> Hr. unfold py_from, py_clamp. rewrite zlen_app. pose proof (zlen_nonneg l).
  destruct (- zlen r <? 0) eqn:E1; [|lia].
  replace (- zlen r + (zlen l + zlen r)) with (zlen l) by lia.
  destruct (zlen l <? 0) eqn:E2; [lia|]. destruct (_ <? zlen l) eqn:E3; [lia|].
  replace (Z.to_nat (zlen l)) with (length l) by (unfold zlen; lia).
  rewrite skipn_app, skipn_all, Nat.sub_diag. reflexivity.
Qed.

Lemma py_upto_app {A} (l r : list A) k : k = zlen l -> py_upto (l ++ r) k = l.
Proof.
  intros ->. unfold py_upto, py_clamp. rewrite zlen_app.
  pose proof (zlen_nonneg l). pose proof (zlen_nonneg r).
  destruct (zlen l <? 0) eqn:E1; [lia|]. rewrite E1. destruct (_ <? zlen l) eqn:E3; [lia|].
  replace (Z.to_nat (zlen l)) with (length l) by (unfold zlen; lia).
  rewrite firstn_app, firstn_all, Nat.sub_diag. cbn [firstn]. apply app_nil_r.
Qed.

Lemma py_from_app {A} (l r : list A) k : k = zlen l -> py_from (l ++ r) k = r.
Proof.
  intros ->. unfold py_from, py_clamp. rewrite zlen_app.
  pose proof (zlen_nonneg l). pose proof (zlen_nonneg r).
  destruct (zlen l <? 0) eqn:E1; [lia|]. rewrite E1. destruct (_ <? zlen l) eqn:E3; [lia|].
  replace (Z.to_nat (zlen l)) with (length l) by (unfold zlen; lia).
  rewrite skipn_app, skipn_all, Nat.sub_diag. reflexivity.
Qed.

Lemma py_upto_from {A} (l : list A) k : py_upto l k ++ py_from l k = l.
Proof. apply firstn_skipn. Qed.

Lemma py_index_from_inv l x k i :
  py_index_from l x k = Ok i -> k <= i /\ nth_error l (Z.to_nat (i - k)) = Some x.
Proof.
  revert k; induction l as [|h t IH]; intros k; cbn [py_index_from]; [discriminate|].
  destruct (h =? x) eqn:E.
  - intros [= ->]. apply Z.eqb_eq in E as ->. rewrite Z.sub_diag. split; [lia|reflexivity].
  - intros H. apply IH in H as [Hk Hn]. split; [lia|].
    replace (Z.to_nat (i - k)) with (S (Z.to_nat (i - (k + 1)))) by lia. exact Hn.
Qed.
Lemma py_index_inv l x i : py_index l x = Ok i -> 0 <= i /\ nth_error l (Z.to_nat i) = Some x.
Proof. intros H. apply py_index_from_inv in H as [H1 H2]. rewrite Z.sub_0_r in H2. auto. Qed.

Lemma py_index_from_nodup l x k n :
  NoDup l -> nth_error l n = Some x -> py_index_from l x k = Ok (k + Z.of_nat n).
Proof.
  intros Hnd. revert k n; induction l as [|h t IH]; intros k [|n]; cbn [py_index_from nth_error];
    try discriminate.
  - intros [= ->]. rewrite Z.eqb_refl. f_equal; lia.
  - intros Hn. inversion Hnd as [|? ? Hni Hnd' E]; subst.
    destruct (h =? x) eqn:E.
    + apply Z.eqb_eq in E as ->. exfalso. apply Hni. eapply nth_error_In; eauto.
    + rewrite (IH Hnd' (k + 1) n Hn). f_equal. lia.
Qed.
Lemma py_index_nodup l x n : NoDup l -> nth_error l n = Some x -> py_index l x = Ok (Z.of_nat n).
Proof. intros H1 H2. unfold py_index. now rewrite (py_index_from_nodup l x 0 n H1 H2). Qed.

Lemma foldM_app {A S} (f : S -> A -> res S) l1 l2 s :
  foldM f (l1 ++ l2) s = let* s' := foldM f l1 s in foldM f l2 s'.
Proof.
  revert s; induction l1 as [|a l1 IH]; intros s; cbn [foldM app bind]; [reflexivity|].
  destruct (f s a); cbn [bind]; [apply IH|reflexivity].
Qed.

Lemma mapM_ok_length {A B} (f : A -> res B) l r : mapM f l = Ok r -> length r = length l.
Proof.
  revert r; induction l as [|a l IH]; intros r; cbn [mapM].
  - intros [= <-]; reflexivity.
  - intros H. apply bind_ok_inv in H as (b & Hb & H). apply bind_ok_inv in H as (bs & Hbs & [= <-]).
    cbn. f_equal. eauto.
Qed.

Lemma mapM_all_ok {A B} (f : A -> res B) (g : A -> B) l :
  (forall a, In a l -> f a = Ok (g a)) -> mapM f l = Ok (map g l).
Proof.
  induction l as [|a l IH]; intros H; cbn [mapM map]; [reflexivity|].
  rewrite (H a) by (left; reflexivity). cbn [bind]. rewrite IH by (intros; apply H; right; auto).
  reflexivity.
Qed.

Lemma bytes_ok_app a b : bytes_ok (a ++ b) <-> bytes_ok a /\ bytes_ok b.
Proof. apply Forall_app. Qed.
Lemma bytes_ok_cons x a : bytes_ok (x :: a) <-> byte_ok x /\ bytes_ok a.
Proof. split; [intros H; inversion H; auto|intros [H1 H2]; constructor; auto]. Qed.
Lemma bytes_ok_nil : bytes_ok [].
Proof. constructor. Qed.
Lemma bytes_ok_firstn n l : bytes_ok l -> bytes_ok (firstn n l).
Proof. intros H. rewrite <- (firstn_skipn n l) in H. apply bytes_ok_app in H. tauto. Qed.
Lemma bytes_ok_skipn n l : bytes_ok l -> bytes_ok (skipn n l).
Proof. intros H. rewrite <- (firstn_skipn n l) in H. apply bytes_ok_app in H. tauto. Qed.

Lemma zrange_S n : 0 <= n -> zrange (n + 1) = zrange n ++ [n].
Proof.
  intros H. unfold zrange. replace (Z.to_nat (n + 1)) with (S (Z.to_nat n)) by lia.
  rewrite seq_S, map_app. cbn [map]. repeat f_equal. lia.
Qed.
Lemma zrange_0 : zrange 0 = [].
Proof. reflexivity. Qed.
Lemma In_zrange n i : In i (zrange n) <-> 0 <= i < n.
Proof.
  unfold zrange. rewrite in_map_iff. split.
  - intros (k & <- & Hk). apply in_seq in Hk. lia.
  - intros H. exists (Z.to_nat i). split; [lia|]. apply in_seq. lia.
Qed.
Lemma zlen_zrange n : 0 <= n -> zlen (zrange n) = n.
Proof. intros. unfold zrange, zlen. rewrite map_length, seq_length. lia. Qed.

Lemma map_repeat' {A B} (f : A -> B) x n : map f (repeat x n) = repeat (f x) n.
Proof. induction n as [|n IH]; cbn; [reflexivity|now rewrite IH]. Qed.

Lemma firstn_S_nth {A} (l : list A) n b : nth_error l n = Some b -> firstn (S n) l = firstn n l ++ [b].
Proof.
  revert n; induction l as [|x l IH]; intros [|n]; cbn [nth_error]; try discriminate.
  - intros [= ->]. reflexivity.
  - intros H. cbn [firstn app]. f_equal. now apply IH.
Qed.

Lemma py_slice_end {A} (l m : list A) a b :
  a = zlen l -> b = zlen l + zlen m -> py_slice (l ++ m) a b = m.
Proof.
  intros Ha Hb. pose proof (py_slice_app l m [] a b Ha Hb) as H. rewrite app_nil_r in H. exact H.
Qed.

Lemma py_slice_end_over {A} (l m : list A) a b :
  a = zlen l -> zlen l + zlen m <= b -> py_slice (l ++ m) a b = m.
Proof.
  intros Ha Hb. pose proof (zlen_nonneg l). pose proof (zlen_nonneg m).
  replace (py_slice (l ++ m) a b) with (py_slice (l ++ m) a (zlen l + zlen m)).
  { now apply py_slice_end. }
  unfold py_slice. do 2 f_equal. unfold py_clamp. rewrite zlen_app.
  destruct (b <? 0) eqn:?; [lia|]. destruct (zlen l + zlen m <? 0) eqn:?; [lia|].
  destruct (b <? 0) eqn:?; [lia|].
  destruct (zlen l + zlen m <? 0) eqn:?; [lia|].
  destruct (zlen l + zlen m <? b) eqn:?; destruct (zlen l + zlen m <? zlen l + zlen m) eqn:?; lia.
Qed.
