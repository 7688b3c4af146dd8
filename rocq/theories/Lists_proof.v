From Coq Require Import Permutation Sorted.
From Verif Require Import Py PyLemmas Lists_model Lists_spec.

(** ** permutations *)
Lemma check_perm_spec p : check_permutation p = Ok tt <-> Permutation p (zrange (zlen p)).
Proof.
  assert (Hlen : length (zrange (zlen p)) = length p) by (pose proof (zlen_zrange (zlen p) (zlen_nonneg p)) as H; unfold zlen in H at 1 3; unfold zlen at 1; unfold zlen in H; lia).
  assert (HN : NoDup (zrange (zlen p))).
  { unfold zrange. apply FinFun.Injective_map_NoDup; [intros a b; lia|apply seq_NoDup]. }
  assert (G : forall l, foldM (fun (_ : unit) n => if existsb (Z.eqb n) p then Ok tt else Err ValueError) l tt = Ok tt <-> incl l p).
  { induction l as [|n l IH]; cbn [foldM]; [split; [intros _ x []|reflexivity]|].
    destruct (existsb (Z.eqb n) p) eqn:E; cbn [bind].
    - apply existsb_exists in E. destruct E as (y & Hy & Ey). replace y with n in Hy by lia.
      rewrite IH. split; intros H x; [intros [->|Hx]; [exact Hy|apply H, Hx]|intros Hx; apply H; now right].
    - split; [discriminate|]. intros H. exfalso. assert (existsb (Z.eqb n) p = true); [|congruence].
      apply existsb_exists. exists n. split; [apply H; now left|lia]. }
  unfold check_permutation. rewrite G. split.
  - intros Hincl. symmetry. apply NoDup_Permutation_bis; [exact HN|lia|exact Hincl].
  - intros HP x Hx. eapply Permutation_in; [symmetry; exact HP|exact Hx].
Qed.
Lemma check_perm_err p e : check_permutation p = Err e -> e = ValueError.
Proof.
  unfold check_permutation. generalize (zrange (zlen p)) at 1. intros l.
  induction l as [|n l IH]; cbn [foldM]; [discriminate|]. destruct (existsb _ _); cbn [bind]; [exact IH|congruence].
Qed.

Section Apply.
  Context {A : Type}.
  Variable p : list Z.
  Variable arr0 : list A.
  Hypothesis HP : Permutation p (zrange (zlen p)).
  Hypothesis Hlen : length arr0 = length p.
  Notation n := (length p).

  Definition pf (j : nat) : nat := Z.to_nat (nth j p 0).
  Lemma p_range j : (j < n)%nat -> nth j p 0 = Z.of_nat (pf j) /\ (pf j < n)%nat.
  Proof.
    intros Hj. assert (Hin : In (nth j p 0) (zrange (zlen p))) by (eapply Permutation_in; [exact HP|apply nth_In, Hj]).
    apply In_zrange in Hin. unfold pf, zlen in *. lia.
  Qed.
  Lemma p_inj j k : (j < n)%nat -> (k < n)%nat -> pf j = pf k -> j = k.
  Proof.
    intros Hj Hk E. assert (HN : NoDup p).
    { eapply Permutation_NoDup; [symmetry; exact HP|]. unfold zrange. apply FinFun.Injective_map_NoDup; [intros a b; lia|apply seq_NoDup]. }
    eapply (proj1 (NoDup_nth p 0)); eauto. destruct (p_range j Hj) as [-> _]. destruct (p_range k Hk) as [-> _]. lia.
  Qed.
  Lemma p_nth j : (j < n)%nat -> nth_error p j = Some (Z.of_nat (pf j)).
  Proof. intros Hj. rewrite (nth_error_nth' p 0 Hj). f_equal. apply p_range, Hj. Qed.

  (** processed positions D, walking from i, now at cur *)
  Record inv (D : list nat) (q : list Z) (arr : list A) : Prop := {
    inv_nd : NoDup D; inv_lt : forall j, In j D -> (j < n)%nat;
    inv_lq : length q = n; inv_la : length arr = n;
    inv_qD : forall j, In j D -> nth_error q j = Some (Z.of_nat j);
    inv_q : forall j, (j < n)%nat -> ~ In j D -> nth_error q j = Some (Z.of_nat (pf j));
    inv_aD : forall j, In j D -> nth_error arr j = nth_error arr0 (pf j)
  }.
  (** outer loop: everything outside D untouched and D closed under the inverse *)
  Definition outer D q arr : Prop := inv D q arr /\
    (forall j, (j < n)%nat -> ~ In j D -> nth_error arr j = nth_error arr0 j) /\
    (forall x, (x < n)%nat -> In (pf x) D -> In x D).
  Definition inner i cur D q arr : Prop := inv D q arr /\
    (cur < n)%nat /\ ~ In cur D /\
    (forall j, (j < n)%nat -> ~ In j D -> j <> cur -> nth_error arr j = nth_error arr0 j) /\
    nth_error arr cur = nth_error arr0 i /\
    (cur = i \/ exists y, In y D /\ pf y = cur) /\
    (forall x, (x < n)%nat -> In (pf x) D -> pf x <> i -> In x D) /\ (i < n)%nat /\ (~ In i D -> cur = i).

  Lemma get_at {B} (l : list B) j v : nth_error l j = Some v -> py_get l (Z.of_nat j) = Ok v.
  Proof. intros E. apply py_get_nonneg; [lia|]. now rewrite Nat2Z.id. Qed.
  Lemma set_at {B} (l : list B) j v : (j < length l)%nat -> py_set l (Z.of_nat j) v = Ok (upd l j v).
  Proof. intros E. unfold py_set. rewrite py_idx_nonneg by (unfold zlen; lia). now rewrite Nat2Z.id. Qed.

  Lemma NoDup_count D : NoDup D -> (forall j, In j D -> (j < n)%nat) -> (length D <= n)%nat.
  Proof.
    intros HN HL. rewrite <- (seq_length n 0). apply NoDup_incl_length; [exact HN|].
    intros x Hx. apply in_seq. specialize (HL x Hx). lia.
  Qed.

  Lemma add_inv D q arr cur a : inv D q arr -> (cur < n)%nat -> ~ In cur D ->
    nth_error arr0 (pf cur) = Some a -> inv (cur :: D) (upd q cur (Z.of_nat cur)) (upd arr cur a).
  Proof.
    intros [H1 H2 H3 H4 H5 H6 H7] Hc Hn Ha. constructor.
    - now constructor.
    - intros j [->|Hj]; auto.
    - now rewrite upd_length.
    - now rewrite upd_length.
    - intros j [->|Hj]; [apply nth_error_upd_same; lia|]. rewrite nth_error_upd_other by congruence. auto.
    - intros j Hj Hnj. rewrite nth_error_upd_other by (cbn in Hnj; intuition congruence). apply H6; [exact Hj|cbn in Hnj; tauto].
    - intros j [->|Hj]; [rewrite nth_error_upd_same by lia; congruence|]. rewrite nth_error_upd_other by congruence. auto.
  Qed.

  Lemma upd_noop {B} (l : list B) k v : nth_error l k = Some v -> upd l k v = l.
  Proof. revert k. induction l as [|x l IH]; intros [|k]; cbn [nth_error upd]; try discriminate; [congruence|]. intros E. now rewrite IH. Qed.
  Lemma upd_upd {B} (l : list B) k v w : upd (upd l k v) k w = upd l k w.
  Proof. revert k. induction l as [|x l IH]; intros [|k]; cbn [upd]; try reflexivity. now rewrite IH. Qed.

  Lemma cycle_ok fuel : forall i cur D q arr, inner i cur D q arr -> (n - length D < fuel)%nat ->
    exists cur' D' q' arr', perm_cycle swap_elems fuel (Z.of_nat i) (Z.of_nat cur) q arr = Ok (Z.of_nat cur', q', arr') /\
      inner i cur' D' q' arr' /\ pf cur' = i /\ incl D D'.
  Proof.
    induction fuel as [|fuel IH]; intros i cur D q arr HI Hf; [lia|].
    destruct HI as (Hinv & Hc & Hcd & Hoth & Hcur & Hpred & Hclos & Hi & Hstart). pose proof Hinv as [H1 H2 H3 H4 H5 H6 H7].
    cbn [perm_cycle]. rewrite (get_at q cur _ (H6 cur Hc Hcd)). cbn [bind].
    destruct (p_range cur Hc) as [_ Hpr].
    destruct (Z.of_nat i =? Z.of_nat (pf cur)) eqn:E.
    { exists cur, D, q, arr. split; [reflexivity|]. split; [repeat (split; [assumption|]); assumption|]. split; [lia|apply incl_refl]. }
    assert (Hne : pf cur <> i) by lia.
    assert (HnD : ~ In (pf cur) D) by (intros H; apply Hcd, Hclos; auto).
    assert (Hnc : pf cur <> cur).
    { intros E'. destruct Hpred as [->|(y & Hy & Ey)]; [congruence|]. apply Hcd. replace cur with y; [exact Hy|]. apply p_inj; auto; congruence. }
    destruct (nth_error arr0 (pf cur)) as [b|] eqn:Eb; [|apply nth_error_None in Eb; lia].
    destruct (nth_error arr0 i) as [a|] eqn:Ea; [|apply nth_error_None in Ea; lia].
    assert (Earr : nth_error arr (pf cur) = Some b) by (rewrite Hoth by auto; exact Eb).
    unfold swap_elems at 1. rewrite (get_at arr cur a) by exact Hcur. cbn [bind]. rewrite (get_at arr (pf cur) b) by exact Earr. cbn [bind].
    rewrite set_at by lia. cbn [bind]. rewrite set_at by (rewrite upd_length; lia). cbn [bind].
    rewrite set_at by lia. cbn [bind].
    assert (HI' : inner i (pf cur) (cur :: D) (upd q cur (Z.of_nat cur)) (upd (upd arr cur b) (pf cur) a)).
    { pose proof (add_inv D q arr cur b Hinv Hc Hcd Eb) as Hadd. split.
      - destruct Hadd as [A1 A2 A3 A4 A5 A6 A7]. constructor; auto; [now rewrite upd_length|].
        intros j Hj. rewrite nth_error_upd_other; [auto|]. intros E0; subst j. destruct Hj as [Hj|Hj]; [congruence|auto].
      - repeat split; auto.
        + intros [H|H]; [congruence|auto].
        + intros j Hj Hnj Hjc. rewrite nth_error_upd_other by congruence.
          rewrite nth_error_upd_other by (cbn in Hnj; intuition congruence). apply Hoth; cbn in Hnj; intuition congruence.
        + rewrite nth_error_upd_same by (rewrite upd_length; lia). congruence.
        + right. exists cur. split; [now left|reflexivity].
        + intros x Hx [Hx'|Hx'] Hxi; [|right; apply Hclos; auto].
          destruct Hpred as [->|(y & Hy & Ey)]; [congruence|]. right. replace x with y; [exact Hy|]. apply p_inj; auto; congruence.
        + intros Hni. exfalso. apply Hni. destruct (Nat.eq_dec cur i) as [->|Hci]; [now left|]. right.
          destruct (in_dec Nat.eq_dec i D) as [H|H]; [exact H|]. apply Hstart in H. congruence. }
    destruct (IH i (pf cur) (cur :: D) _ _ HI') as (cur' & D' & q' & arr' & E1 & E2 & E3 & E4).
    { cbn [length]. pose proof (NoDup_count (cur :: D)) as Hcnt. cbn [length] in Hcnt.
      assert (S (length D) <= n)%nat by (apply Hcnt; [now constructor|intros j [->|Hj]; auto]). lia. }
    exists cur', D', q', arr'. split; [exact E1|]. split; [exact E2|]. split; [exact E3|].
    intros x Hx. apply E4. now right.
  Qed.

  Lemma outer_step i D q arr : outer D q arr -> (i < n)%nat ->
    exists D' q' arr', 
      (let* (current, perm, s) := perm_cycle swap_elems (S n) (Z.of_nat i) (Z.of_nat i) q arr in
       let* perm := py_set perm current current in Ok (perm, s)) = Ok (q', arr') /\
      outer D' q' arr' /\ incl D D' /\ In i D'.
  Proof.
    intros (Hinv & Hoth & Hclos) Hi. pose proof Hinv as [H1 H2 H3 H4 H5 H6 H7].
    destruct (in_dec Nat.eq_dec i D) as [HiD|HiD].
    - exists D, q, arr. cbn [perm_cycle]. rewrite (get_at q i _ (H5 i HiD)). cbn [bind]. rewrite Z.eqb_refl. cbn [bind].
      rewrite set_at by lia. cbn [bind]. rewrite upd_noop by auto. split; [reflexivity|]. split; [repeat split; auto|].
      split; [apply incl_refl|exact HiD].
    - assert (HI : inner i i D q arr).
      { split; [exact Hinv|]. split; [exact Hi|]. split; [exact HiD|]. split; [intros; apply Hoth; auto|].
        split; [apply Hoth; auto|]. split; [now left|]. split; [intros x Hx Hp _; apply Hclos; auto|]. split; [exact Hi|reflexivity]. }
      destruct (cycle_ok (S n) i i D q arr HI ltac:(lia)) as (cur & D' & q' & arr' & E & HI' & Hend & Hincl).
      rewrite E. cbn [bind].
      destruct HI' as (Hinv' & Hc & Hcd & Hoth' & Hcur & Hpred & Hclos' & _ & Hstart). pose proof Hinv' as [J1 J2 J3 J4 J5 J6 J7].
      rewrite set_at by lia. cbn [bind].
      destruct (nth_error arr0 i) as [a|] eqn:Ea; [|apply nth_error_None in Ea; lia].
      exists (cur :: D'), (upd q' cur (Z.of_nat cur)), arr'. split; [reflexivity|].
      assert (Hadd : inv (cur :: D') (upd q' cur (Z.of_nat cur)) arr').
      { rewrite <- (upd_noop arr' cur a) by congruence. apply add_inv; auto. congruence. }
      split; [|split].
      + split; [exact Hadd|]. split.
        * intros j Hj Hnj. cbn in Hnj. apply Hoth'; auto; intuition congruence.
        * intros x Hx Hin. destruct (Nat.eq_dec (pf x) i) as [Ex|Ex].
          { left. apply p_inj; auto. congruence. }
          destruct Hin as [Hin|Hin]; [|right; apply Hclos'; auto].
          destruct Hpred as [Hpred|(y & Hy & Ey)]; [exfalso; congruence|].
          right. replace x with y; [exact Hy|]. apply p_inj; auto. congruence.
      + intros x Hx. right. auto.
      + destruct (Nat.eq_dec cur i) as [->|Hci]; [now left|]. right.
        destruct (in_dec Nat.eq_dec i D') as [H|H]; [exact H|]. apply Hstart in H. congruence.
  Qed.

  Lemma apply_perm_ok : exists arr', apply_permutation swap_elems p arr0 = Ok arr' /\
    length arr' = n /\ forall j, (j < n)%nat -> nth_error arr' j = nth_error arr0 (pf j).
  Proof.
    unfold apply_permutation. rewrite (proj2 (check_perm_spec p) HP). cbn [bind].
    set (f := fun '(perm, s) i => _).
    assert (G : forall k, (k <= n)%nat -> exists D q arr, foldM f (zrange (Z.of_nat k)) (p, arr0) = Ok (q, arr) /\
       outer D q arr /\ forall j, (j < k)%nat -> In j D).
    { induction k as [|k IH]; intros Hk.
      - exists [], p, arr0. split; [reflexivity|]. split; [|intros; lia].
        split; [constructor; auto; try (intros; cbn in *; tauto); [constructor|intros; now apply p_nth]|]. split; [auto|]. intros x _ [].
      - destruct (IH ltac:(lia)) as (D & q & arr & E & Ho & HD).
        replace (Z.of_nat (S k)) with (Z.of_nat k + 1) by lia. rewrite zrange_S, foldM_app by lia. rewrite E. cbn [bind foldM].
        destruct (outer_step k D q arr Ho ltac:(lia)) as (D' & q' & arr' & E' & Ho' & Hincl & Hin).
        exists D', q', arr'. unfold f. rewrite E'. cbn [bind]. split; [reflexivity|]. split; [exact Ho'|].
        intros j Hj. destruct (Nat.eq_dec j k) as [->|]; [exact Hin|]. apply Hincl, HD. lia. }
    destruct (G n (le_n _)) as (D & q & arr & E & (Hinv & _) & HD). unfold zlen. rewrite E. cbn [bind].
    exists arr. split; [reflexivity|]. destruct Hinv as [H1 H2 H3 H4 H5 H6 H7]. split; [exact H4|]. auto.
  Qed.
End Apply.

Lemma apply_permutation_spec A (p : list Z) (arr : list A) : length arr = length p ->
  match apply_permutation swap_elems p arr with
  | Ok arr' => Permutation p (zrange (zlen p)) /\ length arr' = length arr /\
               forall j, (j < length p)%nat -> nth_error arr' j = nth_error arr (Z.to_nat (nth j p 0))
  | Err e => e = ValueError /\ ~ Permutation p (zrange (zlen p))
  end.
Proof.
  intros Hl. destruct (check_permutation p) as [[]|e] eqn:E.
  - apply check_perm_spec in E. destruct (apply_perm_ok p arr E Hl) as (arr' & -> & H1 & H2).
    split; [exact E|]. split; [congruence|exact H2].
  - unfold apply_permutation. rewrite E. cbn [bind]. split; [eapply check_perm_err, E|].
    intros H. apply check_perm_spec in H. congruence.
Qed.

(** ** chunk *)
Lemma chunk_loop_spec {A} (arr : list A) size : 0 < size -> forall fuel done todo acc,
  arr = done ++ todo -> (length todo < fuel)%nat ->
  exists full last, chunk_loop fuel arr (zlen done) size acc = Ok (acc ++ full ++ [last]) /\
    concat full ++ last = todo /\ Forall (fun c => zlen c = size) full /\ zlen last < size.
Proof.
  intros Hs. induction fuel as [|fuel IH]; intros done todo acc E Hf; [lia|]. cbn [chunk_loop].
  destruct (Z_lt_le_dec (zlen todo) size) as [Hlt|Hge].
  - rewrite E. rewrite (py_slice_end_over done todo) by lia. replace (zlen todo =? size) with false by lia.
    exists [], todo. repeat split; auto.
  - set (c := firstn (Z.to_nat size) todo). set (r := skipn (Z.to_nat size) todo).
    assert (Ec : todo = c ++ r) by (symmetry; apply firstn_skipn).
    assert (Hc : zlen c = size) by (unfold c, zlen in *; rewrite firstn_length; lia).
    assert (ES : py_slice arr (zlen done) (zlen done + size) = c) by (rewrite E, Ec; apply py_slice_app; lia).
    rewrite ES, Hc, Z.eqb_refl. cbn [negb].
    destruct (IH (done ++ c) r (acc ++ [c])) as (full & last & E1 & E2 & E3 & E4).
    + rewrite <- app_assoc, <- Ec. exact E.
    + unfold r. rewrite skipn_length. unfold zlen in *. lia.
    + rewrite zlen_app, Hc in E1. rewrite E1. exists (c :: full), last. rewrite <- app_assoc. cbn [concat app]. rewrite <- app_assoc, E2.
      repeat split; auto.
Qed.
Lemma chunk_spec A (arr : list A) size : 0 < size ->
  exists full last, chunk arr size = Ok (full ++ [last]) /\ concat full ++ last = arr /\
    Forall (fun c => zlen c = size) full /\ zlen last < size.
Proof. intros Hs. apply (chunk_loop_spec arr size Hs (S (length arr)) [] arr []); [reflexivity|lia]. Qed.

(** ** offsets *)
Lemma insert_perm x l : Permutation (x :: l) (insert_sorted x l).
Proof.
  induction l as [|h l IH]; cbn [insert_sorted]; [reflexivity|]. destruct (x <=? h); [reflexivity|].
  rewrite perm_swap. now constructor.
Qed.
Lemma sorted_perm l : Permutation l (py_sorted l).
Proof. induction l as [|h l IH]; cbn; [constructor|]. rewrite <- insert_perm. now constructor. Qed.
Lemma insert_sorted_ok x l : StronglySorted Z.le l -> StronglySorted Z.le (insert_sorted x l).
Proof.
  induction 1 as [|h l Hs IH Hh]; cbn [insert_sorted]; [repeat constructor|]. destruct (x <=? h) eqn:E.
  - constructor; [constructor; auto|]. constructor; [lia|]. revert Hh. apply Forall_impl. lia.
  - constructor; [exact IH|]. eapply Permutation_Forall; [apply insert_perm|]. constructor; [lia|exact Hh].
Qed.
Lemma py_sorted_ok l : StronglySorted Z.le (py_sorted l).
Proof. induction l; cbn; [constructor|now apply insert_sorted_ok]. Qed.

(** first differences *)
Fixpoint diffs (prev : Z) (l : list Z) : list Z :=
  match l with [] => [] | x :: l => (x - prev) :: diffs x l end.
Lemma sums_diffs l : forall a, sums a (diffs a l) = l.
Proof. induction l as [|x l IH]; intros a; cbn [diffs sums]; [reflexivity|]. replace (a + (x - a)) with x by lia. now rewrite IH. Qed.
Lemma last_cons_any (l : list Z) : forall z a b, last (z :: l) a = last (z :: l) b.
Proof. induction l as [|w l IH]; intros z a b; [reflexivity|]. change (last (w :: l) a = last (w :: l) b). apply IH. Qed.
Lemma diffs_app a l x : diffs a (l ++ [x]) = diffs a l ++ [x - last l a].
Proof.
  revert a. induction l as [|y l IH]; intros a; cbn [app diffs]; [reflexivity|]. rewrite IH. cbn [app]. do 4 f_equal.
  destruct l as [|z l]; [reflexivity|]. apply (last_cons_any l z y a).
Qed.
Lemma diffs_length a l : length (diffs a l) = length l.
Proof. revert a. induction l; intros; cbn [diffs length]; auto. Qed.

Lemma relative_loop (pre l suf : list Z) x : l = x :: pre -> 
  foldM (fun res_ i => let* a := py_get res_ i in let* b := py_get res_ (i - 1) in py_set res_ i (a - b))
      (rev (map (fun i => i + 1) (zrange (zlen pre)))) (l ++ suf) = Ok (x :: diffs x pre ++ suf).
Proof.
  revert l suf. induction pre as [|y pre IH] using rev_ind; intros l suf ->; [reflexivity|].
  rewrite zlen_app. change (zlen [y]) with 1. rewrite zrange_S by apply zlen_nonneg.
  rewrite map_app, rev_app_distr. cbn [map rev app foldM].
  set (k := zlen pre). assert (Hk : 0 <= k) by apply zlen_nonneg.
  replace (x :: (pre ++ [y]) ++ suf) with ((x :: pre) ++ y :: suf) by (cbn [app]; rewrite <- app_assoc; reflexivity).
  rewrite (py_get_mid (x :: pre) y suf) by (rewrite zlen_cons; unfold k; lia). cbn [bind].
  assert (E : py_get ((x :: pre) ++ y :: suf) (k + 1 - 1) = Ok (last pre x)).
  { replace (k + 1 - 1) with k by lia. destruct (rev pre) as [|z r] eqn:Er.
    - assert (pre = []) by (rewrite <- (rev_involutive pre), Er; reflexivity). subst pre. reflexivity.
    - assert (Ep : pre = rev r ++ [z]) by (rewrite <- (rev_involutive pre), Er; reflexivity).
      rewrite Ep. rewrite last_last. cbn [app]. rewrite <- app_assoc.
      change (x :: rev r ++ [z] ++ y :: suf) with ((x :: rev r) ++ z :: y :: suf).
      apply py_get_mid. unfold k. rewrite Ep, zlen_app, (zlen_cons x). change (zlen [z]) with 1. lia. }
  rewrite E. cbn [bind]. rewrite (py_set_mid (x :: pre) y suf) by (rewrite zlen_cons; unfold k; lia). cbn [bind].
  unfold k. rewrite (IH (x :: pre) ((y - last pre x) :: suf) eq_refl). rewrite diffs_app, <- app_assoc. reflexivity.
Qed.

Lemma offsets_spec off : exists r s, offsets_to_relative off = Ok r /\ StronglySorted Z.le s /\ Permutation off s /\
  sums 0 r = s /\ length r = length off /\ Forall (fun d => 0 <= d) (tl r).
Proof.
  unfold offsets_to_relative. destruct off as [|o off].
  { exists [], []. repeat split; try constructor. }
  replace (zlen (o :: off) =? 0) with false by (rewrite zlen_cons; pose proof (zlen_nonneg off); lia).
  pose proof (sorted_perm (o :: off)) as HPm. pose proof (py_sorted_ok (o :: off)) as HS.
  destruct (py_sorted (o :: off)) as [|x pre] eqn:E.
  { apply Permutation_length in HPm. discriminate. }
  assert (Hl : length off = length pre) by (apply Permutation_length in HPm; cbn in HPm; lia).
  rewrite zlen_cons. replace (1 + zlen off - 1) with (zlen pre) by (unfold zlen; lia).
  pose proof (relative_loop pre (x :: pre) [] x eq_refl) as H. rewrite !app_nil_r in H. rewrite H.
  exists (x :: diffs x pre), (x :: pre). split; [reflexivity|]. split; [exact HS|]. split; [exact HPm|].
  split; [cbn [sums]; f_equal; apply sums_diffs|]. split; [cbn [length]; now rewrite diffs_length, Hl|].
  cbn [tl]. clear -HS. revert x HS. induction pre as [|y pre IH]; intros x HS; cbn [diffs]; [constructor|].
  inversion HS as [|? ? HS' HF]; subst. inversion HF; subst. constructor; [lia|]. apply IH. exact HS'.
Qed.

(** ** batches *)
Lemma zsum_cons a b : zsum (a :: b) = a + zsum b.
Proof. reflexivity. Qed.
Lemma zsum_app a b : zsum (a ++ b) = zsum a + zsum b.
Proof. induction a; cbn; [reflexivity|]. unfold zsum in *. lia. Qed.

Lemma double_batch_ok a n : 0 <= a < n -> exists k, double_batch 6 1 a n = Ok (2 ^ k) /\ 0 <= k <= 4 /\ 2 ^ k + a <= n /\
   (k = 4 \/ n < 2 ^ (k + 1) + a).
Proof.
  intros H. cbn [double_batch].
  repeat match goal with
  | |- context [if ?c then _ else _] => destruct c eqn:?
  end;
  first [exists 0; split; [reflexivity|]; change (2^0) with 1; change (2^(0+1)) with 2; lia
        |exists 1; split; [reflexivity|]; change (2^1) with 2; change (2^(1+1)) with 4; lia
        |exists 2; split; [reflexivity|]; change (2^2) with 4; change (2^(2+1)) with 8; lia
        |exists 3; split; [reflexivity|]; change (2^3) with 8; change (2^(3+1)) with 16; lia
        |exists 4; split; [reflexivity|]; change (2^4) with 16; change (2^(4+1)) with 32; lia
        |lia].
Qed.


Lemma rsig_batches_ok t n : 0 <= t <= 2 \/ (t = 3 /\ n <= 16) -> forall fuel a acc,
  0 <= a <= n -> n - a <= Z.of_nat fuel -> (t = 3 -> a = 0 \/ a = n) ->
  exists bs, rsig_batches fuel t n a acc = Ok (acc ++ bs) /\ zsum bs = n - a /\ Forall (batch_ok t n) bs.
Proof.
  intros Ht. induction fuel as [|fuel IH]; intros a acc Ha Hf H3; cbn [rsig_batches].
  - replace (a <? n) with false by lia. exists []. rewrite app_nil_r. cbn. repeat split; [lia|constructor].
  - destruct (a <? n) eqn:E.
    2:{ exists []. rewrite app_nil_r. cbn. repeat split; [lia|constructor]. }
    destruct ((t =? 0) || (t =? 1)) eqn:E01.
    { destruct (IH (a + 1) (acc ++ [1])) as (bs & E1 & E2 & E3); [lia|lia|lia|].
      exists (1 :: bs). rewrite E1, <- app_assoc. split; [reflexivity|]. split; [rewrite zsum_cons; lia|]. constructor; [|exact E3].
      unfold batch_ok. repeat split; try lia. }
    destruct (t =? 3) eqn:Et3.
    { replace (16 <? n) with false by lia.
      destruct (IH (a + n) (acc ++ [n])) as (bs & E1 & E2 & E3); [lia|lia|lia|].
      exists (n :: bs). rewrite E1, <- app_assoc. split; [reflexivity|]. split; [rewrite zsum_cons; lia|]. constructor; [|exact E3].
      unfold batch_ok. repeat split; try lia. }
    replace (t =? 2) with true by lia.
    destruct (double_batch_ok a n ltac:(lia)) as (k & -> & Hk & Hle & _). cbn [bind].
    assert (0 < 2 ^ k) by (apply Z.pow_pos_nonneg; lia).
    assert (2 ^ k <= 2 ^ 4) by (apply Z.pow_le_mono_r; lia). change (2 ^ 4) with 16 in *.
    rewrite Z.min_l by lia.
    destruct (IH (a + 2 ^ k) (acc ++ [2 ^ k])) as (bs & E1 & E2 & E3); [lia|lia|lia|].
    exists (2 ^ k :: bs). rewrite E1, <- app_assoc. split; [reflexivity|]. split; [rewrite zsum_cons; lia|]. constructor; [|exact E3].
    unfold batch_ok. repeat split; try lia. intros _. exists k. lia.
Qed.

Lemma batch_sizes_ok t n : 0 <= t <= 2 \/ (t = 3 /\ n <= 16) -> 0 <= n ->
  exists bs, generate_rsig_batch_sizes t n = Ok bs /\ zsum bs = n /\ Forall (batch_ok t n) bs.
Proof.
  intros Ht Hn. unfold generate_rsig_batch_sizes.
  destruct (rsig_batches_ok t n Ht (Z.to_nat n) 0 []) as (bs & E1 & E2 & E3); [lia|lia|lia|].
  exists bs. repeat split; auto. lia.
Qed.
Lemma batch_sizes_refuse n : 0 < n -> (16 < n -> generate_rsig_batch_sizes 3 n = Err ValueError) /\
  (forall t, t < 0 \/ 3 < t -> generate_rsig_batch_sizes t n = Err ValueError).
Proof.
  intros Hn. unfold generate_rsig_batch_sizes. destruct (Z.to_nat n) as [|k] eqn:E; [lia|]. cbn [rsig_batches].
  replace (0 <? n) with true by lia. split.
  - intros H. cbn [Z.eqb orb Pos.eqb]. replace (16 <? n) with true by lia. reflexivity.
  - intros t Ht. replace ((t =? 0) || (t =? 1)) with false by lia. replace (t =? 3) with false by lia. replace (t =? 2) with false by lia. reflexivity.
Qed.
Lemma auto_type_ok b n : 0 <= n ->
  exists bs, generate_rsig_batch_sizes (get_rsig_type b n) n = Ok bs /\ zsum bs = n /\ Forall (batch_ok (get_rsig_type b n) n) bs.
Proof.
  intros Hn. apply batch_sizes_ok; [|exact Hn]. unfold get_rsig_type. destruct b; cbn [negb]; [|lia]. destruct (16 <? n) eqn:E; lia.
Qed.
