(** Reading a written path. *)
From Verif Require Import Py PyLemmas Digits Mnemonic_proof Bip32_model Bip32_spec Bip32_base Bip32_proof.

Definition part_of (w : written) : list Z := w_digits w ++ (if w_mark w =? 0 then [] else [w_mark w]).

Lemma split_cons p r : ~ In 47 p -> split_slash (p ++ 47 :: r) = p :: split_slash r.
Proof.
  induction p as [|c p IH]; intros H; cbn [app split_slash].
  - reflexivity.
  - destruct (Z.eqb_spec c 47) as [->|]; [exfalso; apply H; left; reflexivity|].
    rewrite IH by (intros K; apply H; right; exact K). reflexivity.
Qed.
Lemma split_one p : ~ In 47 p -> split_slash p = [p].
Proof.
  induction p as [|c p IH]; intros H; cbn [split_slash]; [reflexivity|].
  destruct (Z.eqb_spec c 47) as [->|]; [exfalso; apply H; left; reflexivity|].
  rewrite IH by (intros K; apply H; right; exact K). reflexivity.
Qed.
Lemma part_chars w c : wf_written w -> In c (part_of w) -> 48 <= c <= 57 \/ c = 39 \/ c = 112.
Proof.
  intros ((_ & D) & _ & M) H. unfold part_of in H. apply in_app_or in H. destruct H as [H|H].
  - left. rewrite Forall_forall in D. apply D, H.
  - destruct (Z.eqb_spec (w_mark w) 0); [destruct H|]. destruct H as [<-|[]]. lia.
Qed.
Lemma split_render_gen pre path : ~ In 47 pre -> Forall wf_written path ->
  split_slash (pre ++ flat_map (fun w => 47 :: part_of w) path) = pre :: map part_of path.
Proof.
  intros Hp H. revert pre Hp. induction H as [|w path W _ IH]; intros pre Hp; cbn [flat_map map].
  - rewrite app_nil_r. apply split_one, Hp.
  - cbn [app]. rewrite split_cons by exact Hp. f_equal. apply IH.
    intros K. apply (part_chars w) in K; [lia|exact W].
Qed.

Lemma digits10_ok s : Forall (fun c => 48 <= c <= 57) s -> forall b acc, b = true \/ s <> [] ->
  digits10 s b acc = Ok (fold_left (fun a d => a * 10 + d) (map (fun c => c - 48) s) acc).
Proof.
  induction 1 as [|c s Hc Hs IH]; intros b acc Hb; cbn [digits10 map fold_left].
  - destruct Hb as [->|[]]; reflexivity.
  - replace ((48 <=? c) && (c <=? 57)) with true by lia. rewrite IH by (left; reflexivity). do 2 f_equal. lia.
Qed.
Lemma lstrip_digit c s : 48 <= c <= 57 -> lstrip_blank (c :: s) = c :: s.
Proof. intros H. cbn [lstrip_blank]. unfold blank. replace ((c =? 32) || ((9 <=? c) && (c <=? 13))) with false by lia. reflexivity. Qed.
Lemma lstrip_digits s : Forall (fun c => 48 <= c <= 57) s -> lstrip_blank s = s.
Proof. intros H. destruct H; [reflexivity|]. apply lstrip_digit. assumption. Qed.
Lemma py_int_ok s : decimal s -> py_int s = Ok (number s).
Proof.
  intros (N & D). unfold py_int, strip_blank. rewrite (lstrip_digits s D).
  rewrite (lstrip_digits (rev s)) by (apply Forall_rev, D). rewrite rev_involutive.
  pose proof (digits10_ok s D false 0 (or_intror N)) as E. fold (be_val 10 (map (fun c => c - 48) s)) in E.
  destruct s as [|c s]; [destruct (N eq_refl)|]. inversion D; subst.
  destruct (Z.eq_dec c 45) as [|N1]; [lia|]. destruct (Z.eq_dec c 43) as [|N2]; [lia|].
  transitivity (digits10 (c :: s) false 0); [|exact E].
  destruct c as [|c|c]; try lia. do 6 (destruct c as [c|c|]; try reflexivity; try lia).
Qed.
Lemma remove_none c s : ~ In c s -> remove_char c s = s.
Proof.
  intros H. unfold remove_char. induction s as [|x s IH]; [reflexivity|]. cbn [filter].
  destruct (Z.eqb_spec x c) as [->|]; [destruct H; left; reflexivity|]. cbn [negb].
  rewrite IH by (intros K; apply H; right; exact K). reflexivity.
Qed.
Lemma remove_app c s t : remove_char c (s ++ t) = remove_char c s ++ remove_char c t.
Proof. unfold remove_char. apply filter_app. Qed.
Lemma not_digit (s : list Z) x : Forall (fun c => 48 <= c <= 57) s -> ~ 48 <= x <= 57 -> ~ In x s.
Proof. intros D N K. rewrite Forall_forall in D. apply N, D, K. Qed.
Lemma py_get_last (s : list Z) x : py_get (s ++ [x]) (-1) = Ok x.
Proof.
  unfold py_get, py_idx. rewrite zlen_app. change (zlen [x]) with 1. pose proof (zlen_nonneg s).
  replace ((0 <=? -1) && (-1 <? zlen s + 1)) with false by lia.
  replace ((-1 <? 0) && (0 <=? -1 + (zlen s + 1))) with true by lia.
  replace (-1 + (zlen s + 1)) with (zlen s) by lia. unfold zlen. rewrite Nat2Z.id.
  rewrite nth_error_app2 by lia. rewrite Nat.sub_diag. reflexivity.
Qed.
Lemma zlist_eqb_neq a b : a <> b -> zlist_eqb a b = false.
Proof. intros H. destruct (zlist_eqb a b) eqn:E; [|reflexivity]. apply zlist_eqb_spec in E. destruct (H E). Qed.

Lemma path_part_written O (cw : wallet O) w : wf_written w ->
  path_part O cw (part_of w) = get_child O cw (fst (meaning w)) (prime_arg (snd (meaning w))) true.
Proof.
  intros W. pose proof W as ((N & D) & B & M).
  unfold path_part.
  assert (X : forall x, ~ 48 <= x <= 57 -> zlist_eqb (part_of w) [x] = false).
  { intros x Hx. apply zlist_eqb_neq. unfold part_of. intros K.
    destruct (w_digits w) as [|c s]; [destruct (N eq_refl)|]. cbn [app] in K.
    assert (c = x) by congruence. inversion D; subst. tauto. }
  rewrite !X by lia. cbn [orb].
  unfold meaning. cbn [fst snd]. unfold part_of.
  destruct (Z.eqb_spec (w_mark w) 0) as [Z0|Z0].
  - rewrite app_nil_r. cbn [negb prime_arg].
    destruct (exists_last N) as (s & x & Es).
    assert (Hx : 48 <= x <= 57) by (rewrite Forall_forall in D; apply D; rewrite Es; apply in_or_app; right; left; reflexivity).
    rewrite Es at 1. rewrite py_get_last. cbn [bind].
    replace ((x =? 39) || (x =? 112)) with false by lia. rewrite py_int_ok by (split; assumption). reflexivity.
  - rewrite py_get_last. cbn [bind negb prime_arg].
    replace ((w_mark w =? 39) || (w_mark w =? 112)) with true by lia.
    assert (R : remove_char 112 (remove_char 39 (w_digits w ++ [w_mark w])) = w_digits w).
    { rewrite !remove_app. rewrite (remove_none 39 (w_digits w)) by (apply not_digit; [exact D|lia]).
      rewrite (remove_none 112 (w_digits w)) by (apply not_digit; [exact D|lia]).
      destruct M as [?|[->| ->]]; [tauto| |]; apply app_nil_r. }
    rewrite R. rewrite py_int_ok by (split; assumption). reflexivity.
Qed.

Lemma meaning_range w : wf_written w -> 0 <= fst (meaning w) < 2 ^ 31.
Proof.
  intros ((_ & D) & B & _). cbn [meaning fst]. split; [|exact B]. unfold number. apply (be_val_range 10); [lia|].
  apply Forall_forall. intros x Hx. apply in_map_iff in Hx. destruct Hx as (c & <- & Hc). rewrite Forall_forall in D.
  specialize (D c Hc). lia.
Qed.

Lemma render_eq path : render path = [109] ++ flat_map (fun w => 47 :: part_of w) path.
Proof. reflexivity. Qed.
Lemma not_pub path : Forall wf_written path -> zlist_eqb (py_from (render path) (-4)) dot_pub = false.
Proof.
  intros H. apply zlist_eqb_neq. intros K.
  assert (I : In 46 (render path)).
  { rewrite <- (py_upto_from (render path) (-4)). apply in_or_app. right. rewrite K. left. reflexivity. }
  rewrite render_eq in I. apply in_app_or in I. destruct I as [[|[]]|I]; [lia|].
  apply in_flat_map in I. destruct I as (w & Hw & [I|I]); [lia|].
  rewrite Forall_forall in H. apply (part_chars w) in I; [lia|]. apply H, Hw.
Qed.
Lemma foldM_map {A B S} (f : S -> B -> res S) (g : A -> B) l : forall s, foldM f (map g l) s = foldM (fun s a => f s (g a)) l s.
Proof. induction l as [|a l IH]; intros s; cbn [map foldM]; [reflexivity|]. destruct (f s (g a)); cbn [bind]; [apply IH|reflexivity]. Qed.

Definition walk O (w : wallet O) (path : list written) : res (wallet O) :=
  foldM (fun w s => get_child O w (fst (meaning s)) (prime_arg (snd (meaning s))) true) path w.
Lemma foldM_parts O path : Forall wf_written path -> forall w, foldM (path_part O) (map part_of path) w = walk O w path.
Proof.
  unfold walk. induction 1 as [|s path Hs _ IH]; intros w; cbn [map foldM]; [reflexivity|].
  rewrite path_part_written by exact Hs. destruct (get_child O w _ _ _); cbn [bind]; [apply IH|reflexivity].
Qed.
Lemma fold_m O (w : wallet O) path : Forall wf_written path -> foldM (path_part O) (split_slash (render path)) w = walk O w path.
Proof.
  intros H. rewrite render_eq, split_render_gen by (try exact H; intros [|[]]; lia).
  cbn [foldM]. change (path_part O w [109]) with (Ok w). cbn [bind]. apply foldM_parts, H.
Qed.
Lemma path_walk O (w : wallet O) path : Forall wf_written path -> get_child_for_path O w (render path) = walk O w path.
Proof.
  intros H. unfold get_child_for_path. rewrite (not_pub path H). rewrite fold_m by exact H.
  change (render path) with (109 :: flat_map (fun w => 47 :: part_of w) path).
  rewrite zlen_cons. pose proof (zlen_nonneg (flat_map (fun w => 47 :: part_of w) path)).
  replace (1 + zlen (flat_map (fun w => 47 :: part_of w) path) =? 0) with false by lia.
  cbn [negb guard bind andb]. destruct (walk O w path); reflexivity.
Qed.
Lemma path_walk_pub O (w : wallet O) path : Forall wf_written path ->
  get_child_for_path O w (render path ++ [46; 112; 117; 98]) = let* c := walk O w path in public_copy O c.
Proof.
  intros H. unfold get_child_for_path.
  rewrite (py_from_neg_app (render path) [46; 112; 117; 98] (-4)) by (reflexivity || lia).
  rewrite (py_upto_neg_app (render path) [46; 112; 117; 98] (-4)) by (reflexivity || lia).
  change (zlist_eqb [46; 112; 117; 98] dot_pub) with true. cbn [negb]. rewrite fold_m by exact H.
  rewrite zlen_app. pose proof (zlen_nonneg (render path)). change (zlen [46; 112; 117; 98]) with 4.
  replace (zlen (render path) + 4 =? 0) with false by lia. cbn [guard bind negb].
  rewrite andb_false_r. reflexivity.
Qed.
