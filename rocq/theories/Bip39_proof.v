From Verif Require Import Py PyLemmas Digits B58Mnr_model Mnemonic_model Ints_model Ints_spec Ints_proof2 Ints_proof3 Ec_model Mlsag_model Bip32_model Seed_model Seed_proof Bip39_words Bip39_model Bip39_spec.

(** ** The word list: no word twice *)
Definition letter (w : list Z) (i : nat) : Z := nth i w 96 - 96.
Definition key (w : list Z) : Z := fold_left (fun a i => a * 27 + letter w i) (seq 0 8) 0.
Fixpoint incr (k : Z) (ws : list (list Z)) : bool := match ws with [] => true | w :: ws => (k <? key w) && incr (key w) ws end.
Lemma incr_lt ws : forall k w, incr k ws = true -> In w ws -> k < key w.
Proof. induction ws as [|x ws IH]; intros k w H I; [destruct I|]. cbn [incr] in H. apply andb_true_iff in H. destruct H as [H1 H2]. destruct I as [->|I]; [lia|]. specialize (IH _ _ H2 I). lia. Qed.
Lemma index_at ws : forall k n w, incr k ws = true -> nth_error ws n = Some w -> index_of w ws = Ok (Z.of_nat n).
Proof.
  induction ws as [|x ws IH]; intros k [|n] w H N; try discriminate; cbn [incr] in H; apply andb_true_iff in H; destruct H as [H1 H2]; cbn [nth_error] in N; cbn [index_of].
  - injection N as ->. replace (zlist_eqb w w) with true by (symmetry; apply zlist_eqb_spec; reflexivity). reflexivity.
  - destruct (zlist_eqb w x) eqn:Q; [apply zlist_eqb_spec in Q; subst x; apply nth_error_In in N; pose proof (incr_lt _ _ _ H2 N); lia|]. rewrite (IH _ _ _ H2 N). cbn [bind]. f_equal. lia.
Qed.
Lemma index_none ws w : ~ In w ws -> index_of w ws = Err ValueError.
Proof.
  induction ws as [|x ws IH]; intros N; [reflexivity|]. cbn [index_of]. destruct (zlist_eqb w x) eqn:Q; [apply zlist_eqb_spec in Q; destruct N; left; congruence|]. rewrite IH by (intros I; apply N; right; exact I). reflexivity.
Qed.
Lemma english_ok : forallb letters english_words && incr (-1) english_words && (zlen english_words =? 2048) = true.
Proof. vm_compute. reflexivity. Qed.
Lemma english_incr : incr (-1) english_words = true. Proof. pose proof english_ok as H. apply andb_true_iff in H. destruct H as [H _]. apply andb_true_iff in H. apply H. Qed.
Lemma english_len : zlen english_words = 2048. Proof. pose proof english_ok as H. apply andb_true_iff in H. destruct H as [_ H]. apply Z.eqb_eq, H. Qed.
Lemma english_letters w : In w english_words -> w <> [] /\ Forall (fun c => 97 <= c <= 122) w.
Proof.
  intros I. pose proof english_ok as H. apply andb_true_iff in H. destruct H as [H _]. apply andb_true_iff in H. destruct H as [H _]. rewrite forallb_forall in H. specialize (H w I). unfold letters in H.
  apply andb_true_iff in H. destruct H as [L1 L2]. split; [intros ->; discriminate|]. rewrite forallb_forall in L2. apply Forall_forall. intros c Hc. specialize (L2 c Hc). lia.
Qed.
Lemma word_index w i : word_no w i -> index_of w english_words = Ok i.
Proof. intros [H N]. rewrite (index_at _ _ _ _ english_incr N). f_equal. lia. Qed.
Lemma words_index ws is : Forall2 word_no ws is -> mapM (fun x => index_of x english_words) ws = Ok is.
Proof. induction 1 as [|w i ws is H _ IH]; [reflexivity|]. cbn [mapM]. rewrite (word_index _ _ H). cbn [bind]. rewrite IH. reflexivity. Qed.
Lemma words_get is : Forall (fun i => 0 <= i < 2048) is -> exists ws, mapM (fun x => py_get english_words x) is = Ok ws /\ Forall2 word_no ws is.
Proof.
  induction 1 as [|i is H _ (ws & E & F)]; [exists []; split; [reflexivity|constructor]|]. pose proof english_len as L.
  destruct (nth_error english_words (Z.to_nat i)) as [w|] eqn:N; [|apply nth_error_None in N; unfold zlen in L; lia].
  exists (w :: ws). split; [|constructor; [split; [lia|exact N]|exact F]]. cbn [mapM]. unfold py_get at 1, py_idx. rewrite L. replace ((0 <=? i) && (i <? 2048)) with true by lia.
  rewrite N. cbn [bind]. rewrite E. reflexivity.
Qed.
Lemma word_no_in w i : word_no w i -> In w english_words. Proof. intros [_ N]. eapply nth_error_In, N. Qed.
Lemma word_no_range w i : word_no w i -> 0 <= i < 2048.
Proof. intros [H N]. pose proof english_len as L. assert (Q : (Z.to_nat i < length english_words)%nat) by (apply nth_error_Some; congruence). unfold zlen in L. lia. Qed.

(** ** Cleaning *)
Definition both (w : list Z) : Prop := Forall (fun c => 65 <= c <= 90 \/ 97 <= c <= 122) w.
Lemma lstrip_both w : both w -> lstrip_blank w = w.
Proof. intros H. destruct H as [|c w Hc]; [reflexivity|]. cbn [lstrip_blank]. unfold blank. replace ((c =? 32) || ((9 <=? c) && (c <=? 13))) with false by lia. reflexivity. Qed.
Lemma strip_both w : both w -> strip_blank w = w.
Proof. intros H. unfold strip_blank. rewrite (lstrip_both w H). rewrite (lstrip_both (rev w)) by (apply Forall_rev, H). apply rev_involutive. Qed.
Lemma both_no_sp w : both w -> ~ In 32 w.
Proof. intros H K. unfold both in H. rewrite Forall_forall in H. specialize (H 32 K). lia. Qed.
Lemma split_join_both ws : ws <> [] -> Forall both ws -> split_sp (join_sp ws) = ws.
Proof.
  intros N H. induction H as [|w ws Hw H IH]; [destruct (N eq_refl)|]. destruct ws as [|w2 ws]; cbn [join_sp]; [apply split_sp_one, both_no_sp, Hw|]. rewrite split_sp_app by (apply both_no_sp, Hw). f_equal. apply IH. discriminate.
Qed.
Lemma clean_caps ws vs : Forall2 capital ws vs -> map (fun x => lower (strip_blank x)) vs = ws /\ Forall both vs.
Proof. induction 1 as [|w v ws vs [H1 H2] _ [IH1 IH2]]; [split; [reflexivity|constructor]|]. split; [cbn [map]; rewrite strip_both, H1, IH1 by exact H2; reflexivity|constructor; assumption]. Qed.
Lemma clean_lines ws lines : lines_of ws lines -> clean_input (IList lines) = ws.
Proof.
  intros (gs & G & -> & F). destruct (clean_caps _ _ F) as [C B]. unfold clean_input. replace (flat_map split_sp (map join_sp gs)) with (concat gs); [exact C|].
  clear F C. induction G as [|g gs Hg _ IH]; [reflexivity|]. cbn [map flat_map concat] in *. apply Forall_app in B. destruct B as [B1 B2]. rewrite split_join_both by assumption. rewrite IH by exact B2. reflexivity.
Qed.
(** one string of letters and single blanks *)
Lemma lower_join ws : lower (join_sp ws) = join_sp (map lower ws).
Proof. induction ws as [|w ws IH]; [reflexivity|]. destruct ws as [|w2 ws]; [reflexivity|]. cbn [join_sp map] in *. unfold lower in *. rewrite map_app. cbn [map]. rewrite IH. reflexivity. Qed.
Lemma lstrip_first c w : blank c = false -> lstrip_blank (c :: w) = c :: w. Proof. intros H. cbn [lstrip_blank]. rewrite H. reflexivity. Qed.
Lemma nonblank_ends (s : list Z) : (forall c, hd_error s = Some c -> blank c = false) -> (forall c, hd_error (rev s) = Some c -> blank c = false) -> strip_blank s = s.
Proof.
  intros H1 H2. unfold strip_blank. assert (Q : forall t, (forall c, hd_error t = Some c -> blank c = false) -> lstrip_blank t = t) by (intros [|c t] H; [reflexivity|apply lstrip_first, H; reflexivity]).
  rewrite (Q s H1), (Q (rev s) H2). apply rev_involutive.
Qed.
Lemma both_blank w c : both w -> In c w -> blank c = false.
Proof. intros H I. unfold both in H. rewrite Forall_forall in H. specialize (H c I). unfold blank. lia. Qed.
Lemma hd_in {A} (s : list A) c : hd_error s = Some c -> In c s. Proof. destruct s; [discriminate|]. intros [= ->]. left. reflexivity. Qed.
Lemma join_hd ws c : Forall both ws -> Forall (fun w => w <> []) ws -> hd_error (join_sp ws) = Some c -> blank c = false.
Proof.
  intros B N H. destruct B as [|w ws Hw _]; [discriminate|]. inversion_clear N as [|x y Nw _]. destruct w as [|d w]; [destruct (Nw eq_refl)|].
  assert (d = c) by (destruct ws; cbn [join_sp app hd_error] in H; congruence). subst d. apply (both_blank _ _ Hw). left. reflexivity.
Qed.
Lemma join_last ws c : Forall both ws -> Forall (fun w => w <> []) ws -> hd_error (rev (join_sp ws)) = Some c -> blank c = false.
Proof.
  intros B. induction B as [|w ws Hw B IH]; intros N H; [discriminate|]. inversion_clear N as [|x y Nw N']. destruct ws as [|w2 ws].
  - cbn [join_sp] in H. apply hd_in, in_rev in H. exact (both_blank _ _ Hw H).
  - cbn [join_sp] in H, IH. rewrite rev_app_distr in H. cbn [rev] in H. rewrite <- !app_assoc in H.
    set (t := match ws with [] => w2 | _ => w2 ++ 32 :: join_sp ws end) in *.
    assert (T : t <> []). { inversion_clear N' as [|x y N2 _]. unfold t. destruct ws; [exact N2|]. destruct w2; discriminate. }
    apply IH; [exact N'|]. destruct (rev t) as [|e r] eqn:R; [apply (f_equal (@rev Z)) in R; rewrite rev_involutive in R; destruct (T R)|]. exact H.
Qed.
Lemma clean_string ws vs : Forall2 capital ws vs -> Forall (fun w => w <> []) ws -> join_sp (clean_input (IStr (join_sp vs))) = join_sp ws.
Proof.
  intros F N. destruct (clean_caps _ _ F) as [_ B]. assert (NV : Forall (fun w => w <> []) vs).
  { clear B. induction F as [|w v ws vs [H _] _ IH]; [constructor|]. inversion_clear N as [|x y Nw N']. constructor; [intros ->; apply Nw; rewrite <- H; reflexivity|apply IH, N']. }
  assert (LW : map lower vs = ws) by (clear - F; induction F as [|w v ws vs [H _] _ IH]; [reflexivity|]; cbn [map]; congruence).
  unfold clean_input. cbn [map]. rewrite nonblank_ends; [rewrite lower_join, LW; reflexivity| |]; intros c H; [exact (join_hd _ _ B NV H)|exact (join_last _ _ B NV H)].
Qed.

(** ** The bytes behind a sentence *)
Lemma f2_len ws is : Forall2 word_no ws is -> length ws = length is.
Proof. induction 1; cbn [length]; congruence. Qed.
Lemma sentence_bytes j cs secret ws : bytes_ok secret -> zlen secret = 4 * j -> 1 <= j <= 8 -> byte_ok cs -> sentence j cs secret ws ->
  exists is, Forall2 word_no ws is /\ indices_to_bytes is 11 = Ok (if j =? 8 then secret ++ [cs] else secret).
Proof.
  intros B L J C (N & is & F & V). exists is. split; [exact F|]. unfold byte_ok in C.
  assert (LI : zlen is = 3 * j) by (unfold zlen in *; rewrite <- (f2_len _ _ F); exact N).
  assert (R : digits_ok (2 ^ 11) is) by (clear - F; induction F as [|w i ws is H _ IH]; constructor; [exact (word_no_range _ _ H)|exact IH]).
  destruct (indices_to_bytes_spec 11 is) as (out & E & OB & OL & OV); [lia|intros ->; change (zlen (@nil Z)) with 0 in LI; lia|exact R|]. rewrite E. f_equal. rewrite LI in OL, OV. rewrite V in OV.
  assert (Q : forall t, bytes_ok t -> zlen t = zlen out -> be_int t = be_int out -> out = t).
  { intros t T1 T2 T3. rewrite !be_int_val in T3. apply (be_val_inj 256); [lia|exact OB|exact T1|unfold zlen in T2; lia|symmetry; exact T3]. }
  destruct (Z.eqb_spec j 8) as [->|NJ]; apply Q.
  - apply Forall_app. split; [exact B|repeat constructor; exact (proj1 C) || exact (proj2 C)].
  - rewrite zlen_app, OL, L. reflexivity.
  - rewrite OV. change ((11 * (3 * 8)) mod 8) with 0. change (2 ^ 0) with 1. rewrite Z.div_1_r. unfold be_int. rewrite fold_left_app. cbn [fold_left]. change (8 - 8) with 0. change (2 ^ 8) with 256. rewrite Z.pow_0_r, Z.div_1_r. reflexivity.
  - exact B.
  - rewrite OL, L. replace (11 * (3 * j)) with (j + 4 * j * 8) by ring. rewrite Z.div_add by lia. rewrite Z.div_small by lia. lia.
  - rewrite OV. replace (11 * (3 * j)) with (j + 4 * j * 8) by ring. rewrite Z.mod_add by lia. rewrite (Z.mod_small j) by lia. assert (P : 0 < 2 ^ j) by (apply Z.pow_pos_nonneg; lia). assert (P' : 0 < 2 ^ (8 - j)) by (apply Z.pow_pos_nonneg; lia).
    rewrite Z.add_comm, Z.div_add by lia. rewrite Z.div_small; [lia|]. split; [apply Z.div_pos; lia|]. apply Z.div_lt_upper_bound; [lia|]. rewrite <- Z.pow_add_r by lia. replace (8 - j + j) with 8 by lia. change (2 ^ 8) with 256. lia.
Qed.
Lemma sentence_exists j cs secret : bytes_ok secret -> zlen secret = 4 * j -> 1 <= j <= 8 -> byte_ok cs -> forall sha, firstn 1 (sha secret) = [cs] ->
  exists ws, mapM (fun x => py_get english_words x) (to_seed_indices sha secret) = Ok ws /\ Forall2 word_no ws (to_seed_indices sha secret) /\ sentence j cs secret ws.
Proof.
  intros B L J C sha S. destruct (to_seed_indices_spec sha secret j cs B L J C S) as (N & R & V & _). destruct (words_get _ R) as (ws & E & F).
  exists ws. split; [exact E|]. split; [exact F|]. split; [unfold zlen in *; rewrite (f2_len _ _ F); exact N|]. eauto.
Qed.
Lemma master_seed O seed net ed w : from_master_secret O seed net ed = Ok w -> w_seed w = Some seed.
Proof.
  intros H. unfold from_master_secret, new_wallet in H. repeat (apply bind_ok_inv in H; destruct H as (? & _ & H)). match type of H with Ok ?a = Ok ?b => assert (X : a = b) by congruence end. rewrite <- X. reflexivity.
Qed.
Lemma index_err w ws e : index_of w ws = Err e -> e = ValueError.
Proof. revert e. induction ws as [|x ws IH]; intros e H; [cbn in H; congruence|]. cbn [index_of] in H. destruct (zlist_eqb w x); [discriminate|]. destruct (index_of w ws); [discriminate|]. cbn [bind] in H. rewrite (IH _ eq_refl) in H. congruence. Qed.
Lemma indices_err ws : Exists (fun w => ~ In w english_words) ws -> mapM (fun x => index_of x english_words) ws = Err ValueError.
Proof.
  induction ws as [|w ws IH]; intros H; [inversion H|]. cbn [mapM]. destruct (index_of w english_words) as [i|e] eqn:Q; cbn [bind].
  - inversion H as [x y K|x y K]; subst; [rewrite (index_none _ _ K) in Q; discriminate|]. rewrite (IH K). reflexivity.
  - rewrite (index_err _ _ _ Q). reflexivity.
Qed.
Lemma in_lower c s : In c s -> (65 <=? c) && (c <=? 90) = false -> In c (lower s).
Proof. intros I H. unfold lower. apply in_map_iff. exists c. rewrite H. auto. Qed.
