From Coq Require Import String Ascii.
From Verif Require Import Py PyLemmas Digits Protobuf_model Protobuf_spec Protobuf_proof Signer_model Signer_base KeySep_model KeySep_spec.

Lemma ok_inj {A} (a b : A) : Ok a = Ok b -> a = b.
Proof. congruence. Qed.
Lemma cons_inv {A} (a b : A) x y : a :: x = b :: y -> a = b /\ x = y.
Proof. intros E. split; [exact (f_equal (hd a) E)|exact (f_equal (@tl A) E)]. Qed.
Lemma py_set_end pre (v : Z) : py_set pre (zlen pre) v = Err IndexError.
Proof. unfold py_set, py_idx. pose proof (zlen_nonneg pre). destruct (Z.ltb_spec (zlen pre) 0); [lia|]. destruct (Z.ltb_spec (zlen pre) (zlen pre)); [lia|]. destruct (Z.leb_spec 0 (zlen pre)); [|lia]. reflexivity. Qed.
Lemma varint_prefix_free i : 0 <= i -> forall j x y, 0 <= j -> varint i ++ x = varint j ++ y -> i = j /\ x = y.
Proof.
  apply (varint_ind (fun i => forall j x y, 0 <= j -> varint i ++ x = varint j ++ y -> i = j /\ x = y)).
  - intros n Hn j x y Hj E. rewrite (varint_small n Hn) in E. destruct (Z_lt_ge_dec j 128) as [L|L].
    + rewrite (varint_small j) in E by lia. apply cons_inv in E. destruct E as [E1 E2]. auto.
    + rewrite (varint_step j) in E by lia. apply cons_inv in E. destruct E as [E1 E2]. exfalso. clear - E1 Hn Hj L. lia.
  - intros n Hn IH j x y Hj E. rewrite (varint_step n Hn) in E. destruct (Z_lt_ge_dec j 128) as [L|L].
    + rewrite (varint_small j) in E by lia. apply cons_inv in E. destruct E as [E1 E2]. exfalso. clear - E1 Hn Hj L. lia.
    + rewrite (varint_step j) in E by lia. cbn [app] in E. apply cons_inv in E. destruct E as [E1 E2].
      apply IH in E2; [|lia]. destruct E2 as [E2 E3]. split; [|exact E3]. clear - E1 E2 Hn L. lia.
Qed.

Lemma repeat_app' {A} (x : A) a b : repeat x (a + b) = repeat x a ++ repeat x b.
Proof. apply repeat_app. Qed.

Lemma foldM_memcpy src : forall n pre s1 (z : nat), (n <= length src)%nat -> s1 = firstn n src -> (length src <= z)%nat ->
  foldM (fun dst i => let* v := py_get src i in py_set dst (zlen pre + i) v) (zrange (Z.of_nat n)) (pre ++ repeat 0 z)
  = Ok (pre ++ s1 ++ repeat 0 (z - n)).
Proof.
  induction n as [|n IH]; intros pre s1 z Hn -> Hz.
  - cbn. now rewrite Nat.sub_0_r.
  - replace (Z.of_nat (S n)) with (Z.of_nat n + 1) by lia. rewrite zrange_S by lia. rewrite foldM_app.
    rewrite (IH pre _ z ltac:(lia) eq_refl Hz). cbn [bind foldM].
    destruct (nth_error src n) as [x|] eqn:E; [|apply nth_error_None in E; lia].
    rewrite (py_get_nonneg src (Z.of_nat n) x) by (try lia; now rewrite Nat2Z.id). cbn [bind].
    replace (z - n)%nat with (S (z - S n)) by lia. cbn [repeat].
    rewrite app_assoc. rewrite (py_set_mid (pre ++ firstn n src) 0 (repeat 0 (z - S n)) x).
    + cbn [bind]. rewrite (firstn_S_nth src n x E). f_equal. rewrite <- !app_assoc. reflexivity.
    + rewrite zlen_app. unfold zlen. rewrite firstn_length. lia.
Qed.
Lemma memcpy_ok pre src z : (length src <= z)%nat ->
  memcpy (pre ++ repeat 0 z) (zlen pre) src = Ok (pre ++ src ++ repeat 0 (z - length src)).
Proof.
  intros Hz. unfold memcpy. unfold zlen at 2. rewrite (foldM_memcpy src (length src) pre src z); auto.
  now rewrite firstn_all.
Qed.

Lemma key_index_ok i : 0 <= i -> forall fuel pre z, (z < fuel)%nat ->
  key_index fuel (pre ++ repeat 0 z) (zlen pre) i =
  if Z.leb (zlen (varint i)) (Z.of_nat z) then Ok (pre ++ varint i ++ repeat 0 (z - length (varint i))) else Err IndexError.
Proof.
  apply (varint_ind (fun i => forall fuel pre z, (z < fuel)%nat ->
    key_index fuel (pre ++ repeat 0 z) (zlen pre) i =
    if Z.leb (zlen (varint i)) (Z.of_nat z) then Ok (pre ++ varint i ++ repeat 0 (z - length (varint i))) else Err IndexError)).
  - intros n Hn [|fuel] pre z Hf; [lia|]. cbn [key_index].
    assert (Esh : Z.shiftr n 7 = 0) by (rewrite Z.shiftr_div_pow2 by lia; change (2 ^ 7) with 128; lia).
    assert (El : Z.land n 127 = n) by (change 127 with (Z.ones 7); rewrite Z.land_ones by lia; apply Z.mod_small; exact Hn).
    rewrite Esh, El. cbn [Z.eqb]. rewrite Z.lor_0_r. rewrite (varint_small n Hn). destruct z as [|z].
    + cbn [repeat]. rewrite app_nil_r. rewrite py_set_end. reflexivity.
    + cbn [repeat]. rewrite (py_set_mid pre 0 (repeat 0 z) n) by reflexivity. cbn [bind length app].
      change (zlen [n]) with 1. destruct (Z.leb_spec 1 (Z.of_nat (S z))); [|lia]. now rewrite Nat.sub_succ, Nat.sub_0_r.
  - intros n Hn IH [|fuel] pre z Hf; [lia|]. cbn [key_index].
    assert (Esh : Z.shiftr n 7 = n / 128) by (rewrite Z.shiftr_div_pow2 by lia; reflexivity).
    assert (El : Z.land n 127 = n mod 128) by (change 127 with (Z.ones 7); rewrite Z.land_ones by lia; reflexivity).
    assert (Enz : (Z.shiftr n 7 =? 0) = false) by (apply Z.eqb_neq; rewrite Esh; lia).
    rewrite Enz, El, Esh, (varint_step n Hn).
    assert (Elor : Z.lor (n mod 128) 128 = 128 + n mod 128).
    { assert (Hl : Z.land (n mod 128) 128 = 0).
      { apply Z.bits_inj'. intros k Hk. rewrite Z.land_spec, Z.bits_0. change 128 with (2 ^ 7) at 2. rewrite (Z.pow2_bits_eqb 7) by lia.
        destruct (Z.eqb_spec 7 k) as [<-|]; [|apply andb_false_r]. rewrite andb_true_r. change 128 with (2 ^ 7). apply Z.mod_pow2_bits_high. lia. }
      rewrite <- (Z.lxor_lor _ _ Hl), <- (Z.add_nocarry_lxor _ _ Hl). apply Z.add_comm. }
    rewrite Elor. destruct z as [|z].
    + cbn [repeat]. rewrite app_nil_r. rewrite py_set_end.
      rewrite zlen_cons. pose proof (zlen_nonneg (varint (n / 128))). destruct (Z.leb_spec (1 + zlen (varint (n / 128))) (Z.of_nat 0)); [lia|].
      reflexivity.
    + cbn [repeat]. rewrite (py_set_mid pre 0 (repeat 0 z) (128 + n mod 128)) by reflexivity. cbn [bind].
      replace (pre ++ (128 + n mod 128) :: repeat 0 z) with ((pre ++ [128 + n mod 128]) ++ repeat 0 z) by (rewrite <- app_assoc; reflexivity).
      replace (zlen pre + 1) with (zlen (pre ++ [128 + n mod 128])) by (rewrite zlen_app; reflexivity).
      rewrite IH by lia. rewrite zlen_cons. cbn [length].
      destruct (Z.leb_spec (zlen (varint (n / 128))) (Z.of_nat z)); destruct (Z.leb_spec (1 + zlen (varint (n / 128))) (Z.of_nat (S z))); try lia; [|reflexivity].
      rewrite <- app_assoc. reflexivity.
Qed.

Lemma key_buffer_ok s d i : length s = 32%nat -> (length d <= 12)%nat -> 0 <= i ->
  key_buffer s d (Some i) = if zlen d + zlen (varint i) <=? 16 then Ok (s ++ d ++ varint i ++ repeat 0 (16 - length d - length (varint i))) else Err IndexError.
Proof.
  intros Hs Hd Hi. unfold key_buffer.
  change (repeat 0 48) with ([] ++ repeat 0 48). change 0 with (zlen (@nil Z)) at 2.
  rewrite memcpy_ok by lia. cbn [bind app]. rewrite Hs. change (48 - 32)%nat with 16%nat.
  replace 32 with (zlen s) by (unfold zlen; now rewrite Hs).
  rewrite memcpy_ok by lia. cbn [bind]. rewrite app_assoc.
  replace (zlen s + zlen d) with (zlen (s ++ d)) by apply zlen_app.
  rewrite key_index_ok by lia. rewrite <- !app_assoc. unfold zlen.
  destruct (Z.leb_spec (Z.of_nat (length (varint i))) (Z.of_nat (16 - length d)));
    destruct (Z.leb_spec (Z.of_nat (length d) + Z.of_nat (length (varint i))) 16); try lia; reflexivity.
Qed.

Lemma key_index_neg fuel : forall buff off i x, i < 0 -> key_index fuel buff off i <> Ok x.
Proof.
  induction fuel as [|fuel IH]; intros buff off i x Hi H; [discriminate|]. cbn [key_index] in H. bnd H b1 H1.
  assert (Z.shiftr i 7 < 0) by (rewrite Z.shiftr_div_pow2 by lia; change (2 ^ 7) with 128; lia).
  destruct (Z.eqb_spec (Z.shiftr i 7) 0); [lia|]. eapply IH; eauto.
Qed.
Lemma key_buffer_inv s d i m : length s = 32%nat -> (length d <= 12)%nat -> key_buffer s d (Some i) = Ok m ->
  0 <= i /\ is_input s d i m.
Proof.
  intros Hs Hd H.
  assert (Hi : 0 <= i).
  { destruct (Z_lt_ge_dec i 0) as [L|]; [|lia]. exfalso. unfold key_buffer in H. bnd H b1 H1. bnd H b2 H2. eapply key_index_neg; eauto. }
  split; [exact Hi|]. rewrite key_buffer_ok in H by assumption. unfold zlen in H.
  destruct (Z.leb_spec (Z.of_nat (length d) + Z.of_nat (length (varint i))) 16); [|discriminate].
  apply ok_inj in H. subst m. eexists. split; [reflexivity|]. rewrite !app_length, repeat_length. lia.
Qed.

Definition label (p : purpose) : list Z := snd (purpose_args [] [] p).
Lemma purpose_args_label kh ke p : snd (purpose_args kh ke p) = label p.
Proof. destruct p; reflexivity. Qed.
Lemma label_len p : (length (label p) <= 10)%nat.
Proof. destruct p; cbn; lia. Qed.

(** a label followed by an index determines both *)
Lemma varint_45 x i r : 0 <= i -> varint i ++ r = 45 :: x -> r = x.
Proof.
  intros Hi E. change (45 :: x) with ([45] ++ x) in E. rewrite <- (varint_small 45) in E by lia.
  apply varint_prefix_free in E; [|lia|lia]. tauto.
Qed.
Lemma rep_ne z x l : x <> 0 -> repeat 0 z <> x :: l.
Proof. destruct z; cbn; congruence. Qed.

Lemma labels_separate p q i j z w : 0 <= i -> 0 <= j ->
  label p ++ varint i ++ repeat 0 z = label q ++ varint j ++ repeat 0 w -> p = q /\ i = j.
Proof.
  intros Hi Hj E.
  assert (Hsame : p = q -> p = q /\ i = j).
  { intros ->. split; [reflexivity|]. apply app_inv_head in E. apply varint_prefix_free in E; tauto. }
  destruct p, q; try (apply Hsame; reflexivity); exfalso; cbn -[varint] in E; try discriminate E; clear Hsame;
    repeat match type of E with ?a :: _ = ?a :: _ => apply (f_equal (@tl Z)) in E; cbn [tl] in E end;
    try discriminate E;
    try (apply varint_45 in E; [|assumption]; revert E; apply rep_ne; discriminate);
    try (symmetry in E; apply varint_45 in E; [|assumption]; revert E; apply rep_ne; discriminate).
Qed.

Lemma app_inv_len {A} (a b c d : list A) : length a = length c -> a ++ b = c ++ d -> a = c /\ b = d.
Proof. revert c; induction a as [|x a IH]; intros [|y c] L E; cbn in *; try lia; auto. injection E as -> E. destruct (IH c ltac:(lia) E). subst; auto. Qed.

Theorem separated kh ke kh' ke' p q i j m : length kh = 32%nat -> length ke = 32%nat -> length kh' = 32%nat -> length ke' = 32%nat ->
  purpose_input kh ke p (Some i) = Ok m -> purpose_input kh' ke' q (Some j) = Ok m ->
  p = q /\ i = j /\ fst (purpose_args kh ke p) = fst (purpose_args kh' ke' q).
Proof.
  intros L1 L2 L3 L4 H1 H2. unfold purpose_input in *.
  pose proof (purpose_args_label kh ke p) as Ep. pose proof (purpose_args_label kh' ke' q) as Eq.
  assert (Ls : length (fst (purpose_args kh ke p)) = 32%nat) by (destruct p; assumption).
  assert (Ls' : length (fst (purpose_args kh' ke' q)) = 32%nat) by (destruct q; assumption).
  destruct (purpose_args kh ke p) as [s d]. destruct (purpose_args kh' ke' q) as [s' d']. cbn [fst snd] in *. subst d d'.
  pose proof (label_len p). pose proof (label_len q).
  apply key_buffer_inv in H1; [|lia|lia]. apply key_buffer_inv in H2; [|lia|lia].
  destruct H1 as (Hi & z & E1 & _), H2 as (Hj & w & E2 & _). rewrite E1 in E2.
  apply app_inv_len in E2; [|lia]. destruct E2 as [Es E2]. apply labels_separate in E2; [|assumption..]. tauto.
Qed.

Lemma varint_fits i : 0 <= i < 2 ^ 42 -> zlen (varint i) <= 6.
Proof.
  intros Hi. rewrite varint_length by lia. 
  assert (Z.log2 i <= 41). { destruct (Z.eq_dec i 0) as [->|]; [cbn; lia|]. apply Z.lt_succ_r. apply Z.log2_lt_pow2; [lia|]. exact (proj2 Hi). }
  pose proof (Z.log2_nonneg i). lia.
Qed.
Theorem defined kh ke p i : length kh = 32%nat -> length ke = 32%nat -> 0 <= i < 2 ^ 42 ->
  exists m, purpose_input kh ke p (Some i) = Ok m.
Proof.
  intros L1 L2 Hi. unfold purpose_input. pose proof (purpose_args_label kh ke p) as Ep.
  assert (Ls : length (fst (purpose_args kh ke p)) = 32%nat) by (destruct p; assumption).
  destruct (purpose_args kh ke p) as [s d]. cbn [fst snd] in *. subst d. pose proof (label_len p).
  rewrite key_buffer_ok by lia. pose proof (varint_fits i Hi). unfold zlen at 1.
  destruct (Z.leb_spec (Z.of_nat (length (label p)) + zlen (varint i)) 16); [eauto|lia].
Qed.

Theorem keys_separated C kh ke p q i j k : length kh = 32%nat -> length ke = 32%nat ->
  purpose_key C kh ke p (Some i) = Ok k -> purpose_key C kh ke q (Some j) = Ok k ->
  (p = q /\ i = j) \/ exists m m', m <> m' /\ keccak2 C m = keccak2 C m'.
Proof.
  intros L1 L2 H1 H2. 
  assert (G1 : exists m, purpose_input kh ke p (Some i) = Ok m /\ k = keccak2 C m).
  { unfold purpose_key, purpose_input in *. destruct (purpose_args kh ke p). unfold build_key in H1. bnd H1 m Hm. injection H1 as <-. eauto. }
  assert (G2 : exists m, purpose_input kh ke q (Some j) = Ok m /\ k = keccak2 C m).
  { unfold purpose_key, purpose_input in *. destruct (purpose_args kh ke q). unfold build_key in H2. bnd H2 m Hm. injection H2 as <-. eauto. }
  destruct G1 as (m & Hm & E), G2 as (m' & Hm' & E'). destruct (list_eq_dec Z.eq_dec m m') as [->|N].
  - left. destruct (separated kh ke kh ke p q i j m' L1 L2 L1 L2 Hm Hm') as (? & ? & _). auto.
  - right. exists m, m'. split; [exact N|]. congruence.
Qed.

(** enc_key_cout() without an index hashes the same bytes as with index 0 *)
Lemma cout_none kh ke : length ke = 32%nat -> purpose_input kh ke EncCout None = purpose_input kh ke EncCout (Some 0).
Proof.
  intros L. unfold purpose_input. cbn [purpose_args]. rewrite key_buffer_ok by (cbn; lia).
  rewrite (varint_small 0) by lia. unfold key_buffer.
  change (repeat 0 48) with ([] ++ repeat 0 48). change 0 with (zlen (@nil Z)) at 2.
  rewrite memcpy_ok by lia. cbn [bind app]. rewrite L. change (48 - 32)%nat with 16%nat.
  replace 32 with (zlen ke) by (unfold zlen; now rewrite L).
  rewrite memcpy_ok by (cbn; lia). reflexivity.
Qed.
