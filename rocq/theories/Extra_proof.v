From Verif Require Import Py PyLemmas Digits Ints_model Protobuf_spec Protobuf_proof Ec_model Ec_spec Ec_proof Sigs_spec Sigs_proof KeySep_proof Wallet_model Wallet_spec Wallet_proof Extra_model Extra_spec.

(** ** reading back *)
Lemma read_varint n r : 0 <= n -> read_uvarint (varint n ++ r) = Ok (n, r).
Proof.
  intros Hn. revert n Hn r. refine (varint_ind (fun n => forall r, read_uvarint (varint n ++ r) = Ok (n, r)) _ _).
  - intros n Hn r. rewrite varint_small by lia. cbn [app read_uvarint]. rewrite (proj2 (Z.ltb_lt n 128)) by lia. reflexivity.
  - intros n Hn IH r. rewrite varint_step by lia. cbn [app read_uvarint]. rewrite (proj2 (Z.ltb_ge _ 128)) by lia.
    rewrite IH. cbn [bind]. f_equal. f_equal. lia.
Qed.
Lemma take_app n a r : n = zlen a -> take n (a ++ r) = Ok (a, r).
Proof.
  intros ->. unfold take. rewrite (proj2 (Z.leb_le _ _)) by (unfold zlen; rewrite app_length; lia).
  unfold zlen. rewrite Nat2Z.id, firstn_app, skipn_app, Nat.sub_diag, firstn_all, skipn_all. cbn [firstn skipn app]. rewrite app_nil_r. reflexivity.
Qed.
Lemma take_keys_app ks r : Forall (fun k => length k = 32%nat) ks -> take_keys (length ks) (concat ks ++ r) = Ok (ks, r).
Proof.
  induction 1 as [|k ks Hk _ IH]; [reflexivity|]. cbn [length concat take_keys]. rewrite <- app_assoc.
  rewrite (take_app 32 k) by (unfold zlen; rewrite Hk; reflexivity). cbn [bind]. rewrite IH. reflexivity.
Qed.
Lemma concat_len (ks : list (list Z)) : Forall (fun k => length k = 32%nat) ks -> zlen (concat ks) = 32 * zlen ks.
Proof. induction 1 as [|k ks Hk _ IH]; [reflexivity|]. unfold zlen in *. cbn [concat length]. rewrite app_length, Hk. lia. Qed.
Lemma read_field_app f r : field_ok f -> read_field (field_bytes f ++ r) = Ok (f, r).
Proof.
  destruct f as [k|n|ks]; cbn [field_ok field_bytes app read_field Z.eqb Pos.eqb]; intros H.
  - rewrite (take_app 32 k) by (unfold zlen; rewrite H; reflexivity). reflexivity.
  - rewrite <- app_assoc, read_varint by apply Zle_0_nat. cbn [bind]. rewrite (take_app (zlen n) n) by reflexivity. reflexivity.
  - rewrite <- app_assoc, read_varint by apply Zle_0_nat. cbn [bind].
    rewrite (proj2 (Z.leb_le _ _)) by (unfold zlen at 2; rewrite app_length; pose proof (concat_len ks H) as C; unfold zlen in *; lia).
    cbn [guard bind]. unfold zlen. rewrite Nat2Z.id, take_keys_app by exact H. reflexivity.
Qed.
Lemma field_nonempty f : exists x b, field_bytes f = x :: b.
Proof. destruct f; cbn [field_bytes]; eauto. Qed.
Lemma parse_ok fs : Forall field_ok fs -> forall fuel, (length (extra_bytes fs) <= fuel)%nat -> parse_loop fuel (extra_bytes fs) = Ok fs.
Proof.
  induction 1 as [|f fs Hf _ IH]; intros fuel Hfuel; [destruct fuel; reflexivity|].
  unfold extra_bytes in *. cbn [map concat] in *. destruct (field_nonempty f) as (x & b & E).
  rewrite app_length, E in Hfuel. cbn [length] in Hfuel. destruct fuel as [|fuel]; [lia|].
  pose proof (read_field_app f (concat (map field_bytes fs)) Hf) as R. rewrite E in *. cbn [app parse_loop] in *. rewrite R. cbn [bind].
  rewrite IH by lia. reflexivity.
Qed.
Lemma parse_extra_ok fs : Forall field_ok fs -> parse_extra_fields (extra_bytes fs) = Ok fs.
Proof. intros H. apply parse_ok; [exact H|apply le_n]. Qed.

Lemma find_spec k : forall fs idx cur, cur <= idx ->
  find_loop fs k idx cur = nth_error (filter (is_kind k) fs) (Z.to_nat (idx - cur)).
Proof.
  induction fs as [|x fs IH]; intros idx cur H; [cbn [filter find_loop]; destruct (Z.to_nat (idx - cur)); reflexivity|].
  cbn [find_loop filter]. destruct (is_kind k x); [|apply IH, H].
  destruct (Z.eqb_spec cur idx) as [->|N]; [rewrite Z.sub_diag; reflexivity|].
  rewrite IH by lia. replace (Z.to_nat (idx - cur)) with (S (Z.to_nat (idx - (cur + 1)))) by lia. reflexivity.
Qed.

(** ** payment ids *)
Lemma zrange_seq n : zrange n = map Z.of_nat (seq 0 (Z.to_nat n)).
Proof. reflexivity. Qed.
Definition xstep (h pm : list Z) (i : Z) : res (list Z) := let* x := py_get pm i in let* k := py_get h i in py_set pm i (Z.lxor x k).
Lemma get_at {A} (a : list A) x b : py_get (a ++ x :: b) (zlen a) = Ok x.
Proof. apply py_get_nonneg; [apply Zle_0_nat|]. unfold zlen. rewrite Nat2Z.id, nth_error_app2, Nat.sub_diag by apply le_n. reflexivity. Qed.
Lemma xor_loop t : forall xs pre ks1 ks ks2, length ks = length xs -> length ks1 = length pre ->
  foldM (xstep (ks1 ++ ks ++ ks2)) (map Z.of_nat (seq (length pre) (length xs))) (pre ++ xs ++ t) =
  Ok (pre ++ map (fun xk => Z.lxor (fst xk) (snd xk)) (combine xs ks) ++ t).
Proof.
  induction xs as [|x xs IH]; intros pre ks1 [|k ks] ks2 H1 H2; try discriminate; [reflexivity|].
  cbn [length seq map foldM combine fst snd app].
  unfold xstep at 1. change (Z.of_nat (length pre)) with (zlen pre). rewrite get_at. cbn [bind].
  replace (zlen pre) with (zlen ks1) at 1 by (unfold zlen; lia). rewrite get_at. cbn [bind].
  rewrite Sigs_proof.py_set_mid. cbn [bind].
  specialize (IH (pre ++ [Z.lxor x k]) (ks1 ++ [k]) ks ks2).
  rewrite <- !app_assoc in IH. cbn [app] in IH. rewrite !app_length in IH. cbn [length] in IH.
  rewrite !Nat.add_1_r in IH. apply IH; [cbn in H1; lia|lia].
Qed.
Lemma xor_fold pid h : (8 <= length pid)%nat -> (8 <= length h)%nat ->
  foldM (xstep h) (zrange 8) pid = Ok (xor_id pid h).
Proof.
  intros Hp Hh. unfold xor_id. rewrite zrange_seq. change (Z.to_nat 8) with 8%nat.
  pose proof (xor_loop (skipn 8 pid) (firstn 8 pid) [] [] (firstn 8 h) (skipn 8 h)) as X. cbn [app] in X. rewrite !firstn_skipn in X.
  rewrite (firstn_length_le pid Hp) in X. cbn [length] in X. rewrite X; [|rewrite firstn_length_le by exact Hh; reflexivity|reflexivity].
  f_equal. f_equal. f_equal.
  assert (C : forall (a b : list Z), combine a (firstn (length a) b) = combine a b).
  { induction a as [|x a IH]; intros [|y b]; try reflexivity. cbn [length firstn combine]. rewrite IH. reflexivity. }
  rewrite <- (C (firstn 8 pid) h), (firstn_length_le pid Hp). reflexivity.
Qed.
Lemma xor_id_length pid h : (8 <= length pid)%nat -> (8 <= length h)%nat -> length (xor_id pid h) = length pid.
Proof. intros Hp Hh. unfold xor_id. rewrite app_length, map_length, combine_length, firstn_length, skipn_length. lia. Qed.
Lemma xor_id_invol pid h : (8 <= length pid)%nat -> (8 <= length h)%nat -> xor_id (xor_id pid h) h = pid.
Proof.
  intros Hp Hh. unfold xor_id at 1.
  set (m := map (fun xk => Z.lxor (fst xk) (snd xk)) (combine (firstn 8 pid) h)).
  assert (Lm : length m = 8%nat) by (unfold m; rewrite map_length, combine_length, firstn_length; lia).
  assert (E : xor_id pid h = m ++ skipn 8 pid) by reflexivity.
  assert (E1 : firstn 8 (xor_id pid h) = m) by (rewrite E, <- Lm, firstn_app, Nat.sub_diag, firstn_all; apply app_nil_r).
  assert (E2 : skipn 8 (xor_id pid h) = skipn 8 pid) by (rewrite E, <- Lm at 1; rewrite skipn_app, Nat.sub_diag, skipn_all; reflexivity).
  rewrite E1, E2. rewrite <- (firstn_skipn 8 pid) at 2. f_equal. unfold m.
  assert (C : forall (a b : list Z), (length a <= length b)%nat ->
     map (fun xk => Z.lxor (fst xk) (snd xk)) (combine (map (fun xk => Z.lxor (fst xk) (snd xk)) (combine a b)) b) = a).
  { induction a as [|x a IH]; intros [|y b] H; cbn [length] in H; try reflexivity; [lia|]. cbn [combine map fst snd].
    rewrite Z.lxor_assoc, Z.lxor_nilpotent, Z.lxor_0_r, IH by lia. reflexivity. }
  apply C. rewrite firstn_length. lia.
Qed.
Lemma xor_short h : forall xs pre n, (length xs < n)%nat -> (length pre + n <= length h)%nat ->
  foldM (xstep h) (map Z.of_nat (seq (length pre) n)) (pre ++ xs) = Err IndexError.
Proof.
  induction xs as [|x xs IH]; intros pre n Hn Hh; destruct n as [|n]; cbn [length] in Hn; try lia; cbn [seq map foldM].
  - unfold xstep at 1. rewrite app_nil_r.
    assert (G : py_get pre (Z.of_nat (length pre)) = Err IndexError).
    { unfold py_get, py_idx. replace (0 <=? Z.of_nat (length pre)) with true by (symmetry; apply Z.leb_le; lia).
      replace (Z.of_nat (length pre) <? zlen pre) with false by (symmetry; apply Z.ltb_ge; unfold zlen; lia).
      cbn [andb]. replace (Z.of_nat (length pre) <? 0) with false by (symmetry; apply Z.ltb_ge; lia).
      rewrite ?andb_false_r. reflexivity. }
    rewrite G. reflexivity.
  - unfold xstep at 1. change (Z.of_nat (length pre)) with (zlen pre). rewrite get_at. cbn [bind].
    destruct (nth_error h (length pre)) as [k|] eqn:Ek; [|apply nth_error_None in Ek; lia].
    rewrite (py_get_nonneg h (zlen pre) k); [|apply Zle_0_nat|unfold zlen; rewrite Nat2Z.id; exact Ek]. cbn [bind].
    rewrite Sigs_proof.py_set_mid. cbn [bind].
    specialize (IH (pre ++ [Z.lxor x k]) n). rewrite <- app_assoc, app_length in IH. cbn [app length] in IH. rewrite Nat.add_1_r in IH.
    apply IH; lia.
Qed.

Section P.
Context (E : ecops) (L : ec_laws E) (Hh : hash_bytes E).
Definition pid_key (der : pt E) : list Z := hash E (encp E der ++ [141]).
Lemma pid_key_len der : (8 <= length (pid_key der))%nat.
Proof. destruct (Hh (encp E der ++ [141])) as [A _]. unfold pid_key. rewrite A. lia. Qed.
Lemma encrypt_ok pid P k : nz_scalar k -> (8 <= length pid)%nat ->
  encrypt_payment_id E pid P k = Ok (xor_id pid (pid_key (zmul E (8 * k) P))).
Proof.
  intros Hk Hp. unfold encrypt_payment_id. rewrite (derivation_ok E L P k Hk). cbn [bind].
  change (foldM (xstep (pid_key (zmul E (8 * k) P))) (zrange 8) pid = Ok (xor_id pid (pid_key (zmul E (8 * k) P)))).
  apply xor_fold; [exact Hp|apply pid_key_len].
Qed.
Lemma encrypt_short pid P k : nz_scalar k -> (length pid < 8)%nat -> encrypt_payment_id E pid P k = Err IndexError.
Proof.
  intros Hk Hp. unfold encrypt_payment_id. rewrite (derivation_ok E L P k Hk). cbn [bind].
  change (foldM (xstep (pid_key (zmul E (8 * k) P))) (map Z.of_nat (seq (length (@nil Z)) 8)) ([] ++ pid) = Err IndexError).
  apply xor_short; [exact Hp|]. cbn [length]. apply pid_key_len.
Qed.
Lemma encrypt_roundtrip pid B a r : nz_scalar a -> nz_scalar r -> (8 <= length pid)%nat ->
  exists e, encrypt_payment_id E pid (smul E B a) r = Ok e /\ length e = length pid /\
    encrypt_payment_id E e (smul E B r) a = Ok pid.
Proof.
  intros Ha Hr Hp. rewrite (encrypt_ok pid _ r Hr Hp). eexists. split; [reflexivity|].
  pose proof (pid_key_len (zmul E (8 * r) (smul E B a))) as K.
  split; [apply xor_id_length; assumption|].
  rewrite encrypt_ok; [|exact Ha|rewrite xor_id_length; assumption].
  replace (zmul E (8 * a) (smul E B r)) with (zmul E (8 * r) (smul E B a)).
  - rewrite xor_id_invol by assumption. reflexivity.
  - destruct Ha as [Ha _], Hr as [Hr _]. rewrite !(smul_zmul E L), <- !(zmul_mul E L) by lia. f_equal. ring.
Qed.
End P.

(** ** destinations *)
Lemma addr_eq_true a b : addr_eq a b = true <-> a = b.
Proof.
  unfold addr_eq. rewrite andb_true_iff, !zlist_eqb_spec. destruct a as [a1 a2], b as [b1 b2]. cbn [ad_spend ad_view]. split; [intros [-> ->]; reflexivity|intros H; inversion H; auto].
Qed.
Lemma loop_reals change pid : forall outs cur count,
  view_key_loop outs change pid cur count = view_key_loop (map (fun a => (1, a)) (real_dests outs change)) None pid cur count.
Proof.
  induction outs as [|[m a] outs IH]; intros cur count; [reflexivity|]. cbn [view_key_loop]. unfold real_dests. cbn [filter fst snd].
  destruct (m =? 0); cbn [negb andb]; [apply IH|].
  destruct (match change with Some c => addr_eq a c | None => false end); cbn [negb]; [apply IH|]. cbn [map view_key_loop snd Z.eqb].
  destruct (addr_eq a cur); [apply IH|]. destruct (_ && _); [reflexivity|]. apply IH.
Qed.
Lemma loop_same pid a : forall l count, Forall (eq a) l -> view_key_loop (map (fun a => (1, a)) l) None pid a count = Some (a, count).
Proof.
  induction l as [|x l IH]; intros count H; [reflexivity|]. inversion H as [|? ? <- H']; subst. cbn [map view_key_loop Z.eqb].
  rewrite (proj2 (addr_eq_true _ _) eq_refl). apply IH, H'.
Qed.
Lemma loop_one pid a l cur : Forall (eq a) l -> l <> [] -> a <> cur -> view_key_loop (map (fun a => (1, a)) l) None pid cur 0 = Some (a, 1).
Proof.
  intros H Hl Ha. destruct l as [|x l]; [contradiction|]. inversion H as [|? ? <- H']; subst. cbn [map view_key_loop Z.eqb].
  destruct (addr_eq _ cur) eqn:Eq; [apply addr_eq_true in Eq; contradiction|]. cbn [Z.ltb Z.compare andb]. apply loop_same, H'.
Qed.
Lemma loop_count_pos pid : zlen pid <> 0 -> forall l cur count, 0 < count -> (exists b, In b l /\ b <> cur) -> view_key_loop (map (fun a => (1, a)) l) None pid cur count = None.
Proof.
  intros Hp. induction l as [|x l IH]; intros cur count Hc (b & Hb & Nb); [contradiction|]. cbn [map view_key_loop Z.eqb].
  destruct (addr_eq x cur) eqn:Eq.
  - apply addr_eq_true in Eq. subst x. apply IH; [exact Hc|]. destruct Hb as [->|Hb]; [contradiction|eauto].
  - rewrite (proj2 (Z.ltb_lt 0 count) Hc), (proj2 (Z.eqb_neq _ _) Hp). reflexivity.
Qed.
Lemma loop_two pid a b l : zlen pid <> 0 -> In a l -> In b l -> a <> b -> a <> null_addr -> b <> null_addr ->
  view_key_loop (map (fun a => (1, a)) l) None pid null_addr 0 = None.
Proof.
  intros Hp Ha Hb Nab Na Nb. induction l as [|x l IH]; [contradiction|]. cbn [map view_key_loop Z.eqb].
  destruct (addr_eq x null_addr) eqn:Eq.
  - apply addr_eq_true in Eq. subst x. apply IH; [destruct Ha as [Ha|Ha]|destruct Hb as [Hb|Hb]]; congruence || assumption.
  - cbn [Z.ltb Z.compare andb]. apply loop_count_pos; [exact Hp|lia|].
    destruct (addr_eq x a) eqn:Ea.
    + apply addr_eq_true in Ea. subst x. exists b. split; [destruct Hb as [Hb|Hb]; [contradiction|exact Hb]|congruence].
    + exists a. split; [destruct Ha as [Ha|Ha]; [subst x; rewrite (proj2 (addr_eq_true a a) eq_refl) in Ea; discriminate|exact Ha]|].
      intros ->. rewrite (proj2 (addr_eq_true x x) eq_refl) in Ea. discriminate.
Qed.
Lemma py_from_1 {A} (x : A) l : py_from (x :: l) 1 = l.
Proof.
  unfold py_from, py_clamp, zlen. cbn [length]. change (1 <? 0) with false. cbv iota.
  destruct (Z.ltb_spec (Z.of_nat (S (length l))) 1); [lia|]. reflexivity.
Qed.
