From Coq Require Import String Ascii.
From Verif Require Import Py PyLemmas Digits Ints_model Protobuf_spec Ec_model Ec_spec Ec_proof Sigs_spec Sigs_proof Mlsag_model Mlsag_spec Mlsag_proof Clsag_proof KeySep_proof Rsig_model Rsig_proof Wallet_model Wallet_spec.

(** ** xor *)
Lemma lxor_byte x y : 0 <= x < 256 -> 0 <= y < 256 -> 0 <= Z.lxor x y < 256.
Proof.
  intros Hx Hy. split; [apply Z.lxor_nonneg; lia|].
  destruct (Z.eq_dec (Z.lxor x y) 0) as [->|Hz]; [reflexivity|].
  assert (P : 0 < Z.lxor x y) by (pose proof (proj2 (Z.lxor_nonneg x y)); lia).
  apply Z.log2_lt_cancel. change (Z.log2 256) with 8.
  assert (Bx : Z.log2 x < 8) by (destruct (Z.eq_dec x 0) as [->|]; [reflexivity|apply Z.log2_lt_pow2; [lia|exact (proj2 Hx)]]).
  assert (By : Z.log2 y < 8) by (destruct (Z.eq_dec y 0) as [->|]; [reflexivity|apply Z.log2_lt_pow2; [lia|exact (proj2 Hy)]]).
  pose proof (Z.log2_lxor x y (proj1 Hx) (proj1 Hy)). lia.
Qed.
Lemma combine_map_pair {A} (f : nat * A -> A) : forall b s, length s = length b ->
  combine s (map f (combine s b)) = map (fun ib => (fst ib, f ib)) (combine s b).
Proof.
  induction b as [|x b IH]; intros [|i s] H; try discriminate; [reflexivity|]. cbn [combine map fst]. rewrite IH by (cbn in H; lia). reflexivity.
Qed.
Lemma xor8_length b k : length (xor8 b k) = length b.
Proof. unfold xor8. rewrite map_length, combine_length, seq_length. lia. Qed.
Lemma xor8_invol b k : xor8 (xor8 b k) k = b.
Proof.
  unfold xor8 at 1. rewrite xor8_length. unfold xor8. rewrite combine_map_pair by apply seq_length. rewrite map_map. cbn [fst snd].
  rewrite <- (map_id b) at 3. transitivity (map snd (combine (seq 0 (length b)) b)).
  - apply map_ext. intros [i x]. cbn [fst snd]. destruct (i <? 8)%nat; [|reflexivity]. rewrite Z.lxor_assoc, Z.lxor_nilpotent, Z.lxor_0_r. reflexivity.
  - generalize (seq 0 (length b)) (seq_length (length b) 0). induction b as [|x b IH]; intros [|i s] H; try discriminate; [reflexivity|].
    cbn [combine map snd]. rewrite IH by (cbn in H; lia). reflexivity.
Qed.
Lemma xor8_app a b k : length a = 8%nat -> xor8 (a ++ b) k = xor8 a k ++ b.
Proof.
  intros Ha. unfold xor8. rewrite app_length, seq_app.
  assert (C : forall (s1 s2 : list nat) (x y : list Z), length s1 = length x -> combine (s1 ++ s2) (x ++ y) = combine s1 x ++ combine s2 y).
  { induction s1 as [|i s1 IH]; intros s2 [|z x] y H; try discriminate; [reflexivity|]. cbn [app combine]. rewrite IH by (cbn in H; lia). reflexivity. }
  rewrite C by apply seq_length. rewrite map_app. f_equal.
  assert (G : forall s, (forall i, In i s -> (8 <= i)%nat) -> length s = length b ->
     map (fun ib => if (fst ib <? 8)%nat then Z.lxor (snd ib) (nth (fst ib) k 0) else snd ib) (combine s b) = b).
  { clear. induction b as [|x b IH]; intros [|i s] Hs H; try discriminate; [reflexivity|]. cbn [combine map fst snd].
    rewrite (proj2 (Nat.ltb_ge i 8)) by (apply Hs; left; reflexivity). rewrite IH; [reflexivity|intros j Hj; apply Hs; right; exact Hj|cbn in H; lia]. }
  apply G; [|apply seq_length]. intros i Hi. apply in_seq in Hi. lia.
Qed.
Lemma nth_byte k i : bytes_ok k -> 0 <= nth i k 0 < 256.
Proof.
  intros B. destruct (Nat.lt_ge_cases i (length k)) as [H|H]; [|rewrite nth_overflow by exact H; lia].
  unfold bytes_ok in B. rewrite Forall_forall in B. apply B, nth_In, H.
Qed.
Lemma xor8_ok b k : digits_ok 256 b -> bytes_ok k -> digits_ok 256 (xor8 b k).
Proof.
  unfold digits_ok. intros Hb Hk. unfold xor8. apply Forall_forall. intros y Hy. apply in_map_iff in Hy. destruct Hy as ([i x] & <- & Hx). cbn [fst snd].
  apply in_combine_r in Hx. rewrite Forall_forall in Hb. specialize (Hb x Hx). destruct (i <? 8)%nat; [|exact Hb].
  apply lxor_byte; [exact Hb|apply nth_byte, Hk].
Qed.
Lemma enc_small a : 0 <= a < 2 ^ 64 -> enc_sc a = le_digits 256 8 a ++ repeat 0 24.
Proof.
  intros Ha. unfold enc_sc. symmetry. rewrite <- (le_digits_val 256 (le_digits 256 8 a ++ repeat 0 24)).
  - rewrite app_length, le_digits_length, repeat_length. change (8 + 24)%nat with 32%nat. f_equal.
    rewrite le_val_app. change (le_val 256 (repeat 0 24)) with 0. rewrite Z.mul_0_r, Z.add_0_r, le_val_digits by lia.
    apply Z.mod_small. exact Ha.
  - lia.
  - apply Forall_app. split; [apply le_digits_ok; lia|]. apply Forall_forall. intros x Hx. apply repeat_spec in Hx. subst x. lia.
Qed.
Lemma small_scalar a : 0 <= a < 2 ^ 64 -> scalar a.
Proof. intros H. unfold scalar. assert (2 ^ 64 < l) by reflexivity. lia. Qed.
Lemma xor_roundtrip a k : 0 <= a < 2 ^ 64 -> bytes_ok k ->
  let b := xor8 (enc_sc a) k in scalar (dec_sc b) /\ enc_sc (dec_sc b) = b /\ xor8 b k = enc_sc a /\ b = firstn 8 b ++ repeat 0 24.
Proof.
  intros Ha Hk b.
  assert (Eb : b = xor8 (le_digits 256 8 a) k ++ repeat 0 24) by (unfold b; rewrite (enc_small a Ha); apply xor8_app, le_digits_length).
  set (lo := xor8 (le_digits 256 8 a) k) in *.
  assert (Lo : length lo = 8%nat) by (unfold lo; rewrite xor8_length; apply le_digits_length).
  assert (Okl : digits_ok 256 lo) by (apply xor8_ok; [apply le_digits_ok; lia|exact Hk]).
  assert (Okb : digits_ok 256 b).
  { rewrite Eb. apply Forall_app. split; [exact Okl|]. apply Forall_forall. intros x Hx. apply repeat_spec in Hx. subst x. lia. }
  assert (Lb : length b = 32%nat) by (rewrite Eb, app_length, Lo; reflexivity).
  assert (V : 0 <= le_val 256 b < 2 ^ 64).
  { rewrite Eb, le_val_app. change (le_val 256 (repeat 0 24)) with 0. rewrite Z.mul_0_r, Z.add_0_r.
    pose proof (le_val_range 256 lo ltac:(lia) Okl) as R. unfold zlen in R. rewrite Lo in R. exact R. }
  assert (D : dec_sc b = le_val 256 b) by (unfold dec_sc; apply scalar_small, small_scalar, V).
  split; [rewrite D; apply small_scalar, V|]. split; [|split; [apply xor8_invol|]].
  - rewrite D. unfold enc_sc. rewrite <- Lb. apply le_digits_val; [lia|exact Okb].
  - assert (F : firstn 8 b = lo) by (rewrite Eb, <- Lo, firstn_app, firstn_all, Nat.sub_diag; apply app_nil_r).
    rewrite F. exact Eb.
Qed.

Section P.
Context (E : ecops) (L : ec_laws E).
Local Notation G := (Gb E).

Lemma sc_addsub a h : scalar a -> sc_sub (sc_add a h) h = a.
Proof. intros H. unfold sc_sub, sc_add. rewrite Zminus_mod_idemp_l. replace (a + h - h) with a by ring. apply scalar_small, H. Qed.
Lemma v1_roundtrip mask amount d : scalar mask -> scalar amount ->
  ecdh_decode E (ecdh_encode E (mask, amount) d false) d false = (mask, amount).
Proof. intros Hm Ha. unfold ecdh_decode, ecdh_encode, ecdh_encdec. rewrite !sc_addsub by assumption. reflexivity. Qed.
Lemma v2_roundtrip mask amount d : hash_bytes E -> 0 <= amount < 2 ^ 64 ->
  ecdh_decode E (ecdh_encode E (mask, amount) d true) d true = (commitment_mask E d, amount).
Proof.
  intros Hh Ha. unfold ecdh_decode, ecdh_encode, ecdh_encdec. f_equal.
  destruct (xor_roundtrip amount (ecdh_hash E d) Ha (proj2 (Hh _))) as (_ & E2 & E3 & _). rewrite E2, E3. apply dec_enc_sc, small_scalar, Ha.
Qed.

(** device's encoding, as parsed by the agent *)
Lemma device_roundtrip mask amount ak v2 : hash_bytes E -> scalar mask -> 0 <= amount < 2 ^ 64 ->
  (v2 = true -> mask = commitment_mask E ak) ->
  let e := agent_parse_ecdh (s6_serialize_ecdh (s6_ecdh_encode E mask amount ak v2) v2) v2 in
  ecdh_decode E (dec_sc (fst e), dec_sc (snd e)) ak v2 = (mask, amount).
Proof.
  intros Hh Hm Ha Hv. unfold s6_ecdh_encode. rewrite (scalar_small amount (small_scalar amount Ha)).
  destruct v2; cbn [s6_serialize_ecdh agent_parse_ecdh fst snd].
  - destruct (xor_roundtrip amount (ecdh_hash E ak) Ha (proj2 (Hh _))) as (_ & E2 & E3 & E4).
    change (skipn 8 (repeat 0 32)) with (repeat 0 24). rewrite <- E4. unfold ecdh_decode, ecdh_encdec. rewrite E2, E3.
    rewrite (Hv eq_refl). f_equal. apply dec_enc_sc, small_scalar, Ha.
  - assert (F : forall (x y : list Z), length x = 32%nat -> firstn 32 (x ++ y) = x /\ skipn 32 (x ++ y) = y).
    { intros x y Hx. rewrite <- Hx. rewrite firstn_app, firstn_all, skipn_app, skipn_all, Nat.sub_diag. cbn [firstn skipn app]. rewrite app_nil_r. auto. }
    assert (N : forall v, firstn 32 (enc_sc v) = enc_sc v) by (intros v; apply firstn_all2; rewrite (enc_sc_key v); apply le_n).
    rewrite !N. destruct (F (enc_sc (sc_add mask (hash_to_scalar E ak))) (enc_sc (sc_add amount (hash_to_scalar E (enc_sc (hash_to_scalar E ak)))))) as [-> ->]; [apply enc_sc_key|].
    rewrite !dec_enc_sc by apply mod_scalar. unfold ecdh_decode, ecdh_encdec. rewrite !sc_addsub by (assumption || apply small_scalar, Ha). reflexivity.
Qed.
Lemma gen_c_commit mask amount : scalar mask -> 0 <= amount < 2 ^ 64 -> gen_c E mask amount = commit E mask amount /\ add_keys2 E mask amount (Hb E) = commit E mask amount.
Proof.
  intros Hm Ha. split; [|reflexivity]. unfold gen_c, commit, point_add, scalarmult_base, scalarmult_h.
  rewrite (scalar_small amount (small_scalar amount Ha)). reflexivity.
Qed.
Lemma decode_simple_ok rv sk i v2 e o mask amount :
  0 <= i -> length (rv_outPk rv) = length (rv_ecdh rv) -> nth_error (rv_ecdh rv) (Z.to_nat i) = Some e ->
  nth_error (rv_outPk rv) (Z.to_nat i) = Some (encp E o) -> o = commit E mask amount ->
  ecdh_decode E (dec_sc (fst e), dec_sc (snd e)) (enc_sc sk) v2 = (mask, amount) ->
  ecdh_decode_simple E rv sk i v2 = Ok (amount, mask).
Proof.
  intros Hi Hl He Ho Hc Hd. unfold ecdh_decode_simple.
  assert (Hlt : (Z.to_nat i < length (rv_ecdh rv))%nat) by (apply nth_error_Some; congruence).
  rewrite (proj2 (Z.ltb_lt _ _)) by (unfold zlen; lia). cbn [guard bind].
  rewrite (proj2 (Z.eqb_eq _ _)) by (unfold zlen; lia). cbn [guard bind].
  rewrite (py_get_nonneg _ i _ Hi He). cbn [bind]. rewrite Hd. rewrite (py_get_nonneg _ i _ Hi Ho). cbn [bind].
  rewrite (law_dec E L). cbn [bind]. replace (add_keys2 E mask amount (Hb E)) with o by (rewrite Hc; reflexivity).
  rewrite (proj2 (law_eqb E L o o) eq_refl). reflexivity.
Qed.
Lemma decode_simple_inv rv sk i v2 amount mask : 0 <= i -> ecdh_decode_simple E rv sk i v2 = Ok (amount, mask) ->
  exists o c, nth_error (rv_outPk rv) (Z.to_nat i) = Some o /\ decp E o = Ok c /\ c = commit E mask amount.
Proof.
  intros Hi H. unfold ecdh_decode_simple in H.
  destruct (i <? _); [|discriminate]. cbn [guard bind] in H. destruct (zlen (rv_outPk rv) =? _); [|discriminate]. cbn [guard bind] in H.
  destruct (py_get (rv_ecdh rv) i) as [e|]; [|discriminate]. cbn [bind] in H.
  destruct (ecdh_decode E _ _ _) as [m a].
  destruct (py_get (rv_outPk rv) i) as [o|] eqn:Eo; [|discriminate]. cbn [bind] in H.
  destruct (decp E o) as [c|] eqn:Ec; [|discriminate]. cbn [bind] in H.
  destruct (pt_eqb E _ c) eqn:Eq; [|discriminate]. cbn [guard bind] in H. apply ok_inj in H. apply pair_equal_spec in H. destruct H as [-> ->].
  exists o, c. split; [|split; [exact Ec|apply (law_eqb E L) in Eq; subst c; reflexivity]].
  unfold py_get, py_idx in Eo. rewrite (proj2 (Z.leb_le 0 i) Hi) in Eo. destruct (i <? zlen (rv_outPk rv)); cbn [andb] in Eo.
  - destruct (nth_error _ _); congruence.
  - rewrite (proj2 (Z.ltb_ge i 0) Hi) in Eo. discriminate.
Qed.

(** ** addresses *)
Lemma u32_ok v : u32 v -> u32_le v = Ok (le_digits 256 4 v).
Proof. intros [H1 H2]. unfold u32_le. rewrite (proj2 (Z.leb_le _ _) H1), (proj2 (Z.ltb_lt _ _) H2). reflexivity. Qed.
Lemma u32_bad v : ~ u32 v -> u32_le v = Err StructError.
Proof.
  intros H. unfold u32_le. destruct (Z.leb_spec 0 v); [|reflexivity]. destruct (Z.ltb_spec v (2 ^ 32)); [|reflexivity].
  exfalso. apply H. split; assumption.
Qed.
Lemma sub_key_ok view M m : u32 M -> u32 m -> (M =? 0) && (m =? 0) = false ->
  get_subaddress_secret_key E view M m = Ok (sub_scalar E view M m).
Proof.
  intros HM Hm Hz. unfold get_subaddress_secret_key, sub_scalar, ec_subaddress_secret_key. rewrite Hz, (u32_ok M HM), (u32_ok m Hm). reflexivity.
Qed.
Lemma sub_scalar_scalar view M m : scalar (sub_scalar E view M m).
Proof. unfold sub_scalar. destruct (_ && _); [split; [apply Z.le_refl|reflexivity]|apply hts_scalar]. Qed.
Lemma sub_D_eq view spend M m : scalar spend -> sub_D E view spend M m = padd E (smul E G spend) (smul E G (sub_scalar E view M m)).
Proof.
  intros Hs. unfold sub_D, sub_secret. rewrite (smul_mod E L _ _ (sub_G E L)).
  rewrite (zmul_add E L), !(smul_zmul E L) by (apply Hs || apply (sub_scalar_scalar view M m)). reflexivity.
Qed.
Lemma sub_D_main view spend : scalar spend -> sub_D E view spend 0 0 = smul E G spend.
Proof. intros Hs. unfold sub_D, sub_secret, sub_scalar. cbn [Z.eqb andb]. rewrite Z.add_0_r, (scalar_small spend Hs). reflexivity. Qed.
Lemma spend_pub_ok view spend M m : scalar spend -> u32 M -> u32 m ->
  get_subaddress_spend_public_key E view (smul E G spend) M m = Ok (sub_D E view spend M m).
Proof.
  intros Hs HM Hm. unfold get_subaddress_spend_public_key. destruct ((M =? 0) && (m =? 0)) eqn:Z0.
  - apply andb_true_iff in Z0. destruct Z0 as [A B]. apply Z.eqb_eq in A, B. subst. rewrite sub_D_main by exact Hs. reflexivity.
  - rewrite (sub_key_ok view M m HM Hm Z0). cbn [bind]. rewrite sub_D_eq by exact Hs. reflexivity.
Qed.
Lemma sub_keys_ok view spend M m : scalar spend -> u32 M -> u32 m ->
  generate_sub_address_keys E view (smul E G spend) M m = Ok (sub_D E view spend M m, sub_C E view spend M m).
Proof.
  intros Hs HM Hm. unfold generate_sub_address_keys, sub_C. destruct ((M =? 0) && (m =? 0)) eqn:Z0.
  - apply andb_true_iff in Z0. destruct Z0 as [A B]. apply Z.eqb_eq in A, B. subst. rewrite sub_D_main by exact Hs. reflexivity.
  - rewrite (sub_key_ok view M m HM Hm Z0). cbn [bind]. rewrite sub_D_eq by exact Hs. reflexivity.
Qed.
Lemma encp_inj P Q : encp E P = encp E Q -> P = Q.
Proof. intros H. apply ok_inj. rewrite <- !(law_dec E L), H. reflexivity. Qed.

(** the table *)
Lemma sa_get_set k k' v d : sa_get k (sa_set k' v d) = if zlist_eqb k k' then Some v else sa_get k d.
Proof. reflexivity. Qed.
Lemma compute_ok view spend account : scalar spend -> u32 account -> forall indices d, Forall u32 indices ->
  table_sound E view spend d ->
  exists d', compute_subaddresses E view (smul E G spend) account indices d = Ok d' /\ table_sound E view spend d' /\
    (forall m, In m indices -> table_has E view spend d' account m) /\
    (forall k, sa_get k d <> None -> sa_get k d' <> None) /\
    (forall k M m, sa_get k d' = Some (M, m) -> sa_get k d = Some (M, m) \/ (M = account /\ In m indices)).
Proof.
  intros Hs Ha. induction indices as [|idx indices IH]; intros d Fi Sd.
  - exists d. split; [reflexivity|]. split; [exact Sd|]. split; [contradiction|]. split; [auto|]. intros k M m H. left. exact H.
  - inversion Fi as [|? ? Hi Fi']; subst. cbn [compute_subaddresses].
    set (d1 := sa_set (encp E (sub_D E view spend account idx)) (account, idx) d).
    assert (Step : compute_subaddresses E view (smul E G spend) account (idx :: indices) d = compute_subaddresses E view (smul E G spend) account indices d1).
    { cbn [compute_subaddresses]. destruct ((account =? 0) && (idx =? 0)) eqn:Z0.
      - apply andb_true_iff in Z0. destruct Z0 as [A B]. apply Z.eqb_eq in A, B. subst. unfold d1. rewrite sub_D_main by exact Hs. reflexivity.
      - rewrite spend_pub_ok by assumption. reflexivity. }
    cbn [compute_subaddresses] in Step. rewrite Step.
    assert (S1 : table_sound E view spend d1).
    { intros k M m. unfold d1. rewrite sa_get_set. destruct (zlist_eqb k _) eqn:Ek; [|apply Sd].
      intros H. apply zlist_eqb_spec in Ek. assert (X : (account, idx) = (M, m)) by congruence. apply pair_equal_spec in X. destruct X as [-> ->]. auto. }
    destruct (IH d1 Fi' S1) as (d' & H1 & H2 & H3 & H4 & H5). exists d'. split; [exact H1|split; [exact H2|split; [|split]]].
    + intros m [<-|Hm]; [|apply H3, Hm]. unfold table_has. apply H4. unfold d1. rewrite sa_get_set, zlist_eqb_refl. discriminate.
    + intros k Hk. apply H4. unfold d1. rewrite sa_get_set. destruct (zlist_eqb k _); [discriminate|exact Hk].
    + intros k M m Hk. destruct (H5 k M m Hk) as [H|[-> H]]; [|right; split; [reflexivity|right; exact H]].
      unfold d1 in H. rewrite sa_get_set in H. destruct (zlist_eqb k _); [|left; exact H].
      assert (X : (account, idx) = (M, m)) by congruence. apply pair_equal_spec in X. destruct X as [-> ->]. right. split; [reflexivity|left; reflexivity].
Qed.

(** ** one-time keys *)
Lemma nz_check v : nz_scalar v -> sc_check v =? 0 = true.
Proof. intros H. apply sc_check_b, H. Qed.
Lemma derivation_ok P k : nz_scalar k -> generate_key_derivation E P k = Ok (zmul E (8 * k) P).
Proof.
  intros Hk. unfold generate_key_derivation. rewrite (nz_check k Hk). cbn [guard bind]. f_equal. unfold point_mul8, scalarmult.
  rewrite !(smul_zmul E L) by (unfold nz_scalar in Hk; lia). symmetry. apply (zmul_mul E L).
Qed.
Definition otk (der : pt E) (i : Z) (D : pt E) : pt E := derive_public_key E der i D.
Lemma undo_otk der i D : derive_subaddress_public_key E (otk der i D) der i = D.
Proof. unfold derive_subaddress_public_key, otk, derive_public_key, point_sub, point_add, scalarmult_base. lin E L. Qed.
Lemma redo_otk der i P D : derive_subaddress_public_key E P der i = D -> P = otk der i D.
Proof. intros <-. unfold derive_subaddress_public_key, otk, derive_public_key, point_sub, point_add, scalarmult_base. lin E L. Qed.
Lemma helper_ok view spend der i M m : nz_scalar spend -> u32 M -> u32 m ->
  let P := otk der i (sub_D E view spend M m) in
  exists x, generate_key_image_helper_precomp E (wallet E view spend) P der i (M, m) = Ok (x, smul E (Hp E (encp E P)) x) /\
    scalar x /\ smul E G x = P.
Proof.
  intros Hs HM Hm P. pose proof (nz_scalar_scalar spend Hs) as Ss.
  set (h := derivation_to_scalar E der i).
  assert (Sh : scalar h) by apply hts_scalar.
  set (x := (spend + h + sub_scalar E view M m) mod l).
  assert (Ex : smul E G x = P).
  { unfold x, P, otk, derive_public_key. fold h. rewrite sub_D_eq by exact Ss. rewrite (smul_mod E L _ _ (sub_G E L)).
    unfold point_add, scalarmult_base. rewrite !(smul_zmul E L) by (apply Ss || apply Sh || apply (sub_scalar_scalar view M m)).
    rewrite !(zmul_add E L). lin E L. }
  exists x. split; [|split; [apply mod_scalar|exact Ex]].
  unfold generate_key_image_helper_precomp. cbn [wallet cr_spend cr_view cr_multisig cr_spend_pub fst snd negb].
  replace (sc_isnonzero spend) with true by (unfold sc_isnonzero; destruct (Z.eqb_spec spend 0); [unfold nz_scalar in Hs; lia|reflexivity]).
  cbn [guard bind]. unfold derive_secret_key. rewrite (nz_check spend Hs). cbn [guard bind]. fold h.
  destruct ((M =? 0) && (m =? 0)) eqn:Z0.
  - cbn [bind]. assert (X : sc_add spend h = x).
    { unfold x, sc_add, sub_scalar. rewrite Z0, Z.add_0_r. reflexivity. }
    rewrite X. change (scalarmult_base E x) with (smul E G x). rewrite Ex. rewrite (proj2 (law_eqb E L P P) eq_refl). reflexivity.
  - rewrite (sub_key_ok view M m HM Hm Z0). cbn [bind].
    assert (X : sc_add (sc_add spend h) (sub_scalar E view M m) = x).
    { unfold x, sc_add. rewrite Zplus_mod_idemp_l. reflexivity. }
    rewrite X. change (scalarmult_base E x) with (smul E G x). rewrite Ex. rewrite (proj2 (law_eqb E L P P) eq_refl). reflexivity.
Qed.
(** whatever is recognised is spendable *)
Lemma recognised_spendable view spend d P der adds i M m der' : nz_scalar spend -> table_sound E view spend d ->
  is_out_to_acc_precomp E d P der adds i = Ok (Some ((M, m), der')) ->
  P = otk der' i (sub_D E view spend M m) /\ u32 M /\ u32 m.
Proof.
  intros Hs Sd H. unfold is_out_to_acc_precomp in H.
  destruct (sa_get (encp E (derive_subaddress_public_key E P der i)) d) as [[M' m']|] eqn:Eg.
  - apply ok_inj in H. assert (X : ((M', m'), der) = ((M, m), der')) by congruence. apply pair_equal_spec in X. destruct X as [X ->].
    apply pair_equal_spec in X. destruct X as [-> ->]. apply Sd in Eg. destruct Eg as (HM & Hm & Eg). split; [|auto].
    apply redo_otk, encp_inj, Eg.
  - destruct adds as [|a0 adds]; [discriminate|]. destruct (i <? _); [|discriminate]. cbn [guard bind] in H.
    destruct (py_get (a0 :: adds) i) as [ad|]; [|discriminate]. cbn [bind] in H.
    destruct (sa_get (encp E (derive_subaddress_public_key E P ad i)) d) as [[M' m']|] eqn:Eg'; [|discriminate].
    apply ok_inj in H. assert (X : ((M', m'), ad) = ((M, m), der')) by congruence. apply pair_equal_spec in X. destruct X as [X ->].
    apply pair_equal_spec in X. destruct X as [-> ->]. apply Sd in Eg'. destruct Eg' as (HM & Hm & Eg'). split; [|auto].
    apply redo_otk, encp_inj, Eg'.
Qed.
Lemma found view spend d P der i M m : table_sound E view spend d -> table_has E view spend d M m ->
  P = otk der i (sub_D E view spend M m) ->
  exists M' m', sa_get (encp E (derive_subaddress_public_key E P der i)) d = Some (M', m') /\
    u32 M' /\ u32 m' /\ sub_D E view spend M' m' = sub_D E view spend M m.
Proof.
  intros Sd Hd ->. rewrite undo_otk. unfold table_has in Hd. destruct (sa_get _ d) as [[M' m']|] eqn:Eg; [|congruence].
  destruct (Sd _ _ _ Eg) as (HM & Hm & Ek). exists M', m'. repeat split; try apply HM; try apply Hm. symmetry. apply encp_inj, Ek.
Qed.
(** the derivation the receiver computes is the sender's *)
Lemma sender_derivation view spend M m change na r s va i R adds P ak :
  nz_scalar view -> nz_scalar r -> nz_scalar s -> (change = true -> va = view) ->
  published E na (dest_of E view spend M m change) r s i R adds ->
  compute_tx_keys E na (dest_of E view spend M m change) r s va R i = Ok (P, ak) ->
  exists der, P = otk der i (sub_D E view spend M m) /\ ak = derivation_to_scalar E der i /\
    (der = zmul E (8 * view) R \/ exists Ri, nth_error adds (Z.to_nat i) = Some Ri /\ 0 <= i /\ der = zmul E (8 * view) Ri).
Proof.
  intros Hv Hr Hs Hva (Hp1 & Hp2 & Hp3) H. unfold compute_tx_keys in H.
  destruct (out_derivation _ _ _ _ _ _ _) as [der|] eqn:Ed; [|discriminate]. cbn [bind] in H. apply ok_inj in H. apply pair_equal_spec in H. destruct H as [<- <-].
  exists der. split; [reflexivity|split; [reflexivity|]]. unfold out_derivation in Ed.
  unfold dest_of in *. cbn [ds_change ds_sub ds_view ds_spend] in *.
  destruct change.
  - left. rewrite (derivation_ok R va) in Ed by (rewrite (Hva eq_refl); exact Hv). apply ok_inj in Ed. rewrite <- Ed, (Hva eq_refl). reflexivity.
  - specialize (Hp3 eq_refl). unfold sub_C in Ed. pose proof Hv as [Hv1 _]. pose proof Hr as [Hr1 _]. pose proof Hs as [Hs1 _]. destruct ((M =? 0) && (m =? 0)); cbn [negb andb] in *.
    + left. rewrite derivation_ok in Ed by exact Hr. apply ok_inj in Ed. rewrite <- Ed, Hp3, !(smul_zmul E L), <- !(zmul_mul E L) by lia. f_equal. ring.
    + destruct na.
      * right. destruct (Hp2 eq_refl) as [Hi Hn]. rewrite derivation_ok in Ed by exact Hs. apply ok_inj in Ed.
        eexists. split; [exact Hn|split; [exact Hi|]]. cbn [ds_sub ds_spend]. unfold scalarmult.
        rewrite <- Ed, !(smul_zmul E L), <- !(zmul_mul E L) by lia. f_equal. ring.
      * left. rewrite derivation_ok in Ed by exact Hr. apply ok_inj in Ed.
        rewrite <- Ed, (Hp3 eq_refl), !(smul_zmul E L), <- !(zmul_mul E L) by lia. f_equal. ring.
Qed.
Lemma compute_tx_keys_ok na dst r s va R i : nz_scalar va -> nz_scalar r -> nz_scalar s -> exists P ak, compute_tx_keys E na dst r s va R i = Ok (P, ak).
Proof.
  intros Hv Hr Hs. unfold compute_tx_keys, out_derivation. destruct (ds_change E dst); [|destruct (_ && _)]; rewrite derivation_ok by assumption; cbn [bind]; eauto.
Qed.
Lemma mapM_deriv view : nz_scalar view -> forall adds, mapM (fun p => generate_key_derivation E p view) adds = Ok (map (zmul E (8 * view)) adds).
Proof. intros Hv. induction adds as [|p adds IH]; [reflexivity|]. cbn [mapM map]. rewrite derivation_ok by exact Hv. cbn [bind]. rewrite IH. reflexivity. Qed.

(** recognition: the sender's derivation is found, or the main one already matched *)
Lemma recognised view spend d P i M m recv adds : table_sound E view spend d -> table_has E view spend d M m -> 0 <= i ->
  forall der, P = otk der i (sub_D E view spend M m) -> (der = recv \/ nth_error adds (Z.to_nat i) = Some der) ->
  (exists M' m', is_out_to_acc_precomp E d P recv adds i = Ok (Some ((M', m'), der)) /\ u32 M' /\ u32 m' /\ sub_D E view spend M' m' = sub_D E view spend M m) \/
  (der <> recv /\ exists M' m', u32 M' /\ u32 m' /\ P = otk recv i (sub_D E view spend M' m')).
Proof.
  intros Sd Hd Hi der EP Hder. destruct (found view spend d P der i M m Sd Hd EP) as (M' & m' & Eg & HM & Hm & ED).
  unfold is_out_to_acc_precomp.
  assert (C : der = recv \/ der <> recv).
  { destruct (pt_eqb E der recv) eqn:Eb; [left; apply (law_eqb E L), Eb|right; intros ->; rewrite (proj2 (law_eqb E L recv recv) eq_refl) in Eb; discriminate]. }
  destruct C as [->|Nr]; [left; exists M', m'; rewrite Eg; auto|].
  destruct (sa_get (encp E (derive_subaddress_public_key E P recv i)) d) as [[M2 m2]|] eqn:E2.
  - right. split; [exact Nr|]. destruct (Sd _ _ _ E2) as (HM2 & Hm2 & Ek). exists M2, m2. split; [exact HM2|split; [exact Hm2|]]. apply redo_otk, encp_inj, Ek.
  - left. destruct Hder as [->|Hn]; [congruence|]. destruct adds as [|a0 adds]; [destruct (Z.to_nat i); discriminate|].
    assert (Hlt : (Z.to_nat i < length (a0 :: adds))%nat) by (apply nth_error_Some; congruence).
    rewrite (proj2 (Z.ltb_lt _ _)) by (unfold zlen; lia). cbn [guard bind]. rewrite (py_get_nonneg _ i _ Hi Hn). cbn [bind]. rewrite Eg. exists M', m'. auto.
Qed.
Lemma rv_decode (rv : rv_outs) der i (v2 : bool) mask amount o : hash_bytes E -> scalar mask -> 0 <= amount < 2 ^ 64 -> 0 <= i ->
  (if v2 then rv_type rv = 4 else 1 <= rv_type rv <= 3) ->
  (v2 = true -> mask = commitment_mask E (enc_sc (derivation_to_scalar E der i))) ->
  length (rv_outPk rv) = length (rv_ecdh rv) -> nth_error (rv_outPk rv) (Z.to_nat i) = Some (encp E o) -> o = gen_c E mask amount ->
  nth_error (rv_ecdh rv) (Z.to_nat i) = Some (agent_parse_ecdh (s6_serialize_ecdh (s6_ecdh_encode E mask amount (enc_sc (derivation_to_scalar E der i)) v2) v2) v2) ->
  ecdh_decode_rv E rv der i = Ok (amount, mask).
Proof.
  intros Hh Hm Ha Hi Ht Hv Hl Ho Eo He. unfold ecdh_decode_rv.
  assert (D : ecdh_decode_simple E rv (derivation_to_scalar E der i) i v2 = Ok (amount, mask)).
  { eapply decode_simple_ok; [exact Hi|exact Hl|exact He|exact Ho| |].
    - rewrite Eo. apply (gen_c_commit mask amount Hm Ha).
    - apply device_roundtrip; assumption. }
  destruct v2.
  - rewrite Ht. exact D.
  - replace ((rv_type rv =? 1) || (rv_type rv =? 2) || (rv_type rv =? 3)) with true; [exact D|].
    symmetry. apply orb_true_iff. assert (C : rv_type rv = 1 \/ rv_type rv = 2 \/ rv_type rv = 3) by lia.
    destruct C as [C|[C|C]]; rewrite C; auto.
Qed.
End P.
