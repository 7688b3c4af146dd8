(** C52, C53: encrypted containers and recovery of the transaction keys. *)
From Verif Require Import Py PyLemmas Digits Ints_model Ec_model Ec_spec Ec_proof Ec_toy Sigs_model Sigs_spec Sigs_proof Mlsag_model Rsig_model Rsig_proof KeySep_proof Clsag_proof Container_model Container_proof.

(** ** C52 *)
(** A pack decrypts under the same key to the plaintext. *)
Theorem C52_pack_roundtrip K key plaintext nonce : cipher_laws K -> length nonce = 12%nat ->
  decrypt_pack K key (encrypt_pack K key plaintext nonce None) = Ok plaintext.
Proof. apply pack_roundtrip. Qed.
Print Assumptions C52_pack_roundtrip.
Example C52_pack_roundtrip_example :
  decrypt_pack toy_prims [1] (encrypt_pack toy_prims [1] [7; 8; 9] (repeat 3 12) None) = Ok [7; 8; 9] /\
  decrypt_pack toy_prims [2] (encrypt_pack toy_prims [1] [7; 8; 9] (repeat 3 12) None) = Err ValueError.
Proof. vm_compute. split; reflexivity. Qed.

(** Any other byte string that a pack's key accepts is a forgery of the cipher: another
    nonce or another text authenticates under the key. *)
Theorem C52_pack_changed K key plaintext nonce container m : length nonce = 12%nat ->
  container <> encrypt_pack K key plaintext nonce None ->
  decrypt_pack K key container = Ok m ->
  exists nonce' text', (nonce' <> nonce \/ text' <> aead_enc K key nonce plaintext None) /\
    container = nonce' ++ text' /\ aead_dec K key nonce' text' None = Ok m.
Proof.
  intros Hn Hc Hd. exists (py_upto container 12), (py_from container 12). split; [|split; [symmetry; apply py_upto_from|exact Hd]].
  destruct (zlist_eqb (py_upto container 12) nonce) eqn:E1.
  - right. apply zlist_eqb_spec in E1. intros E2. apply Hc. unfold encrypt_pack. rewrite app_nil_r, <- E1 at 1. rewrite <- E2. symmetry. apply py_upto_from.
  - left. intros E2. rewrite E2, zlist_eqb_refl in E1. discriminate.
Qed.
Print Assumptions C52_pack_changed.
Example C52_pack_changed_example :
  decrypt_pack toy_prims [1] (encrypt_pack toy_prims [1] [7; 8; 9] (repeat 3 12) None ++ [0]) = Err ValueError.
Proof. vm_compute. reflexivity. Qed.

(** FALSE with associated data: [encrypt_pack] takes it and [decrypt_pack] cannot be given
    it, so the pack opens only if the cipher accepts a text under other associated data. *)
Theorem C52_pack_associated_data_refuted :
  ~ (forall K key plaintext nonce ad, cipher_laws K -> length nonce = 12%nat ->
       decrypt_pack K key (encrypt_pack K key plaintext nonce (Some ad)) = Ok plaintext) /\
  (forall K key plaintext nonce ad m, length nonce = 12%nat ->
     decrypt_pack K key (encrypt_pack K key plaintext nonce (Some ad)) = Ok m ->
     aead_dec K key nonce (aead_enc K key nonce plaintext (Some ad)) None = Ok m).
Proof.
  split.
  - intros H. specialize (H toy_prims [1] [7] (repeat 3 12) [5] toy_cipher_laws eq_refl). vm_compute in H. discriminate H.
  - intros K key p nonce ad m Hn H. unfold decrypt_pack, encrypt_pack in H. rewrite app_nil_r in H.
    destruct (split12 nonce (aead_enc K key nonce p (Some ad)) Hn) as [E1 E2]. rewrite E1, E2 in H. exact H.
Qed.
Print Assumptions C52_pack_associated_data_refuted.

(** The container of the wallet files: decryption returns the plaintext, unless the
    signature drawn has a zero component (then the check refuses it). *)
Theorem C52_xmr_roundtrip (E : ecops) K : ec_laws E -> cipher_laws K -> forall priv plaintext nonce k authenticated,
  scalar priv -> scalar k -> length nonce = 8%nat ->
  let body := chacha_encrypt K (cn_slow K (enc_sc priv)) plaintext nonce in
  let '(c, r, _) := generate_signature E (hash E body) priv k in
  (authenticated = true -> c <> 0 /\ r <> 0) ->
  decrypt_xmr E K priv (encrypt_xmr E K priv plaintext nonce k authenticated) authenticated = Ok plaintext.
Proof.
  intros L [HK _] priv p nonce k auth Hp Hk Hn body. destruct (generate_signature E (hash E body) priv k) as [[c r] pub] eqn:Eg.
  intros Hz. unfold encrypt_xmr. fold body.
  assert (D : chacha_decrypt K (cn_slow K (enc_sc priv)) body = p).
  { unfold chacha_decrypt, body, chacha_encrypt. rewrite py_upto_app, py_from_app by (unfold zlen; rewrite Hn; reflexivity). apply HK. }
  destruct auth; cbn [negb].
  - rewrite Eg. destruct (schnorr_complete E L _ _ _ _ _ _ Hp Hk Eg) as (Hpub & Sc & Sr & V).
    destruct (Hz eq_refl) as [Hc Hr].
    unfold decrypt_xmr.
    assert (Ls : zlen (enc_sc c ++ enc_sc r) = 64) by (unfold zlen; rewrite app_length, !(enc_sc_key _); reflexivity).
    rewrite (py_from_neg_app body (enc_sc c ++ enc_sc r)) by lia. rewrite (py_upto_neg_app body (enc_sc c ++ enc_sc r)) by lia.
    rewrite py_upto_app, py_from_app by (unfold zlen; rewrite (enc_sc_key c); reflexivity).
    rewrite !decodeint_enc0 by assumption. cbn [bind].
    assert (Ch : check_signature E (hash E body) c r (scalarmult_base E priv) = Ok true).
    { apply schnorr_iff. split; [apply nz_of_scalar; assumption|split; [apply nz_of_scalar; assumption|]]. unfold scalarmult_base. rewrite <- Hpub. exact V. }
    rewrite Ch. cbn [bind guard]. rewrite D. reflexivity.
  - unfold decrypt_xmr. cbn [bind]. rewrite D. reflexivity.
Qed.
Print Assumptions C52_xmr_roundtrip.
Example C52_xmr_roundtrip_example :
  decrypt_xmr toy toy_prims 1234 (encrypt_xmr toy toy_prims 1234 [7; 8; 9] (repeat 3 8) 99 true) true = Ok [7; 8; 9] /\
  decrypt_xmr toy toy_prims 1235 (encrypt_xmr toy toy_prims 1234 [7; 8; 9] (repeat 3 8) 99 true) true = Err ValueError.
Proof. vm_compute. split; reflexivity. Qed.

(** What an accepted container is: some text followed by 64 bytes that read as a valid
    signature of the text's hash under the owner's key.  A container whose text differs
    from the one produced therefore carries a signature on another hash, or the two texts
    collide. *)
Theorem C52_xmr_accepted (E : ecops) K priv container m :
  decrypt_xmr E K priv container true = Ok m ->
  let text := py_upto container (-64) in
  exists c r, nz_scalar c /\ nz_scalar r /\ schnorr_valid E (hash E text) c r (smul E (Gb E) priv) /\
    m = chacha_decrypt K (cn_slow K (enc_sc priv)) text /\
    (forall body, text <> body -> hash E text <> hash E body \/ (exists x y, x <> y /\ hash E x = hash E y)).
Proof.
  intros H text. unfold decrypt_xmr in H. fold text in H.
  destruct (decodeint (py_upto (py_from container (-64)) 32)) as [c|]; [|discriminate]. cbn [bind] in H.
  destruct (decodeint (py_from (py_from container (-64)) 32)) as [r|]; [|discriminate]. cbn [bind] in H.
  destruct (check_signature E (hash E text) c r (scalarmult_base E priv)) as [[|]|] eqn:Ch; try discriminate. cbn [bind guard] in H.
  apply schnorr_iff in Ch. destruct Ch as (Hc & Hr & V). apply ok_inj in H. exists c, r. repeat split; try assumption; try apply Hc; try apply Hr; [symmetry; exact H|].
  intros body Hb. destruct (zlist_eqb (hash E text) (hash E body)) eqn:Eh.
  - right. apply zlist_eqb_spec in Eh. exists text, body. auto.
  - left. intros X. rewrite X, zlist_eqb_refl in Eh. discriminate.
Qed.
Print Assumptions C52_xmr_accepted.
Example C52_xmr_accepted_example :
  let c := encrypt_xmr toy toy_prims 1234 [7; 8; 9] (repeat 3 8) 99 true in
  decrypt_xmr toy toy_prims 1234 (upd c 9 0) true = Err ValueError /\ decrypt_xmr toy toy_prims 1234 [1; 2] true = Err IndexError.
Proof. vm_compute. split; reflexivity. Qed.

(** FALSE for the signature bytes: the two scalars are reduced when read, so adding the
    group order to one gives a different container that is accepted. *)
Theorem C52_signature_malleable_refuted (E : ecops) K priv body c r m :
  scalar c -> scalar r ->
  decrypt_xmr E K priv (body ++ enc_sc c ++ enc_sc r) true = Ok m ->
  let changed := body ++ le_digits 256 32 (c + l) ++ enc_sc r in
  changed <> body ++ enc_sc c ++ enc_sc r /\ decrypt_xmr E K priv changed true = Ok m.
Proof.
  intros Sc Sr H changed. set (c' := le_digits 256 32 (c + l)).
  assert (B : 0 <= c + l < 2 ^ 256).
  { unfold scalar in Sc. assert (l + l < 2 ^ 256) by reflexivity. assert (0 < l) by reflexivity. lia. }
  assert (V : le_val 256 c' = c + l) by (unfold c'; rewrite le_val_digits by lia; apply Z.mod_small; exact B).
  assert (Lc : length c' = 32%nat) by apply le_digits_length.
  assert (Dc : decodeint c' = Ok c).
  { unfold decodeint. rewrite (proj2 (Z.ltb_ge _ _)) by (unfold zlen; rewrite Lc; lia). rewrite firstn_all2 by (rewrite Lc; apply le_n).
    f_equal. unfold dec_sc. rewrite V. rewrite <- (Z.mul_1_l l) at 1. rewrite Z.mod_add by discriminate. apply scalar_small, Sc. }
  assert (Ls : zlen (enc_sc c ++ enc_sc r) = 64) by (unfold zlen; rewrite app_length, !(enc_sc_key _); reflexivity).
  assert (Ls' : zlen (c' ++ enc_sc r) = 64) by (unfold zlen; rewrite app_length, (enc_sc_key r), Lc; reflexivity).
  split.
  - unfold changed. intros X. apply app_inv_head, app_inv_tail in X. fold c' in X.
    assert (Y : le_val 256 c' = le_val 256 (enc_sc c)) by (f_equal; exact X). rewrite V in Y.
    assert (Vc : le_val 256 (enc_sc c) = c).
    { unfold enc_sc. rewrite le_val_digits by lia. apply Z.mod_small. change (256 ^ Z.of_nat 32) with (2 ^ 256).
      assert (l < 2 ^ 256) by reflexivity. unfold scalar in Sc. lia. }
    rewrite Vc in Y. assert (0 < l) by reflexivity. lia.
  - rewrite <- H. unfold decrypt_xmr, changed. fold c'.
    rewrite (py_from_neg_app body (enc_sc c ++ enc_sc r)), (py_from_neg_app body (c' ++ enc_sc r)) by lia.
    rewrite (py_upto_neg_app body (enc_sc c ++ enc_sc r)), (py_upto_neg_app body (c' ++ enc_sc r)) by lia.
    rewrite !py_upto_app, !py_from_app by (unfold zlen; rewrite ?Lc, ?(enc_sc_key c); reflexivity).
    rewrite Dc, (decodeint_enc0 c) by exact Sc. reflexivity.
Qed.
Print Assumptions C52_signature_malleable_refuted.
(** every authenticated container has that form *)
Lemma container_form (E : ecops) K : ec_laws E -> forall priv p nonce k, scalar priv -> scalar k ->
  exists body c r, encrypt_xmr E K priv p nonce k true = body ++ enc_sc c ++ enc_sc r /\ scalar c /\ scalar r.
Proof.
  intros L priv p nonce k Hp Hk. exists (chacha_encrypt K (cn_slow K (enc_sc priv)) p nonce).
  destruct (generate_signature E (hash E (chacha_encrypt K (cn_slow K (enc_sc priv)) p nonce)) priv k) as [[c r] pub] eqn:Eg.
  exists c, r. split; [unfold encrypt_xmr; cbn [negb]; rewrite Eg; reflexivity|].
  destruct (schnorr_complete E L _ _ _ _ _ _ Hp Hk Eg) as (_ & H1 & H2 & _). auto.
Qed.
Example C52_signature_malleable_example :
  exists body c r, encrypt_xmr toy toy_prims 1234 [7; 8; 9] (repeat 3 8) 99 true = body ++ enc_sc c ++ enc_sc r /\ scalar c /\ scalar r.
Proof. apply container_form; [exact toy_laws| |]; (split; [discriminate|reflexivity]). Qed.

(** ** C53 *)
(** The owner of the spend key gets back the tx secret key and all additional keys from
    the salt, multiplier and encrypted keys of the final message and the prefix hash. *)
Theorem C53_recovered (E : ecops) K : cipher_laws K -> forall spend prefix_hash r additional rsalt rmult nonce salt rand_mult enc_keys,
  scalar r -> Forall scalar additional -> scalar rmult -> rsalt <> [] -> length nonce = 12%nat ->
  final_keys E K spend prefix_hash r additional rsalt rmult nonce = Ok (salt, rand_mult, enc_keys) ->
  recover_keys E K spend prefix_hash salt rand_mult enc_keys = Ok (r :: additional).
Proof.
  intros HK spend h r adds rsalt rmult nonce salt rand_mult enc_keys Hr Ha Hm Hs Hn H.
  unfold final_keys, compute_tx_key in H. change (zlen (@nil Z) =? 0) with true in H. cbn [bind] in H. apply ok_inj in H.
  apply pair_equal_spec in H. destruct H as [H <-]. apply pair_equal_spec in H. destruct H as [<- <-].
  unfold recover_keys, compute_tx_key.
  replace (zlen rsalt =? 0) with false by (destruct rsalt; [contradiction|symmetry; apply Z.eqb_neq; unfold zlen; cbn [length]; lia]).
  replace (zlen (enc_sc rmult) =? 0) with false by (unfold zlen; rewrite (enc_sc_key rmult); reflexivity).
  rewrite decodeint_enc0 by exact Hm. cbn [bind]. rewrite pack_roundtrip by assumption. cbn [bind].
  change (enc_sc r ++ concat (map enc_sc adds)) with (concat (map enc_sc (r :: adds))). rewrite chunk_all. cbn [bind]. apply decode_all. constructor; assumption.
Qed.
Print Assumptions C53_recovered.
(** and the message always exists *)
Theorem C53_released (E : ecops) K spend prefix_hash r additional rsalt rmult nonce :
  exists salt rand_mult enc_keys, final_keys E K spend prefix_hash r additional rsalt rmult nonce = Ok (salt, rand_mult, enc_keys) /\
    salt = rsalt /\ rand_mult = enc_sc rmult.
Proof. do 3 eexists. split; [reflexivity|split; reflexivity]. Qed.
Print Assumptions C53_released.
Example C53_recovered_example :
  exists salt mult keys, final_keys toy toy_prims 1234 (repeat 1 32) 77 [88; 99] (repeat 5 32) 4321 (repeat 3 12) = Ok (salt, mult, keys) /\
    recover_keys toy toy_prims 1234 (repeat 1 32) salt mult keys = Ok [77; 88; 99] /\
    recover_keys toy toy_prims 1235 (repeat 1 32) salt mult keys = Err ValueError /\
    recover_keys toy toy_prims 1234 (repeat 2 32) salt mult keys = Err ValueError.
Proof. do 3 eexists. split; [vm_compute; reflexivity|]. vm_compute. repeat split; reflexivity. Qed.

(** The agent's request: if the device answers with the keys packed under the key shared
    with the host, the agent returns exactly the keys. *)
Theorem C53_agent (E : ecops) K : cipher_laws K -> forall view prefix_hash salt keys nonce,
  Forall scalar keys -> length nonce = 12%nat ->
  agent_get_tx_key E K view prefix_hash salt
    (encrypt_pack K (hmac K salt (hash E (hash E (enc_sc view ++ prefix_hash)))) (concat (map enc_sc keys)) nonce None) = Ok keys.
Proof.
  intros HK view h salt keys nonce Hk Hn. unfold agent_get_tx_key.
  change (compute_tx_key_host E K view h salt) with (hmac K salt (hash E (hash E (enc_sc view ++ h)))).
  rewrite pack_roundtrip by assumption. cbn [bind].
  assert (Lk : zlen (concat (map enc_sc keys)) = zlen keys * 32) by (unfold zlen; rewrite concat_keys_len; lia).
  rewrite Lk, Z.mod_mul, Z.div_mul by discriminate. cbn [Z.eqb guard bind].
  destruct (slices_all keys [] Hk) as [H|H]; [|contradiction H; reflexivity].
  unfold zrange, zlen. rewrite Nat2Z.id. exact H.
Qed.
Print Assumptions C53_agent.
Example C53_agent_example :
  agent_get_tx_key toy toy_prims 55 (repeat 1 32) [9]
    (encrypt_pack toy_prims (hmac toy_prims [9] (hash toy (hash toy (enc_sc 55 ++ repeat 1 32)))) (enc_sc 77 ++ enc_sc 88) (repeat 3 12) None) = Ok [77; 88].
Proof. vm_compute. reflexivity. Qed.
