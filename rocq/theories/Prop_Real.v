(** The completeness theorems of C31-C35, C38-C41, C51 and C52 for the real curve: [ed25519] is the curve of
    monero_glue/xmr/core/ec_base.py with the library's own routines on coordinates and Keccak-256 (Ed25519_inst.v), for
    which every law those theorems ask of the group is proved (C64_interface).  No algebraic hypothesis is left.
    The cipher laws of C52 stay a hypothesis. *)
From Verif Require Import Py PyLemmas Digits Ints_model Ec_model Ec_spec Ec_proof Ed25519_inst Sigs_model Sigs_spec Sigs_proof Mlsag_model Mlsag_spec Borromean_model Borromean_spec Wallet_model Wallet_spec Extra_model Extra_spec Rsig_model Container_model Rsig_spec Container_proof Clsag_proof Protobuf_spec Mlsag_proof Mlsag_proof3 Prop_Keccak Prop_Sigs Prop_Mlsag Prop_Borromean Prop_Wallet Prop_Extra Prop_Rsig Prop_Container.

Theorem C31_on_ed25519_complete : forall data priv k c r pub,
  scalar priv -> scalar k -> generate_signature ed25519 data priv k = (c, r, pub) ->
  pub = smul ed25519 (Gb ed25519) priv /\
  check_signature ed25519 data c r pub = (if (c =? 0) || (r =? 0) then Err ValueError else Ok true).
Proof. exact (C31_complete ed25519 ed25519_laws). Qed.
Print Assumptions C31_on_ed25519_complete.

Theorem C32_on_ed25519_complete : forall prefix pubs sec idx test rnd,
  scalar sec -> (forall i, scalar (fst (rnd i)) /\ scalar (snd (rnd i))) ->
  0 <= idx -> nth_error pubs (Z.to_nat idx) = Some (smul ed25519 (Gb ed25519) sec) ->
  let image := smul ed25519 (Hp ed25519 (encp ed25519 (smul ed25519 (Gb ed25519) sec))) sec in
  exists sig, generate_ring_signature ed25519 prefix image pubs sec idx test rnd = Ok sig /\ length sig = length pubs /\
    (Forall (fun cr => fst cr <> 0 /\ snd cr <> 0) sig -> check_ring_signature ed25519 prefix image pubs sig = Ok true).
Proof. exact (C32_complete ed25519 ed25519_laws). Qed.
Print Assumptions C32_on_ed25519_complete.

Theorem C32_on_ed25519_test_mode : forall prefix image pubs sec idx rnd P sig,
  0 <= idx -> nth_error pubs (Z.to_nat idx) = Some P ->
  generate_ring_signature ed25519 prefix image pubs sec idx true rnd = Ok sig ->
  P = smul ed25519 (Gb ed25519) sec /\ image = smul ed25519 (Hp ed25519 (encp ed25519 P)) sec.
Proof. exact (C32_test_mode ed25519 ed25519_laws). Qed.
Print Assumptions C32_on_ed25519_test_mode.

Theorem C33_on_ed25519_complete : forall message pk xx kl ms index ds rows al rnd,
  (2 <= length pk)%nat -> (index < length pk)%nat -> (0 < rows)%nat -> Forall (fun col => length col = rows) pk ->
  (ds <= rows)%nat -> column_keys ed25519 (nth index pk []) xx ->
  length al = rows -> Forall scalar al -> (forall i, length (rnd i) = rows) ->
  multisig_ok ed25519 kl ms ds (nth index pk []) xx ->
  exists rv c, gen_mlsag_ext ed25519 message pk xx kl ms index ds al rnd = Ok (rv, c) /\
    mg_II ed25519 rv = key_images ed25519 ds (nth index pk []) xx /\
    ver_mlsag_ext ed25519 message pk rv ds = Ok true.
Proof. exact (C33_complete ed25519 ed25519_laws). Qed.
Print Assumptions C33_on_ed25519_complete.

Theorem C33_on_ed25519_simple : forall message pubs x mask a amount index al rnd p,
  (2 <= length pubs)%nat -> Forall (decodes ed25519) pubs -> nth_error pubs index = Some p ->
  scalar x -> scalar mask -> scalar a -> 0 <= amount ->
  decp ed25519 (ct_dest p) = Ok (smul ed25519 (Gb ed25519) x) -> decp ed25519 (ct_comm p) = Ok (commit ed25519 mask amount) ->
  length al = 2%nat -> Forall scalar al -> (forall i, length (rnd i) = 2%nat) ->
  exists rv c,
    prove_rct_mg_simple ed25519 message pubs {| sk_dest := x; sk_mask := mask |} a (commit ed25519 a amount) None false index al rnd = Ok (rv, c) /\
    mg_II ed25519 rv = [smul ed25519 (Hp ed25519 (encp ed25519 (smul ed25519 (Gb ed25519) x))) x] /\
    ver_rct_mg_simple ed25519 message rv pubs (commit ed25519 a amount) = Ok true.
Proof. exact (C33_simple ed25519 ed25519_laws). Qed.
Print Assumptions C33_on_ed25519_simple.

Theorem C33_on_ed25519_full : forall message pubs in_sk in_amounts out_sk out_amounts out_pk fee index al rnd col rows,
  (2 <= length pubs)%nat -> (0 < rows)%nat -> Forall (fun c => length c = rows /\ Forall (decodes ed25519) c) pubs ->
  nth_error pubs index = Some col ->
  Forall2 (fun p k => scalar (sk_dest k) /\ decp ed25519 (ct_dest p) = Ok (smul ed25519 (Gb ed25519) (sk_dest k))) col in_sk ->
  length in_amounts = length in_sk -> length out_amounts = length out_sk ->
  commits ed25519 (map ct_comm col) (combine (map sk_mask in_sk) in_amounts) ->
  commits ed25519 out_pk (combine out_sk out_amounts) ->
  zsum in_amounts mod l = (zsum out_amounts + fee) mod l -> 0 <= fee ->
  length al = S rows -> Forall scalar al -> (forall i, length (rnd i) = S rows) ->
  exists rv c,
    prove_rct_mg ed25519 message pubs in_sk out_sk out_pk None false index (smul ed25519 (Hb ed25519) fee) al rnd = Ok (rv, c) /\
    mg_II ed25519 rv = map (fun k => smul ed25519 (Hp ed25519 (encp ed25519 (smul ed25519 (Gb ed25519) (sk_dest k)))) (sk_dest k)) in_sk /\
    ver_rct_mg ed25519 rv pubs out_pk (smul ed25519 (Hb ed25519) fee) message = Ok true.
Proof. exact (C33_full ed25519 ed25519_laws). Qed.
Print Assumptions C33_on_ed25519_full.

Theorem C34_on_ed25519_complete : forall message pubs p mask a amount index nonce rnd pk,
  Forall (decodes ed25519) pubs -> nth_error pubs index = Some pk ->
  scalar p -> scalar mask -> scalar a -> 0 <= amount -> scalar nonce -> (forall i, scalar (rnd i)) ->
  decp ed25519 (ct_dest pk) = Ok (smul ed25519 (Gb ed25519) p) -> decp ed25519 (ct_comm pk) = Ok (commit ed25519 mask amount) ->
  let cout := commit ed25519 a amount in
  let n := length pubs in
  exists buff sD,
    generate_clsag_simple ed25519 message pubs {| sk_dest := p; sk_mask := mask |} a cout index [] nonce rnd = Ok buff /\
    length buff = (n + 3)%nat /\ hd [] buff = varint (Z.of_nat n) /\
    decp ed25519 (sig_D n buff) = Ok sD /\
    verify_clsag ed25519 message (sig_ss n buff) (sig_c1 n buff) (smul ed25519 (Hp ed25519 (ct_dest pk)) p) sD pubs cout = Ok tt.
Proof. exact (C34_complete ed25519 ed25519_laws). Qed.
Print Assumptions C34_on_ed25519_complete.

Theorem C35_on_ed25519_complete : forall amount lm ra al sr,
  0 <= amount < 2 ^ 64 -> mask_ok lm -> scalars 64 ra -> scalars 64 al -> scalars 64 sr ->
  exists C a R, prove_range_orig ed25519 amount lm ra al sr = Ok (C, a, R) /\
    C = commit ed25519 a amount /\ scalar a /\ (forall m, lm = Some m -> a = m) /\
    ver_range ed25519 (Some C) R = Ok true /\ ver_range ed25519 None R = Ok true /\
    (forall C', C' <> C -> ver_range ed25519 (Some C') R = Ok false).
Proof. exact (C35_complete ed25519 ed25519_laws). Qed.
Print Assumptions C35_on_ed25519_complete.

Theorem C35_on_ed25519_chunked_variant : forall amount lm ra al sr,
  mask_ok lm -> scalars 64 ra -> scalars 64 al -> scalars 64 sr ->
  exists C a R, prove_range_orig ed25519 (amount mod 2 ^ 64) lm ra al sr = Ok (C, a, R) /\
    prove_range_chunked ed25519 amount lm ra al sr = Ok (C, a, enc_rs ed25519 R).
Proof. exact (C35_chunked_variant ed25519 ed25519_laws). Qed.
Print Assumptions C35_on_ed25519_chunked_variant.

Theorem C38_on_ed25519_device_to_wallet : forall P mask amount der i (v2 : bool) (rv : rv_outs) key com info,
  scalar mask -> 0 <= amount < 2 ^ 64 -> 0 <= i ->
  let ak := derivation_to_scalar ed25519 der i in
  (v2 = true -> mask = commitment_mask ed25519 (enc_sc ak)) ->
  s6_ecdh_info_and_out_pk ed25519 P amount mask ak v2 = (key, com, info) ->
  (if v2 then rv_type rv = 4 else 1 <= rv_type rv <= 3) ->
  length (rv_outPk rv) = length (rv_ecdh rv) ->
  nth_error (rv_outPk rv) (Z.to_nat i) = Some com ->
  nth_error (rv_ecdh rv) (Z.to_nat i) = Some (agent_parse_ecdh info v2) ->
  ecdh_decode_rv ed25519 rv der i = Ok (amount, mask).
Proof. exact (C38_device_to_wallet ed25519 ed25519_laws ed25519_hash). Qed.
Print Assumptions C38_on_ed25519_device_to_wallet.

Theorem C38_on_ed25519_decoded_amounts_open : forall (rv : rv_outs) der i amount mask, 0 <= i ->
  ecdh_decode_rv ed25519 rv der i = Ok (amount, mask) ->
  exists o, nth_error (rv_outPk rv) (Z.to_nat i) = Some o /\ decp ed25519 o = Ok (commit ed25519 mask amount).
Proof. exact (C38_decoded_amounts_open ed25519 ed25519_laws). Qed.
Print Assumptions C38_on_ed25519_decoded_amounts_open.

Theorem C39_on_ed25519_payment_received : forall a b M m change need_additional r s va i R adds d amount mask (v2 : bool) (rv : rv_outs),
  nz_scalar a -> nz_scalar b -> nz_scalar r -> nz_scalar s -> nz_scalar va -> u32 M -> u32 m -> 0 <= i ->
  table_sound ed25519 a b d -> table_has ed25519 a b d M m ->
  (change = true -> va = a) ->
  published ed25519 need_additional (dest_of ed25519 a b M m change) r s i R adds ->
  scalar mask -> 0 <= amount < 2 ^ 64 ->
  exists P ak, compute_tx_keys ed25519 need_additional (dest_of ed25519 a b M m change) r s va R i = Ok (P, ak) /\
  forall key com info,
  s6_ecdh_info_and_out_pk ed25519 P amount mask ak v2 = (key, com, info) ->
  (v2 = true -> mask = commitment_mask ed25519 (enc_sc ak)) ->
  (if v2 then rv_type rv = 4 else 1 <= rv_type rv <= 3) ->
  length (rv_outPk rv) = length (rv_ecdh rv) ->
  nth_error (rv_outPk rv) (Z.to_nat i) = Some com ->
  nth_error (rv_ecdh rv) (Z.to_nat i) = Some (agent_parse_ecdh info v2) ->
  exists recv additional, generate_key_derivation ed25519 R a = Ok recv /\
    mapM (fun p => generate_key_derivation ed25519 p a) adds = Ok additional /\
    ((exists M' m' x, scan_output ed25519 (wallet ed25519 a b) d rv key recv additional i =
          Ok (Some ((M', m'), x, smul ed25519 (Hp ed25519 (encp ed25519 P)) x, amount, mask)) /\
        generate_key_image_helper ed25519 (wallet ed25519 a b) d P R adds i = Ok (x, smul ed25519 (Hp ed25519 (encp ed25519 P)) x, recv) /\
        u32 M' /\ u32 m' /\ sub_D ed25519 a b M' m' = sub_D ed25519 a b M m /\ scalar x /\ smul ed25519 (Gb ed25519) x = P) \/
     (need_additional = true /\ exists M' m', u32 M' /\ u32 m' /\ P = derive_public_key ed25519 recv i (sub_D ed25519 a b M' m'))).
Proof. exact (C39_payment_received ed25519 ed25519_laws ed25519_hash). Qed.
Print Assumptions C39_on_ed25519_payment_received.

Theorem C39_on_ed25519_recognised_is_spendable : forall a b d P der additional i M m der',
  nz_scalar b -> table_sound ed25519 a b d ->
  is_out_to_acc_precomp ed25519 d P der additional i = Ok (Some ((M, m), der')) ->
  exists x, generate_key_image_helper_precomp ed25519 (wallet ed25519 a b) P der' i (M, m) = Ok (x, smul ed25519 (Hp ed25519 (encp ed25519 P)) x) /\
    scalar x /\ smul ed25519 (Gb ed25519) x = P.
Proof. exact (C39_recognised_is_spendable ed25519 ed25519_laws). Qed.
Print Assumptions C39_on_ed25519_recognised_is_spendable.

Theorem C39_on_ed25519_helper_checked : forall ack P der i idx x ki, cr_multisig ed25519 ack = false ->
  generate_key_image_helper_precomp ed25519 ack P der i idx = Ok (x, ki) ->
  smul ed25519 (Gb ed25519) x = P /\ ki = smul ed25519 (Hp ed25519 (encp ed25519 P)) x.
Proof. exact (C39_helper_checked ed25519 ed25519_laws). Qed.
Print Assumptions C39_on_ed25519_helper_checked.

Theorem C40_on_ed25519_table : forall a b account indices d,
  scalar b -> u32 account -> Forall u32 indices -> table_sound ed25519 a b d ->
  exists d', compute_subaddresses ed25519 a (smul ed25519 (Gb ed25519) b) account indices d = Ok d' /\
    (forall k M m, sa_get k d' = Some (M, m) -> k = encp ed25519 (sub_D ed25519 a b M m)) /\
    (forall m, In m indices -> exists M' m', sa_get (encp ed25519 (sub_D ed25519 a b account m)) d' = Some (M', m') /\
       sub_D ed25519 a b M' m' = sub_D ed25519 a b account m) /\
    (forall k, sa_get k d <> None -> sa_get k d' <> None) /\
    (forall k M m, sa_get k d' = Some (M, m) -> sa_get k d = Some (M, m) \/ (M = account /\ In m indices)).
Proof. exact (C40_table ed25519 ed25519_laws). Qed.
Print Assumptions C40_on_ed25519_table.

Theorem C40_on_ed25519_keys_match : forall a b M m, scalar b ->
  (u32 M -> u32 m ->
     generate_sub_address_keys ed25519 a (smul ed25519 (Gb ed25519) b) M m = Ok (sub_D ed25519 a b M m, sub_C ed25519 a b M m) /\
     get_subaddress_spend_public_key ed25519 a (smul ed25519 (Gb ed25519) b) M m = Ok (sub_D ed25519 a b M m)) /\
  ((~ u32 M \/ ~ u32 m) ->
     generate_sub_address_keys ed25519 a (smul ed25519 (Gb ed25519) b) M m = Err StructError /\
     get_subaddress_spend_public_key ed25519 a (smul ed25519 (Gb ed25519) b) M m = Err StructError).
Proof. exact (C40_keys_match ed25519 ed25519_laws). Qed.
Print Assumptions C40_on_ed25519_keys_match.

Theorem C41_on_ed25519_roundtrip : forall payment_id B a r,
  nz_scalar a -> nz_scalar r -> length payment_id = 8%nat ->
  exists enc, encrypt_payment_id ed25519 payment_id (smul ed25519 B a) r = Ok enc /\ length enc = 8%nat /\
    encrypt_payment_id ed25519 enc (smul ed25519 B r) a = Ok payment_id.
Proof. exact (C41_roundtrip ed25519 ed25519_laws ed25519_hash). Qed.
Print Assumptions C41_on_ed25519_roundtrip.

Theorem C41_on_ed25519_involution : forall P k, nz_scalar k ->
  exists key, length key = 32%nat /\
  forall payment_id, length payment_id = 8%nat ->
    encrypt_payment_id ed25519 payment_id P k = Ok (xor_id payment_id key) /\
    encrypt_payment_id ed25519 (xor_id payment_id key) P k = Ok payment_id.
Proof. exact (C41_involution ed25519 ed25519_laws ed25519_hash). Qed.
Print Assumptions C41_on_ed25519_involution.

Theorem C41_on_ed25519_short_refused : forall payment_id P k,
  nz_scalar k -> (length payment_id < 8)%nat -> encrypt_payment_id ed25519 payment_id P k = Err IndexError.
Proof. exact (C41_short_refused ed25519 ed25519_laws ed25519_hash). Qed.
Print Assumptions C41_on_ed25519_short_refused.

Theorem C41_on_ed25519_end_to_end : forall outs change payment_id r a B spend need_additional additional,
  nz_scalar a -> nz_scalar r -> (zlen payment_id = 0 \/ zlen payment_id = 8) ->
  real_dests outs change <> [] ->
  Forall (eq {| ad_spend := spend; ad_view := encp ed25519 (smul ed25519 B a) |}) (real_dests outs change) ->
  encp ed25519 (smul ed25519 B a) <> NULL_KEY_ENC ->
  (need_additional = true -> additional <> [] /\ Forall (fun k => length k = 32%nat) additional) ->
  exists extra0 extra nonce enc,
    process_payment_id ed25519 outs change payment_id r = Ok (Some extra0) /\
    all_out1_set_tx_extra extra0 (encp ed25519 (smul ed25519 B r)) need_additional additional = Ok extra /\
    get_tx_pub_key_from_received_outs extra = Ok (encp ed25519 (smul ed25519 B r)) /\
    (let* fs := parse_extra_fields extra in Ok (find_tx_extra_field_by_type fs KNonce 0)) = Ok (Some (FNonce nonce)) /\
    get_encrypted_payment_id_from_tx_extra_nonce nonce = Ok enc /\ agent_payment_id extra = Ok enc /\
    encrypt_payment_id ed25519 enc (smul ed25519 B r) a = Ok (if zlen payment_id =? 0 then repeat 0 8 else payment_id).
Proof. exact (C41_end_to_end ed25519 ed25519_laws ed25519_hash ed25519_enc_len). Qed.
Print Assumptions C41_on_ed25519_end_to_end.

Theorem C51_on_ed25519_bytes_verify : forall amount lm ra al sr, 0 <= amount < 2 ^ 64 -> mask_ok lm -> scalars 64 ra -> scalars 64 al -> scalars 64 sr ->
  exists C a bs, prove_range_bytes ed25519 amount lm ra al sr = Ok (C, a, bs) /\
    length bs = (193 * 32)%nat /\ C = commit ed25519 a amount /\ ver_range_decode ed25519 (Some C) (inflate_rsig bs) = Ok true.
Proof. exact (C51_bytes_verify ed25519 ed25519_laws ed25519_enc_len). Qed.
Print Assumptions C51_on_ed25519_bytes_verify.

Theorem C52_on_ed25519_xmr_roundtrip K : cipher_laws K -> forall priv plaintext nonce k authenticated,
  scalar priv -> scalar k -> length nonce = 8%nat ->
  let body := chacha_encrypt K (cn_slow K (enc_sc priv)) plaintext nonce in
  let '(c, r, _) := generate_signature ed25519 (hash ed25519 body) priv k in
  (authenticated = true -> c <> 0 /\ r <> 0) ->
  decrypt_xmr ed25519 K priv (encrypt_xmr ed25519 K priv plaintext nonce k authenticated) authenticated = Ok plaintext.
Proof. exact (C52_xmr_roundtrip ed25519 K ed25519_laws). Qed.
Print Assumptions C52_on_ed25519_xmr_roundtrip.

(** hypotheses are met: a real key, a real nonce *)
Example C31_on_ed25519_case : let '(c, r, pub) := generate_signature ed25519 [1; 2; 3] 123456789 987654321 in
  check_signature ed25519 [1; 2; 3] c r pub = (if (c =? 0) || (r =? 0) then Err ValueError else Ok true).
Proof.
  destruct (generate_signature _ _ _ _) as [[c r] pub] eqn:E. apply (C31_on_ed25519_complete _ 123456789 987654321 c r pub); [| |exact E]; split; [lia|vm_compute; reflexivity|lia|vm_compute; reflexivity].
Qed.
