(** C78: secrets which the lite device hands out under its session key. *)
From Verif Require Import Py PyLemmas Digits Ints_model Ints_proof2 Protobuf_spec Ec_model Ec_spec Ec_proof Ec_toy Mlsag_model Rsig_model Sigs_model Wallet_model Container_model Container_proof Lite_model KeySep_proof Lite_proof LiteKeys_model LiteKeys_spec LiteKeys_proof.
Ltac Zify.zify_post_hook ::= idtac.

(** No command except PUT_KEY changes the keys, the address or the session key, whether it succeeds or fails. *)
Theorem C78_keys_fixed : forall E K history (s : lst E), Forall (fun c => c_ins c <> 0x22) history -> same_keys E s (fst (lrun E K history s)).
Proof. intros. apply lrun_keeps. assumption. Qed.
Print Assumptions C78_keys_fixed.

Lemma mbind_eq E {A B} (e : m E A) (k : A -> m E B) s s1 y : e s = (s1, Ok y) -> mbind E e k s = k y s1.
Proof. intros H. unfold mbind. rewrite H. reflexivity. Qed.
(** one step of a command on known input *)
Ltac by_ lem := erewrite mbind_eq by (apply lem; first [assumption|apply le_digits_length]).
Ltac pure := erewrite mbind_eq by reflexivity.
Ltac fin := cbn [snd l_out l_a l_b l_A l_B l_address l_key set_out set_in set_options app fst]; rewrite ?app_nil_r.
Ltac begin_ e := lazymatch goal with |- context [dispatch ?E ?K (cmd ?t ?ins ?p1 ?data) ?s'] => rewrite (dispatch_cmd E K t ins p1 data s' e eq_refl) end; rewrite <- ?app_assoc; unfold at_input.
Ltac start e := apply answers_intro; let s' := fresh "s'" in let Q := fresh "Q" in intros s' Q; destruct Q as (Qa & Qb & QA & QB & Qad & Qk); begin_ e.

(** With a cipher under which handed out secrets are understood again, the key commands compute the wallet's values for output [i] of
    a transaction with key [R]: the shared secret 8aR, the scalar h = Hs(8aR, i), the one-time secret x = b + h and
    from it xG, key images x Hp(P) and products xQ; P + hG and P - hG.
    It does not matter what happened in between, as long as the keys were not changed.
    Missing: the cipher of the code is not of this kind (below). *)
Theorem C78_output_keys_partial : forall E, ec_laws E -> (forall P, length (encp E P) = 32%nat) -> forall K (s : lst E) R i,
  reads_back K (l_key E s) -> 0 < l_a E s < l -> 0 < l_b E s < l -> 0 <= i < 2 ^ 32 ->
  let h := output_scalar E R (l_a E s) i in let x := (l_b E s + h) mod l in
  exists shared enc_h enc_x, forall t,
    answers E K s (cmd t 0x32 0 (encp E R ++ own_view)) shared /\
    answers E K s (cmd t 0x34 0 (shared ++ be4 i)) enc_h /\
    answers E K s (cmd t 0x44 0 enc_h) (encp E (smul E (Gb E) h)) /\
    answers E K s (cmd t 0x38 0 (shared ++ be4 i ++ own_spend)) enc_x /\
    answers E K s (cmd t 0x30 0 enc_x) (encp E (smul E (Gb E) x)) /\
    (forall P, length P = 32%nat -> answers E K s (cmd t 0x3A 0 (P ++ enc_x)) (encp E (smul E (Hp E P) x))) /\
    (forall Q, answers E K s (cmd t 0x42 0 (encp E Q ++ enc_x)) (encp E (smul E Q x))) /\
    (forall P, answers E K s (cmd t 0x36 0 (shared ++ be4 i ++ encp E P)) (encp E (padd E P (smul E (Gb E) h)))) /\
    (forall P, answers E K s (cmd t 0x46 0 (encp E P ++ shared ++ be4 i)) (encp E (padd E P (pneg E (smul E (Gb E) h))))).
Proof.
  intros E L LE K s R i RB HA HB HI h x.
  destruct (RB (encp E (shared_point E R (l_a E s))) (LE _)) as (shared & ES & LS & DS).
  destruct (RB (enc_sc h) (le_digits_length _ _ _)) as (enc_h & EH & LH & DH).
  destruct (RB (enc_sc x) (le_digits_length _ _ _)) as (enc_x & EX & LX & DX).
  assert (SH : scalar h) by (unfold h, output_scalar, hash_to_scalar; apply Z.mod_pos_bound; reflexivity).
  assert (SX : scalar x) by (unfold x; apply Z.mod_pos_bound; reflexivity).
  assert (CA : sc_check (l_a E s) = 0) by (apply sc_check_spec; exact HA). assert (CB : sc_check (l_b E s) = 0) by (apply sc_check_spec; exact HB).
  exists shared, enc_h, enc_x. intros t.
  split. { start (l_generate_key_derivation E K). unfold l_generate_key_derivation. by_ pt_app. by_ view_app. fin. unfold generate_key_derivation, guard. rewrite Qa, CA. cbn [Z.eqb bind]. pure.
    erewrite mbind_eq by (apply insenc_ok; fin; rewrite Qk; exact ES). unfold ret. fin. reflexivity. }
  split. { start (l_derivation_to_scalar E K). unfold l_derivation_to_scalar. erewrite mbind_eq by (apply decpt_app; [exact L|exact LS|fin; rewrite Qk; exact DS]). by_ u32_app.
    erewrite mbind_eq by (apply insenc_ok; fin; rewrite Qk; exact EH). unfold ret. fin. reflexivity. }
  split. { start (scal_mul_base E K). unfold scal_mul_base. erewrite mbind_eq by (apply decsc_app; [exact LH|fin; rewrite Qk; exact DH|exact SH]). pure. unfold ret. fin. reflexivity. }
  split. { start (l_derive_secret_key E K). unfold l_derive_secret_key. erewrite mbind_eq by (apply decpt_app; [exact L|exact LS|fin; rewrite Qk; exact DS]). by_ u32_app. by_ spend_app. fin.
    unfold derive_secret_key, guard. rewrite Qb, CB. cbn [Z.eqb bind]. pure. erewrite mbind_eq by (apply insenc_ok; fin; rewrite Qk; exact EX). unfold ret. fin. reflexivity. }
  split. { start (scal_mul_base E K). unfold scal_mul_base. erewrite mbind_eq by (apply decsc_app; [exact LX|fin; rewrite Qk; exact DX|exact SX]). pure. unfold ret. fin. reflexivity. }
  split. { intros P LP. start (l_generate_key_image E K). unfold l_generate_key_image. by_ fetch_app. erewrite mbind_eq by (apply decsc_app; [exact LX|fin; rewrite Qk; exact DX|exact SX]). pure. unfold ret. fin. reflexivity. }
  split. { intros Q. start (scal_mul_key E K). unfold scal_mul_key. by_ pt_app. erewrite mbind_eq by (apply decsc_app; [exact LX|fin; rewrite Qk; exact DX|exact SX]). pure. unfold ret. fin. reflexivity. }
  split. { intros P. start (l_derive_public_key E K). unfold l_derive_public_key. erewrite mbind_eq by (apply decpt_app; [exact L|exact LS|fin; rewrite Qk; exact DS]). by_ u32_app. by_ pt_app. pure. unfold ret. fin. reflexivity. }
  intros P. start (l_derive_subaddress_public_key E K). unfold l_derive_subaddress_public_key. by_ pt_app. erewrite mbind_eq by (apply decpt_app; [exact L|exact LS|fin; rewrite Qk; exact DS]). by_ u32_app. pure. unfold ret. fin. reflexivity.
Qed.
Print Assumptions C78_output_keys_partial.

(** Key pairs: the public key, and a secret from which the device computes the public key again. *)
Theorem C78_keypair_partial : forall E, ec_laws E -> (forall P, length (encp E P) = 32%nat) -> forall K (s : lst E) t, reads_back K (l_key E s) -> scalar (t_scalar t) ->
  exists c, answers E K s (cmd t 0x40 0 []) (encp E (smul E (Gb E) (t_scalar t)) ++ c) /\ forall t', answers E K s (cmd t' 0x30 0 c) (encp E (smul E (Gb E) (t_scalar t))).
Proof.
  intros E L LE K s t RB ST. destruct (RB (enc_sc (t_scalar t)) (le_digits_length _ _ _)) as (c & EC & LC & DC). exists c.
  split. { start (generate_keypair E K t). unfold generate_keypair. pure. erewrite mbind_eq by (apply insenc_ok; fin; rewrite Qk; exact EC). unfold ret. fin. reflexivity. }
  intros t'. start (scal_mul_base E K). unfold scal_mul_base. erewrite mbind_eq by (apply decsc_app; [exact LC|fin; rewrite Qk; exact DC|exact ST]). pure. unfold ret. fin. reflexivity.
Qed.
Print Assumptions C78_keypair_partial.

(** CBC in both directions is such a cipher, whatever the block cipher. *)
Theorem C78_cbc : forall B, cipher_ok B -> forall sha256 uvarint key,
  reads_back {| aes_enc := cbc_encrypt B; aes_dec := aes_decrypt B; sha := sha256; read_uvarint := uvarint |} key.
Proof. intros B BO sh uv key d H. exact (cbc_modes B BO key d H). Qed.
Print Assumptions C78_cbc.

(** The code encrypts block by block and decrypts with chaining.  With a library which ignores the iv, the second half of a
    secret comes back xored with the first block of the ciphertext. *)
Theorem C78_second_half_refuted : forall B, cipher_ok B -> forall key d, length d = 32%nat ->
  exists c, aes_encrypt B false key d (repeat 0 16) = Ok c /\ length c = 32%nat /\
  aes_decrypt B key c (repeat 0 16) = Ok (firstn 16 d ++ xor16 (skipn 16 d) (bc_enc B key (firstn 16 d))).
Proof. intros B BO key d H. exact (mixed_modes B BO key d H). Qed.
Print Assumptions C78_second_half_refuted.

(** so it is the cipher the theorems above need for no block cipher and no key *)
Theorem C78_reads_back_refuted : forall B, cipher_ok B -> forall strict sha256 uvarint key, ~ reads_back (aes_prims B strict sha256 uvarint) key.
Proof.
  intros B BO strict sh uv key RB. destruct strict; [destruct (RB (repeat 0 32) eq_refl) as (c & Q & _); discriminate|].
  assert (Z0 : forall p, length p = 16%nat -> bc_enc B key p = repeat 0 16).
  { intros p Hp. assert (H : length (p ++ repeat 0 16) = 32%nat) by (rewrite app_length, Hp; reflexivity).
    destruct (RB _ H) as (c & E1 & _ & D1). destruct (mixed_modes B BO key _ H) as (c' & E2 & _ & D2). cbn [aes_prims aes_enc aes_dec] in E1, D1. unfold iv0 in *.
    rewrite E1 in E2. apply ok_inj in E2. subst c'. rewrite D1 in D2. apply ok_inj in D2.
    destruct (firstn_app_eq p (repeat 0 16) 16 Hp) as [F1 F2]. rewrite F1, F2 in D2. apply app_inv_head in D2. rewrite xor16_0l in D2 by (apply BO; exact Hp). symmetry. exact D2. }
  destruct (BO key (repeat 0 16) eq_refl) as [_ D0]. destruct (BO key (repeat 1 16) eq_refl) as [_ D1]. rewrite Z0 in D0, D1 by reflexivity. rewrite D0 in D1. discriminate.
Qed.
Print Assumptions C78_reads_back_refuted.

(** With the library the project requires (pycryptodome), no command which hands out a secret succeeds: OPEN_TX, GEN_KEY_DERIVATION,
    DERIVATION_TO_SCALAR, DERIVE_SECRET_KEY, GENERATE_KEYPAIR and the preparation of a ring signature.  No transaction can be opened. *)
Theorem C78_no_secret_refuted : forall E B sha256 uvarint (s : lst E) c out,
  In (c_ins c) [0x70; 0x32; 0x34; 0x38; 0x40] \/ c_ins c = 0x7E /\ c_p1 c = 1 -> snd (dispatch E (aes_prims B true sha256 uvarint) c s) <> Ok out.
Proof.
  intros E B sh uv s c out H. apply never_dispatch. assert (W : forall k d iv, aes_enc (aes_prims B true sh uv) k d iv = Err TypeError) by reflexivity. set (K := aes_prims B true sh uv) in *. clearbody K.
  assert (NE : forall b (k : unit -> m E Z), never E (mbind E (insert_encrypt E K b) k)) by (intros; apply never_l, never_insert_encrypt, W).
  destruct H as [H|[H1 H2]].
  - cbn [In] in H. destruct H as [H|[H|[H|[H|[H|[]]]]]]; rewrite <- H.
    + change (never E (open_tx E K (c_tape c))). unfold open_tx. cbv zeta. repeat first [apply NE|apply never_r; intros ?].
    + change (never E (l_generate_key_derivation E K)). unfold l_generate_key_derivation. repeat first [apply NE|apply never_r; intros ?].
    + change (never E (l_derivation_to_scalar E K)). unfold l_derivation_to_scalar. repeat first [apply NE|apply never_r; intros ?].
    + change (never E (l_derive_secret_key E K)). unfold l_derive_secret_key. repeat first [apply NE|apply never_r; intros ?].
    + change (never E (generate_keypair E K (c_tape c))). unfold generate_keypair. cbv zeta. repeat first [apply NE|apply never_r; intros ?].
  - rewrite H1, H2. change (never E (mlsag_prepare E K (c_tape c) (length (c_input c)))). unfold mlsag_prepare. destruct (Nat.ltb _ _); repeat first [apply NE|apply never_r; intros ?].
Qed.
Print Assumptions C78_no_secret_refuted.

(** The sub-address commands and STEALTH never succeed, whatever the cipher. *)
Theorem C78_subaddress_refuted : forall E K (s : lst E) c out, In (c_ins c) [0x48; 0x4A; 0x4C; 0x76] -> snd (dispatch E K c s) <> Ok out.
Proof.
  intros E K s c out H. apply never_dispatch. cbn [In] in H. destruct H as [H|[H|[H|[H|[]]]]]; rewrite <- H.
  - change (never E (l_subaddress E K false)). do 2 (apply never_r; intros ?). apply never_fail.
  - change (never E (l_subaddress E K false)). do 2 (apply never_r; intros ?). apply never_fail.
  - change (never E (l_subaddress E K true)). do 2 (apply never_r; intros ?). apply never_fail.
  - change (never E (stealth E K)). do 3 (apply never_r; intros ?). apply never_fail.
Qed.
Print Assumptions C78_subaddress_refuted.

(** VERIFY_KEY tells whether [P] is the public key of the wallet's spend key *)
Theorem C78_verify_key : forall E, ec_laws E -> (forall P, length (encp E P) = 32%nat) -> forall K (s : lst E) t P,
  (P = smul E (Gb E) (l_b E s) -> answers E K s (cmd t 0x26 0 (own_spend ++ encp E P)) ([0; 0; 0; 1] ++ l_address E s)) /\
  (P <> smul E (Gb E) (l_b E s) -> answers E K s (cmd t 0x26 0 (own_spend ++ encp E P)) ([0; 0; 0; 0] ++ l_address E s)).
Proof.
  intros E L LE K s t P. split; intros HP; (start (verify_key E K 0); unfold verify_key; by_ spend_app; by_ pt_app; pure; pure; pure; fin; cbn [Z.eqb orb]; rewrite Qb).
  - rewrite (proj2 (law_eqb E L _ _)) by (symmetry; exact HP). pure. pure. unfold ret. fin. rewrite Qad. reflexivity.
  - destruct (pt_eqb E (scalarmult_base E (l_b E s)) P) eqn:Q; [apply (law_eqb E L) in Q; destruct HP; symmetry; exact Q|]. pure. pure. unfold ret. fin. rewrite Qad. reflexivity.
Qed.
Print Assumptions C78_verify_key.
(** ... but asked about its own public view (1) or spend (2) key it answers no, whatever secret is shown, also the right one *)
Theorem C78_verify_own_refuted : forall E, ec_laws E -> (forall P, length (encp E P) = 32%nat) -> forall K (s : lst E) t P p1 secret, In secret [own_view; own_spend] ->
  p1 = 1 /\ l_A E s <> pid E \/ p1 = 2 /\ l_B E s <> pid E -> answers E K s (cmd t 0x26 p1 (secret ++ encp E P)) ([0; 0; 0; 0] ++ l_address E s).
Proof.
  intros E L LE K s t P p1 secret HS H.
  assert (FK : forall r (s' : lst E), exists y, fetch_decrypt_key E K (set_in E (secret ++ r) s') = (set_in E r s', Ok y)).
  { intros r s'. destruct HS as [<-|[<-|[]]]; eexists; [apply view_app|apply spend_app]. }
  start (verify_key E K p1). unfold verify_key. edestruct FK as [y EY]. rewrite (mbind_eq _ _ _ _ _ _ EY). by_ pt_app. pure. pure. pure. fin.
  assert (EQ : forall Q, Q <> pid E -> pt_eqb E (pid E) Q = false) by (intros Q N; destruct (pt_eqb E (pid E) Q) eqn:X; [apply (law_eqb E L) in X; congruence|reflexivity]).
  destruct H as [[-> N]|[-> N]]; cbn [Z.eqb Pos.eqb orb]; rewrite ?QA, ?QB, (EQ _ N); pure; pure; unfold ret; fin; rewrite Qad; reflexivity.
Qed.
Print Assumptions C78_verify_own_refuted.

(** PUT_KEY replaces the secret keys but not the public keys and the address, so GET_KEY answers keys that do not belong together;
    and with a wrong second pair it refuses, but has already replaced the view key. *)
Theorem C78_put_key_refuted : forall E, ec_laws E -> (forall P, length (encp E P) = 32%nat) -> forall K (s : lst E) t a' b' B', scalar a' -> scalar b' ->
  let s1 := fst (dispatch E K (cmd t 0x22 0 (enc_sc a' ++ encp E (smul E (Gb E) a') ++ enc_sc b' ++ encp E B')) s) in
  let sw := snd (dispatch E K (cmd t 0x22 0 (enc_sc a' ++ encp E (smul E (Gb E) a') ++ enc_sc b' ++ encp E B')) s) in
  (B' = smul E (Gb E) b' -> sw = Ok (0x9000, []) /\ l_b E s1 = b') /\ (B' <> smul E (Gb E) b' -> sw = Ok (0x6A80, []) /\ l_b E s1 = l_b E s) /\
  answers E K s1 (cmd t 0x20 2 []) (enc_sc a') /\ answers E K s1 (cmd t 0x20 1 []) (encp E (l_A E s) ++ encp E (l_B E s) ++ l_address E s).
Proof.
  intros E L LE K s t a' b' B' Ha Hb.
  assert (D : forall s2 sw, dispatch E K (cmd t 0x22 0 (enc_sc a' ++ encp E (smul E (Gb E) a') ++ enc_sc b' ++ encp E B')) s = (s2, sw) ->
    l_a E s2 = a' /\ l_A E s2 = l_A E s /\ l_B E s2 = l_B E s /\ l_address E s2 = l_address E s /\ (B' = smul E (Gb E) b' -> sw = Ok (0x9000, []) /\ l_b E s2 = b') /\ (B' <> smul E (Gb E) b' -> sw = Ok (0x6A80, []) /\ l_b E s2 = l_b E s)).
  { intros s2 sw. begin_ (put_key E). unfold put_key. by_ sc_app. by_ pt_app. unfold scalarmult_base at 1. rewrite (proj2 (law_eqb E L _ _) eq_refl). cbn [negb]. pure.
    erewrite mbind_eq by exact (sc_app E b' _ (set_a E a' (set_options E 0 (set_out E [] s))) Hb). by_ pt_app. unfold scalarmult_base.
    destruct (pt_eqb E B' (smul E (Gb E) b')) eqn:Q; cbn [negb].
    - apply (law_eqb E L) in Q. pure. unfold ret. intros X. apply pair_equal_spec in X. destruct X as [<- <-]. fin. cbn [set_a set_b l_a l_b l_A l_B l_address l_out]. do 4 (split; [reflexivity|]). split; [auto|contradiction].
    - assert (N : B' <> smul E (Gb E) b') by (intros W; apply (law_eqb E L) in W; congruence). unfold ret. intros X. apply pair_equal_spec in X. destruct X as [<- <-]. fin. cbn [set_a l_a l_b l_A l_B l_address l_out]. do 4 (split; [reflexivity|]). split; [contradiction|auto]. }
  destruct (dispatch E K _ s) as [s2 sw]. destruct (D _ _ eq_refl) as (D1 & D2 & D3 & D4 & D5 & D6). cbn [fst snd]. split; [exact D5|]. split; [exact D6|].
  split. { start (get_key E 2). unfold get_key. cbn [Z.eqb Pos.eqb]. pure. pure. unfold ret. fin. rewrite Qa, D1. reflexivity. }
  start (get_key E 1). unfold get_key. cbn [Z.eqb Pos.eqb]. do 6 pure. unfold ret. fin. rewrite QA, QB, Qad, D2, D3, D4, <- ?app_assoc. reflexivity.
Qed.
Print Assumptions C78_put_key_refuted.

(** On the device: with a library which ignores the iv, a generated secret which is handed back yields the public key of another secret:
    its second half is xored with the encryption of its first half. *)
Theorem C78_keypair_refuted : forall E, ec_laws E -> forall B, cipher_ok B -> forall sha256 uvarint (s : lst E) t,
  let d := enc_sc (t_scalar t) in let d' := firstn 16 d ++ xor16 (skipn 16 d) (bc_enc B (l_key E s) (firstn 16 d)) in
  exists c, answers E (aes_prims B false sha256 uvarint) s (cmd t 0x40 0 []) (encp E (smul E (Gb E) (t_scalar t)) ++ c) /\
  forall t', answers E (aes_prims B false sha256 uvarint) s (cmd t' 0x30 0 c) (encp E (smul E (Gb E) (le_val 256 d' mod l))).
Proof.
  intros E L B BO sh uv s t d d'. assert (Hd : length d = 32%nat) by apply le_digits_length. destruct (mixed_modes B BO (l_key E s) d Hd) as (c & EC & LC & DC). exists c. set (K := aes_prims B false sh uv).
  change (aes_enc K (l_key E s) d iv0 = Ok c) in EC. change (aes_dec K (l_key E s) c iv0 = Ok d') in DC. clearbody K.
  split. { start (generate_keypair E K t). unfold generate_keypair. pure. erewrite mbind_eq by (apply insenc_ok; fin; rewrite Qk; exact EC). unfold ret. fin. reflexivity. }
  intros t'. start (scal_mul_base E K). unfold scal_mul_base, fetch_decrypt_sc.
  assert (LD : length d' = 32%nat).
  { unfold d'. destruct (halves d Hd) as [H1 H2]. rewrite app_length, H1, xor16_len; [reflexivity|exact H2|]. apply BO. exact H1. }
  assert (DD : decodeint d' = Ok (le_val 256 d' mod l)).
  { unfold decodeint, zlen. rewrite LD. change (Z.of_nat 32 <? 32) with false. cbv iota. unfold dec_sc. rewrite firstn_all2 by lia. reflexivity. }
  erewrite mbind_eq by (erewrite mbind_eq by (apply (dec_app E K c d'); [exact LC|fin; rewrite Qk; exact DC]); unfold lift; rewrite DD; reflexivity).
  pure. unfold ret. fin. reflexivity.
Qed.
Print Assumptions C78_keypair_refuted.

(** ** Cases *)
(** a block cipher: bytes xored with the key's first byte, in reverse order *)
Definition flip (key b : list Z) : list Z := rev (map (Z.lxor (nth 0 key 0)) b).
Definition flip_cipher : block_cipher := {| bc_enc := flip; bc_dec := flip |}.
Lemma flip_ok : cipher_ok flip_cipher.
Proof.
  intros key b H. cbn [bc_enc bc_dec flip_cipher]. unfold flip. split; [rewrite rev_length, map_length; exact H|]. rewrite map_rev, rev_involutive, map_map. rewrite <- (map_id b) at 2. apply map_ext. intros x.
  rewrite <- Z.lxor_assoc, Z.lxor_nilpotent. apply Z.lxor_0_l.
Qed.
Definition good : lite_prims := {| aes_enc := cbc_encrypt flip_cipher; aes_dec := aes_decrypt flip_cipher; sha := fun x => x; read_uvarint := fun _ => Ok 0 |}.
Definition bad : lite_prims := aes_prims flip_cipher false (fun x => x) (fun _ => Ok 0).
Definition dev : lst toy := lite_new toy 11 22 [7] (repeat 5 32).
Definition tape : ltape := {| t_scalar := 33; t_answer := true |}.
(** the device with chaining in both directions meets the hypotheses *)
Example C78_case : ec_laws toy /\ reads_back good (l_key toy dev) /\ 0 < l_a toy dev < l /\ 0 < l_b toy dev < l /\ scalar (t_scalar tape) /\ cipher_ok flip_cipher /\
  l_A toy dev <> pid toy /\ l_B toy dev <> pid toy.
Proof. split; [exact toy_laws|]. split; [apply C78_cbc, flip_ok|]. split; [split; reflexivity|]. split; [split; reflexivity|]. split; [split; [discriminate|reflexivity]|]. split; [exact flip_ok|].
  assert (N : pt_eqb toy (l_A toy dev) (pid toy) = false /\ pt_eqb toy (l_B toy dev) (pid toy) = false) by (split; vm_compute; reflexivity). destruct N as [N1 N2].
  split; intros Q; apply (law_eqb toy toy_laws) in Q; congruence. Qed.
(** a key pair, an attempt to change keys by a malformed command in between, and the secret handed back *)
Definition pair_of (K : lite_prims) : res (Z * list Z) := snd (dispatch toy K (cmd tape 0x40 0 []) dev).
Definition back (K : lite_prims) : bool :=
  match pair_of K with
  | Ok (_, out) => match snd (dispatch toy K (cmd tape 0x30 0 (skipn 32 out)) (fst (lrun toy K [cmd tape 0x40 0 []; cmd tape 0x26 0 [1]; cmd tape 0x76 0 [2]] dev))) with
                   | Ok (_, pub) => zlist_eqb pub (firstn 32 out) | Err _ => false end
  | Err _ => false end.
(** the same session with the two ciphers: understood, and not *)
Example C78_session : back good = true /\ back bad = false /\ (exists out, pair_of bad = Ok out) /\ pair_of (aes_prims flip_cipher true (fun x => x) (fun _ => Ok 0)) = Err TypeError.
Proof. split; [vm_compute; reflexivity|]. split; [vm_compute; reflexivity|]. split; [eexists; vm_compute; reflexivity|vm_compute; reflexivity]. Qed.
