(** Derivation in the model is derivation in the specification. *)
From Verif Require Import Py PyLemmas Digits B58Mnr_model B58Mnr_spec B58Mnr_proof Mnemonic_model Mnemonic_proof Ints_model Ints_proof2 Ec_model
  Bip32_model Bip32_spec Bip32_base.

Section B.
Context (O : bops) (OK : bops_ok O).
Notation hmac := (hmac512 O).
Notation point := (fun k => s_xy O (s_base O k)).
Notation h160 := (hash160 O).

(** the wallet of an extended private key *)
Definition wal (k : Z) (c : list Z) (d : Z) (fp : list Z) (i : Z) (pn net : network) (sd : option (list Z)) : wallet O :=
  {| w_priv := Some (PSecp k pn); w_pub := QSecp O (s_base O k) pn; w_chain := hexlify c; w_depth := d;
     w_fp := hexlify fp; w_child := i; w_net := net; w_ed := false; w_seed := sd |}.
Definition key_ok (k : Z) : Prop := 1 <= k < N_secp.
Definition bytes_n (n : nat) (b : list Z) : Prop := length b = n /\ bytes_ok b.

Lemma N_small : N_secp < 256 ^ Z.of_nat 32.
Proof. reflexivity. Qed.
Lemma PrivateKey_ok k net : key_ok k -> PrivateKey k net = Ok (PSecp k net).
Proof. intros [A B]. unfold PrivateKey. change secp_n with N_secp. replace ((1 <=? k) && (k <? N_secp)) with true by lia. reflexivity. Qed.
Lemma PrivateKey_bad k net : ~ key_ok k -> PrivateKey k net = Err AssertionError.
Proof.
  unfold key_ok. intros H. unfold PrivateKey. change secp_n with N_secp. pose proof (eq_refl : N_secp = N_secp).
  replace ((1 <=? k) && (k <? N_secp)) with false by lia. reflexivity.
Qed.
Lemma pub_eqb_refl P net : pub_eqb O (QSecp O P net) (QSecp O P net) = true.
Proof. cbn [pub_eqb]. rewrite !Z.eqb_refl. reflexivity. Qed.
Lemma hx_hex c n : length c = n -> hx (inr (hexlify c)) (2 * Z.of_nat n) = Ok (hexlify c).
Proof. intros H. unfold hx. rewrite hexlify_zlen. unfold zlen. rewrite H, Z.eqb_refl. reflexivity. Qed.
Lemma hx_int v n : (0 < n)%nat -> 0 <= v < 256 ^ Z.of_nat n -> hx (inl v) (2 * Z.of_nat n) = Ok (hexlify (be_digits 256 n v)).
Proof. intros Hn H. unfold hx. f_equal. apply long_to_hex_be; assumption. Qed.

Lemma parse_bound b : bytes_n 32 b -> 0 <= parse256 b < 256 ^ Z.of_nat 32.
Proof.
  intros [L B]. unfold parse256. replace (Z.of_nat 32) with (zlen b) by (unfold zlen; rewrite L; reflexivity).
  apply be_val_range; [lia|]. apply digits_ok_256, B.
Qed.
Lemma be_parse b : bytes_n 32 b -> be_digits 256 32 (parse256 b) = b.
Proof. intros [L B]. rewrite <- L. apply be_digits_val; [lia|]. apply digits_ok_256, B. Qed.

Lemma master_ok seed net :
  match master hmac seed with
  | Some (k, c) => from_master_secret O seed net false = Ok (wal k c 0 [0; 0; 0; 0] 0 net net (Some seed)) /\ key_ok k /\ bytes_n 32 c
  | None => exists e, from_master_secret O seed net false = Err e
  end.
Proof.
  unfold master. unfold from_master_secret. change bitcoin_seed with Bitcoin_seed.
  destruct (upto32 O OK Bitcoin_seed seed) as (E1 & E2 & L1 & L2 & B1 & B2).
  rewrite E1, E2. set (I := hmac Bitcoin_seed seed) in *. clearbody I.
  rewrite !int16_hexlify by assumption. cbn [bind].
  fold (parse256 (left32 I)). fold (parse256 (right32 I)).
  pose proof (parse_bound _ (conj L1 B1)) as P1. pose proof (parse_bound _ (conj L2 B2)) as P2.
  pose proof (be_parse _ (conj L2 B2)) as R2.
  set (k := parse256 (left32 I)) in *. set (c := parse256 (right32 I)) in *. clearbody k c.
  destruct (Z.eqb_spec k 0) as [->|K0].
  { cbn [orb]. eexists. reflexivity. }
  cbn [orb]. unfold new_wallet. replace (k =? 0) with false by lia. cbn [negb orb andb guard bind].
  destruct (Z.leb_spec N_secp k) as [KN|KN].
  { rewrite PrivateKey_bad by (unfold key_ok; lia). eexists. reflexivity. }
  assert (KO : key_ok k) by (unfold key_ok; lia).
  rewrite PrivateKey_ok by exact KO. cbn [bind get_public_key]. rewrite pub_eqb_refl. cbn [orb guard bind].
  change (hx (inl 0) 8) with (hx (inl 0) (2 * Z.of_nat 4)). rewrite hx_int by (cbn; lia). cbn [bind].
  change 64 with (2 * Z.of_nat 32). rewrite hx_int by (lia || exact P2). cbn [bind]. rewrite R2.
  split; [reflexivity|]. split; [exact KO|]. split; assumption.
Qed.

Lemma ident_ok k c d fp i pn net sd : fingerprint O (wal k c d fp i pn net sd) = Ok (hexlify (fingerprint_of point h160 k)).
Proof.
  unfold fingerprint, identifier. cbn [w_pub wal]. rewrite serP_hex by exact OK. rewrite unhexlify_hexlify by apply serP_bytes.
  cbn [bind]. f_equal. unfold fingerprint_of. destruct (ok_h160 O OK (serP (s_xy O (s_base O k)))) as [L B].
  set (h := h160 _) in *. clearbody h.
  rewrite <- (firstn_skipn 4 h) at 1. rewrite hexlify_app. apply py_upto_app.
  rewrite hexlify_zlen. unfold zlen. rewrite firstn_length. lia.
Qed.
Lemma fp_bytes k : bytes_n 4 (fingerprint_of point h160 k).
Proof.
  unfold fingerprint_of. destruct (ok_h160 O OK (serP (s_xy O (s_base O k)))) as [L B].
  split; [rewrite firstn_length; lia|]. apply Forall_forall. intros x Hx. unfold bytes_ok in B. rewrite Forall_forall in B.
  apply B. eapply In_firstn, Hx.
Qed.

Definition prime_arg (h : bool) : option bool := if h then Some true else None.
Lemma kind_step s : 0 <= fst s < 2 ^ 31 -> child_kind (fst s) (prime_arg (snd s)) = Ok (fst s, snd s).
Proof.
  destruct s as [n h]. cbn [fst snd]. intros H. unfold child_kind, boundary. change 0x80000000 with (2 ^ 31).
  replace (Z.abs n <? 2 ^ 31) with true by lia. cbn [guard bind].
  destruct h; cbn [prime_arg].
  - replace ((n <? 0) || (2 ^ 31 <=? n)) with false by lia. reflexivity.
  - replace (n <? 0) with false by lia. replace (2 ^ 31 <=? n) with false by lia. reflexivity.
Qed.
Lemma index_range s : 0 <= fst s < 2 ^ 31 -> 0 <= index s < 256 ^ Z.of_nat 4.
Proof. unfold index. change (256 ^ Z.of_nat 4) with (2 ^ 32). destruct (snd s); lia. Qed.
Lemma bytes_cons_app a x y : byte_ok a -> bytes_ok x -> bytes_ok y -> bytes_ok (a :: x ++ y).
Proof. intros. constructor; [assumption|]. apply Forall_app; auto. Qed.

Lemma child_step k c d fp i pn net sd s p :
  key_ok k -> bytes_n 32 c -> child_kind (fst s) p = Ok (fst s, snd s) -> 0 <= fst s < 2 ^ 31 ->
  match CKDpriv hmac point (k, c) s with
  | Some (k', c') => get_child O (wal k c d fp i pn net sd) (fst s) p true
                     = Ok (wal k' c' (d + 1) (fingerprint_of point h160 k) (index s) BitcoinMainNet net None) /\ key_ok k' /\ bytes_n 32 c'
  | None => exists e, get_child O (wal k c d fp i pn net sd) (fst s) p true = Err e
  end.
Proof.
  intros Hk [Lc Bc] Ek Hs. pose proof (index_range s Hs) as Hi.
  unfold get_child. rewrite Ek. cbn [bind]. cbn [w_priv wal w_ed w_chain w_pub w_depth w_net].
  cbn [guard bind]. change (if snd s then fst s + boundary else fst s) with (index s).
  assert (EH : long_to_hex (index s) 8 = hexlify (ser32 (index s))) by (apply (long_to_hex_be 4); [lia|exact Hi]).
  rewrite EH.
  assert (Hk32 : 0 <= k < 256 ^ Z.of_nat 32) by (pose proof N_small; unfold key_ok in Hk; lia).
  assert (D : exists m, bytes_ok m /\ (if snd s then Ok ([48; 48] ++ priv_key (PSecp k pn)) else Ok (pub_key O (QSecp O (s_base O k) pn)))
      = Ok (hexlify m) /\ m ++ ser32 (index s) = if snd s then 0 :: ser256 k ++ ser32 (index s) else serP (point k) ++ ser32 (index s)).
  { destruct (snd s).
    - exists (0 :: ser256 k). split; [constructor; [unfold byte_ok; lia|apply bytes_be]|]. split; reflexivity.
    - exists (serP (point k)). split; [apply serP_bytes|]. split; [rewrite serP_hex by exact OK; reflexivity|reflexivity]. }
  destruct D as (m & Bm & -> & Em). cbn [bind].
  rewrite unhexlify_hexlify by exact Bc. cbn [bind].
  rewrite <- hexlify_app, unhexlify_hexlify by (apply Forall_app; split; [exact Bm|apply bytes_be]). cbn [bind].
  unfold CKDpriv.
  replace (if snd s then hmac c (0 :: ser256 k ++ ser32 (index s)) else hmac c (serP (point k) ++ ser32 (index s)))
    with (hmac c (m ++ ser32 (index s))) by (rewrite Em; destruct (snd s); reflexivity).
  destruct (upto32 O OK c (m ++ ser32 (index s))) as (E1 & E2 & L1 & L2 & B1 & B2).
  rewrite E1, E2. set (I := hmac c (m ++ ser32 (index s))) in *. clearbody I.
  rewrite int16_hexlify by exact B1. cbn [bind]. fold (parse256 (left32 I)). change secp_n with N_secp.
  pose proof (parse_bound _ (conj L1 B1)) as P1. set (il := parse256 (left32 I)) in *. clearbody il.
  destruct (Z.leb_spec N_secp il) as [G|G].
  { replace (il <? N_secp) with false by lia. cbn [orb guard bind]. eexists. reflexivity. }
  replace (il <? N_secp) with true by lia. cbn [orb guard bind].
  change (priv_key (PSecp k pn)) with (hexlify (be_digits 256 32 k)). rewrite int16_be by exact Hk32. cbn [bind].
  assert (M : 0 <= (il + k) mod N_secp < N_secp) by (apply Z.mod_pos_bound; reflexivity).
  set (k' := (il + k) mod N_secp) in *. clearbody k'.
  destruct (Z.eqb_spec k' 0) as [Z0|Z0].
  { rewrite PrivateKey_bad by (unfold key_ok; lia). eexists. reflexivity. }
  assert (KO : key_ok k') by (unfold key_ok; lia).
  rewrite PrivateKey_ok by exact KO. cbn [bind get_public_key guard]. rewrite ident_ok. cbn [bind].
  unfold new_wallet. cbn [negb orb andb guard bind get_public_key]. rewrite pub_eqb_refl. cbn [orb guard bind get_public_key].
  change 8 with (2 * Z.of_nat 4). rewrite hx_hex by apply fp_bytes. cbn [bind].
  change 64 with (2 * Z.of_nat 32). rewrite hx_hex by exact L2. cbn [bind].
  split; [reflexivity|]. split; [exact KO|]. split; assumption.
Qed.
End B.
