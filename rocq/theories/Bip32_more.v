(** Recovering a parent key; the cache of get_child. *)
From Verif Require Import Py PyLemmas Digits B58Mnr_model B58Mnr_spec B58Mnr_proof Mnemonic_model Mnemonic_proof Ints_model Ints_proof2 Ec_model
  Bip32_model Bip32_spec Bip32_base Bip32_proof Bip32_path Bip32_derive Bip32_ser.

Section B.
Context (O : bops) (OK : bops_ok O).
Notation hmac := (hmac512 O).
Notation point := (fun k => s_xy O (s_base O k)).
Notation h160 := (hash160 O).

Lemma crack_ok k c d fp i pn net sd n w wp child :
  key_ok k -> bytes_n 32 c -> bytes_n 4 fp -> 0 <= n < 2 ^ 31 -> w = wal O k c d fp i pn net sd ->
  public_copy O w = Ok wp -> get_child O w n None true = Ok child ->
  match CKDpriv hmac point (k, c) (n, false) with Some (k', _) => k' <> k | None => True end ->
  crack_private_key O wp child = if n_name BitcoinMainNet =? n_name net then
    Ok (wal O k c d fp i BitcoinMainNet net None) else Err AssertionError.
Proof.
  intros Hk Hc Hf Hn -> HP HC NE.
  rewrite (copy_ok O OK) in HP by assumption. assert (E : wp = {| w_priv := None; w_pub := QSecp O (s_base O k) net; w_chain := hexlify c; w_depth := d;
    w_fp := hexlify fp; w_child := i; w_net := net; w_ed := false; w_seed := None |}) by congruence. subst wp. clear HP.
  pose proof (child_step O OK k c d fp i pn net sd (n, false) None Hk Hc (kind_step (n, false) Hn) Hn) as S. cbn [fst snd] in S.
  destruct (CKDpriv hmac point (k, c) (n, false)) as [[k' c']|] eqn:EC; [|destruct S as (e & S); congruence].
  destruct S as (S & Hk' & _). assert (E : child = wal O k' c' (d + 1) (fingerprint_of point h160 k) (index (n, false)) BitcoinMainNet net None) by congruence.
  subst child. clear HC S. change (index (n, false)) with n.
  unfold crack_private_key. cbn [w_priv guard bind w_fp wal w_child w_pub w_chain w_net].
  assert (F : fingerprint O {| w_priv := None; w_pub := QSecp O (s_base O k) net; w_chain := hexlify c; w_depth := d;
    w_fp := hexlify fp; w_child := i; w_net := net; w_ed := false; w_seed := None |} = Ok (hexlify (fingerprint_of point h160 k))).
  { pose proof (ident_ok O OK k c d fp i net net None) as F. exact F. }
  rewrite F. cbn [bind]. rewrite zlist_eqb_refl. cbn [guard bind].
  change boundary with (2 ^ 31). replace (2 ^ 31 <=? n) with false by lia. cbn [negb guard bind].
  assert (EH : long_to_hex n 8 = hexlify (ser32 n)) by (apply hex4; lia).
  rewrite EH, serP_hex by exact OK. destruct Hc as [Lc Bc]. rewrite unhexlify_hexlify by exact Bc. cbn [bind].
  rewrite <- hexlify_app, unhexlify_hexlify by (apply Forall_app; split; [apply serP_bytes|apply bytes_be]). cbn [bind].
  unfold CKDpriv in EC. cbn [snd fst index] in EC. change (index (n, false)) with n in EC.
  destruct (upto32 O OK c (serP (point k) ++ ser32 n)) as (E1 & E2 & L1 & L2 & B1 & B2).
  cbv beta in *. rewrite E1. set (I := hmac c (serP (s_xy O (s_base O k)) ++ ser32 n)) in *. clearbody I.
  rewrite int16_hexlify by exact B1. cbn [bind]. fold (parse256 (left32 I)).
  pose proof (parse_bound _ (conj L1 B1)) as P1. set (il := parse256 (left32 I)) in *. clearbody il.
  destruct (Z.leb_spec N_secp il) as [|G]; [discriminate|]. cbn [orb] in EC.
  destruct (Z.eqb_spec ((il + k) mod N_secp) 0) as [|G0]; [discriminate|].
  assert (EK : k' = (il + k) mod N_secp) by congruence. unfold key_ok in Hk.
  assert (NP : 0 < N_secp) by reflexivity.
  assert (IL : il <> 0). { intros ->. apply NE. rewrite EK. cbn [Z.add]. apply Z.mod_small. lia. }
  rewrite PrivateKey_ok by (unfold key_ok; lia). cbn [bind].
  destruct (n_name BitcoinMainNet =? n_name net) eqn:EN; cbn [guard bind]; [|reflexivity].
  change secp_n with N_secp. rewrite EK, Zminus_mod_idemp_l. replace (il + k - il) with k by lia.
  rewrite Z.mod_small by lia. rewrite PrivateKey_ok by exact Hk. cbn [bind].
  unfold new_wallet. cbn [negb orb andb guard bind get_public_key]. rewrite pub_eqb_refl. cbn [orb guard bind].
  change 8 with (2 * Z.of_nat 4). rewrite hx_hex by apply Hf. cbn [bind].
  change 64 with (2 * Z.of_nat 32). rewrite hx_hex by exact Lc. cbn [bind]. reflexivity.
Qed.

(** ** the cache *)
Lemma leqb_spec {A} (f : A -> A -> bool) : (forall x y, f x y = true -> x = y) -> forall xs ys, leqb f xs ys = true -> xs = ys.
Proof.
  intros F. induction xs as [|x xs IH]; destruct ys as [|y ys]; cbn [leqb]; try discriminate; [reflexivity|].
  intros H. apply andb_true_iff in H. destruct H as [H1 H2]. rewrite (F _ _ H1), (IH _ H2). reflexivity.
Qed.
Lemma same_key_positional a b : c_kw a = [] -> c_kw b = [] -> same_key a b = true -> a = b.
Proof.
  destruct a as [o1 n1 p1 k1], b as [o2 n2 p2 k2]. cbn [c_kw]. intros -> -> H. unfold same_key in H. cbn [c_obj c_num c_pos c_kw map] in H.
  rewrite !andb_true_iff in H. destruct H as (((H1 & H2) & H3) & _).
  apply Z.eqb_eq in H1, H2. apply leqb_spec in H3; [congruence|].
  intros [x|] [y|]; cbn [ob_eqb]; try discriminate; [|reflexivity]. intros E. apply eqb_prop in E. congruence.
Qed.
Definition cache_ok (heap : Z -> wallet O) (cache : list (call * wallet O)) : Prop :=
  Forall (fun e => c_kw (fst e) = [] /\ direct O heap (fst e) = Ok (snd e)) cache.
Lemma memo_positional heap cs : Forall (fun c => c_kw c = []) cs -> forall cache, cache_ok heap cache ->
  memo_calls O heap cache cs = map (direct O heap) cs.
Proof.
  induction 1 as [|c cs Hc _ IH]; intros cache HK; cbn [memo_calls map]; [reflexivity|].
  unfold memo_call. destruct (find (fun e => same_key (fst e) c) cache) as [[c0 w0]|] eqn:F.
  - apply find_some in F. destruct F as [Fi Fs]. cbn [fst snd] in *.
    unfold cache_ok in HK. pose proof HK as HK'. rewrite Forall_forall in HK'. destruct (HK' _ Fi) as [K1 K2]. cbn [fst snd] in *.
    rewrite (same_key_positional _ _ K1 Hc Fs) in K2. rewrite K2, (IH cache HK). reflexivity.
  - destruct (direct O heap c) as [w|e] eqn:D; rewrite IH; auto.
    unfold cache_ok. apply Forall_app. split; [exact HK|]. constructor; [|constructor]. cbn [fst snd]. auto.
Qed.
End B.
