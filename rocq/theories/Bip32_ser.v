(** Extended keys as text: hex, bytes, base58. *)
From Verif Require Import Py PyLemmas Digits B58Mnr_model B58Mnr_spec B58Mnr_proof Mnemonic_model Mnemonic_proof Ints_model Ints_proof2 Ec_model
  Bip32_model Bip32_spec Bip32_base Bip32_proof Bip32_path Bip32_derive.
From Verif Require B58Btc_model B58Btc_proof Addr_spec.

Section B.
Context (O : bops) (OK : bops_ok O).
Notation hmac := (hmac512 O).
Notation point := (fun k => s_xy O (s_base O k)).
Notation h160 := (hash160 O).

(** version, depth, fingerprint, number, chain code, key: 4 + 1 + 4 + 4 + 32 + 33 bytes *)
Definition layout (v d : Z) (fp : list Z) (i : Z) (c kd : list Z) : list Z := ser32 v ++ [d] ++ fp ++ ser32 i ++ c ++ kd.
Definition parts_ok (v d : Z) (fp : list Z) (i : Z) (c kd : list Z) : Prop :=
  0 <= v < 2 ^ 32 /\ 0 <= d < 256 /\ bytes_n 4 fp /\ 0 <= i < 2 ^ 32 /\ bytes_n 32 c /\ bytes_n 33 kd.
Lemma layout_len v d fp i c kd : parts_ok v d fp i c kd -> length (layout v d fp i c kd) = 78%nat.
Proof. intros (_ & _ & [Lf _] & _ & [Lc _] & [Lk _]). unfold layout, ser32. rewrite !app_length, !be_digits_length, Lf, Lc, Lk. reflexivity. Qed.
Lemma layout_bytes v d fp i c kd : parts_ok v d fp i c kd -> bytes_ok (layout v d fp i c kd).
Proof.
  intros (_ & Hd & [_ Bf] & _ & [_ Bc] & [_ Bk]). unfold layout, bytes_ok. rewrite !Forall_app.
  pose proof (bytes_be 4 v). pose proof (bytes_be 4 i). repeat split; try assumption. constructor; [exact Hd|constructor].
Qed.
Lemma hex1 d : 0 <= d < 256 -> long_to_hex d 2 = hexlify [d].
Proof.
  intros H. change 2 with (2 * Z.of_nat 1). rewrite long_to_hex_be by (try lia; exact H).
  cbn [be_digits app]. rewrite Z.mod_small by exact H. reflexivity.
Qed.
Lemma hex4 v : 0 <= v < 2 ^ 32 -> long_to_hex v 8 = hexlify (ser32 v).
Proof. intros H. apply (long_to_hex_be 4); [lia|exact H]. Qed.

Definition net_ok (net : network) : Prop := 0 <= n_EXT_SECRET net < 2 ^ 32 /\ 0 <= n_EXT_PUBLIC net < 2 ^ 32.
Definition key_data (k : Z) (private : bool) : list Z := if private then 0 :: ser256 k else serP (point k).
Definition version (net : network) (private : bool) : Z := if private then n_EXT_SECRET net else n_EXT_PUBLIC net.
Lemma key_data_bytes k private : bytes_n 33 (key_data k private).
Proof.
  unfold key_data. destruct private.
  - split; [cbn [length]; unfold ser256; rewrite be_digits_length; reflexivity|]. constructor; [unfold byte_ok; lia|apply bytes_be].
  - split; [apply serP_len|apply serP_bytes].
Qed.
Lemma version_ok net private : net_ok net -> 0 <= version net private < 2 ^ 32.
Proof. unfold net_ok, version. destruct private; tauto. Qed.

Lemma serialize_ok k c d fp i pn net sd private : net_ok net -> 0 <= d < 256 -> bytes_n 4 fp -> 0 <= i < 2 ^ 32 ->
  serialize O (wal O k c d fp i pn net sd) private = Ok (hexlify (layout (version net private) d fp i c (key_data k private))).
Proof.
  intros Hn Hd Hf Hi. pose proof (version_ok net private Hn) as Hv. unfold serialize. cbn [w_priv wal w_net w_depth w_fp w_child w_chain w_pub].
  replace (negb private || true) with true by (destruct private; reflexivity). cbn [guard bind].
  fold (version net private). rewrite hex4 by exact Hv. rewrite hex1 by exact Hd. rewrite (hex4 i) by exact Hi.
  unfold layout, key_data. destruct private.
  - rewrite !hexlify_app, <- !app_assoc. reflexivity.
  - rewrite serP_hex by exact OK. rewrite !hexlify_app, <- !app_assoc. reflexivity.
Qed.

Lemma new_pub q v d fp i c net : 0 <= d < 256 -> bytes_n 4 fp -> 0 <= i < 2 ^ 32 -> bytes_n 32 c -> v = 0 ->
  new_wallet O (inl (parse256 c)) d (inl (be_val 256 fp)) i None None None (Some q) net None false
  = Ok {| w_priv := None; w_pub := q; w_chain := hexlify c; w_depth := d; w_fp := hexlify fp; w_child := i; w_net := net; w_ed := false; w_seed := None |}.
Proof.
  intros Hd [Lf Bf] Hi Hc _. unfold new_wallet. cbn [negb orb andb guard bind].
  change (hx (inl (be_val 256 fp)) 8) with (hx (inl (be_val 256 fp)) (2 * Z.of_nat 4)).
  rewrite hx_int; [|lia|replace (Z.of_nat 4) with (zlen fp) by (unfold zlen; rewrite Lf; reflexivity); apply be_val_range; [lia|apply digits_ok_256, Bf]].
  cbn [bind]. change 64 with (2 * Z.of_nat 32). rewrite hx_int; [|lia|apply parse_bound, Hc]. cbn [bind]. rewrite be_parse by exact Hc.
  rewrite <- Lf at 1. rewrite be_digits_val by (try lia; apply digits_ok_256, Bf). reflexivity.
Qed.
Lemma new_priv k d fp i c net : key_ok k -> 0 <= d < 256 -> bytes_n 4 fp -> 0 <= i < 2 ^ 32 -> bytes_n 32 c ->
  new_wallet O (inl (parse256 c)) d (inl (be_val 256 fp)) i (Some k) None None None net None false = Ok (wal O k c d fp i net net None).
Proof.
  intros Hk Hd [Lf Bf] Hi Hc. unfold new_wallet. replace (k =? 0) with false by (unfold key_ok in Hk; lia). cbn [negb orb andb guard bind].
  rewrite PrivateKey_ok by exact Hk. cbn [bind get_public_key]. rewrite pub_eqb_refl. cbn [orb guard bind].
  change (hx (inl (be_val 256 fp)) 8) with (hx (inl (be_val 256 fp)) (2 * Z.of_nat 4)).
  rewrite hx_int; [|lia|replace (Z.of_nat 4) with (zlen fp) by (unfold zlen; rewrite Lf; reflexivity); apply be_val_range; [lia|apply digits_ok_256, Bf]].
  cbn [bind]. change 64 with (2 * Z.of_nat 32). rewrite hx_int; [|lia|apply parse_bound, Hc]. cbn [bind]. rewrite be_parse by exact Hc.
  rewrite <- Lf at 1. rewrite be_digits_val by (try lia; apply digits_ok_256, Bf). reflexivity.
Qed.

(** deserialize after its text has become bytes *)
Definition deserialize_bytes (key : list Z) (net : network) : res (wallet O) :=
  let* depth := py_get key 4 in
  let key_data := py_from key 45 in
  let* version := int16 (hexlify (py_upto key 4)) in
  let* type := py_get key_data 0 in
  let* (e, q) :=
    if type =? 0 then
      let* _ := guard (version =? n_EXT_SECRET net) MoneroError in
      let* e := int16 (hexlify (py_from key_data 1)) in
      Ok (Some e, None)
    else if (type =? 2) || (type =? 3) || (type =? 4) then
      let* _ := guard (version =? n_EXT_PUBLIC net) MoneroError in
      let* q := pub_from_key O key_data net in
      Ok (None, Some q)
    else Err ValueError in
  let* fp := int16 (hexlify (py_slice key 5 9)) in
  let* child := int16 (hexlify (py_slice key 9 13)) in
  let* chain := int16 (hexlify (py_slice key 13 45)) in
  new_wallet O (inl chain) depth (inl fp) child e None None q net None false.
Lemma deserialize_raw key net : length key = 78%nat -> deserialize O key net = deserialize_bytes key net.
Proof. intros H. unfold deserialize. replace (zlen key) with 78 by (unfold zlen; rewrite H; reflexivity). reflexivity. Qed.
Lemma deserialize_hex key net : length key = 78%nat -> bytes_ok key -> deserialize O (hexlify key) net = deserialize_bytes key net.
Proof.
  intros H B. unfold deserialize. rewrite hexlify_zlen. replace (zlen key) with 78 by (unfold zlen; rewrite H; reflexivity).
  change (2 * 78) with 156. cbn [Z.eqb orb Pos.eqb]. rewrite unhexlify_hexlify by exact B. reflexivity.
Qed.
Lemma deserialize_b58 key s net : length s = 111%nat -> B58Btc_model.b58decode_check (sha256 O) s = Ok key -> deserialize O s net = deserialize_bytes key net.
Proof. intros H E. unfold deserialize. replace (zlen s) with 111 by (unfold zlen; rewrite H; reflexivity). cbn [Z.eqb orb Pos.eqb]. rewrite E. reflexivity. Qed.

(** what a public or private extended key is read as *)
Definition read_as k c d fp i net (private : bool) : wallet O :=
  if private then wal O k c d fp i net net None else
  {| w_priv := None; w_pub := QSecp O (s_base O k) net; w_chain := hexlify c; w_depth := d; w_fp := hexlify fp; w_child := i; w_net := net; w_ed := false; w_seed := None |}.
Lemma zl {A} (x : list A) n : length x = n -> zlen x = Z.of_nat n.
Proof. intros <-. reflexivity. Qed.
Lemma layout_read k c d fp i net private : key_ok k -> net_ok net -> 0 <= d < 256 -> bytes_n 4 fp -> 0 <= i < 2 ^ 32 -> bytes_n 32 c ->
  deserialize_bytes (layout (version net private) d fp i c (key_data k private)) net = Ok (read_as k c d fp i net private).
Proof.
  intros Hk Hn Hd [Lf Bf] Hi Hc. pose proof Hc as [Lc Bc].
  pose proof (key_data_bytes k private) as [Lk Bk]. pose proof (version_ok net private Hn) as Hv.
  set (v := version net private) in *. set (kd := key_data k private) in *.
  assert (L4 : forall x, zlen (ser32 x) = 4) by (intros x; apply be_digits_zlen).
  pose proof (zl fp _ Lf) as Zf. pose proof (zl c _ Lc) as Zc. pose proof (zl kd _ Lk) as Zk.
  change (Z.of_nat 4) with 4 in Zf. change (Z.of_nat 32) with 32 in Zc. change (Z.of_nat 33) with 33 in Zk.
  unfold deserialize_bytes.
  assert (G4 : py_get (layout v d fp i c kd) 4 = Ok d).
  { unfold layout. apply py_get_mid. rewrite L4. reflexivity. }
  assert (F45 : py_from (layout v d fp i c kd) 45 = kd).
  { replace (layout v d fp i c kd) with ((ser32 v ++ [d] ++ fp ++ ser32 i ++ c) ++ kd) by (unfold layout; rewrite <- !app_assoc; reflexivity).
    apply py_from_app. rewrite !zlen_app, !L4, Zf, Zc. reflexivity. }
  assert (U4 : py_upto (layout v d fp i c kd) 4 = ser32 v) by (apply py_upto_app; rewrite L4; reflexivity).
  assert (S59 : py_slice (layout v d fp i c kd) 5 9 = fp).
  { replace (layout v d fp i c kd) with ((ser32 v ++ [d]) ++ fp ++ (ser32 i ++ c ++ kd)) by (unfold layout; rewrite <- !app_assoc; reflexivity).
    apply py_slice_app; rewrite ?zlen_app, ?L4, ?Zf; reflexivity. }
  assert (S913 : py_slice (layout v d fp i c kd) 9 13 = ser32 i).
  { replace (layout v d fp i c kd) with ((ser32 v ++ [d] ++ fp) ++ ser32 i ++ (c ++ kd)) by (unfold layout; rewrite <- !app_assoc; reflexivity).
    apply py_slice_app; rewrite ?zlen_app, ?L4, ?Zf; reflexivity. }
  assert (S1345 : py_slice (layout v d fp i c kd) 13 45 = c).
  { replace (layout v d fp i c kd) with ((ser32 v ++ [d] ++ fp ++ ser32 i) ++ c ++ kd) by (unfold layout; rewrite <- !app_assoc; reflexivity).
    apply py_slice_app; rewrite ?zlen_app, ?L4, ?Zf, ?Zc; reflexivity. }
  rewrite G4, F45, U4, S59, S913, S1345. cbn [bind].
  assert (I32 : forall x, 0 <= x < 2 ^ 32 -> int16 (hexlify (ser32 x)) = Ok x) by (intros x Hx; apply (int16_be 4), Hx).
  rewrite (I32 v Hv), (I32 i Hi). cbn [bind].
  rewrite (int16_hexlify fp) by exact Bf. rewrite (int16_hexlify c) by exact Bc. cbn [bind].
  fold (parse256 c).
  assert (HK : 0 <= k < 256 ^ Z.of_nat 32) by (pose proof N_small; unfold key_ok in Hk; lia).
  destruct private; subst v kd; cbn [version key_data].
  - change (py_get (0 :: ser256 k) 0) with (Ok 0). cbn [bind]. rewrite !Z.eqb_refl. cbn [guard bind].
    replace (py_from (0 :: ser256 k) 1) with (ser256 k) by (symmetry; apply (py_from_app [0] (ser256 k)); reflexivity).
    unfold ser256. rewrite int16_be by exact HK. cbn [bind]. apply new_priv; auto. split; assumption.
  - set (P := s_base O k). pose proof (ok_xy O OK P) as [Hx Hy]. pose proof (ok_lift O OK P) as HL. pose proof (ok_point O OK P) as HP.
    cbv beta. fold P. unfold pub_from_key, serP. destruct (s_xy O P) as [x y] eqn:Exy. cbn [fst snd] in *.
    set (t := if Z.odd y then 3 else 2).
    change (py_get (t :: ser256 x) 0) with (Ok t). cbn [bind].
    replace (py_from (t :: ser256 x) 1) with (ser256 x) by (symmetry; apply (py_from_app [t] (ser256 x)); reflexivity).
    replace (zlen (t :: ser256 x)) with 33 by (rewrite zlen_cons; unfold ser256; rewrite be_digits_zlen; reflexivity).
    unfold ser256. rewrite int16_be by exact Hx. cbn [bind].
    assert (T : (t =? 0) = false /\ (t =? 4) = false /\ ((t =? 2) || (t =? 3)) = true /\ (t =? 3) = Z.odd y) by (subst t; destruct (Z.odd y); auto).
    destruct T as (T0 & T4 & T23 & T3). rewrite T0, T4, T23, T3, Z.eqb_refl. cbn [orb guard bind]. rewrite Z.eqb_refl. cbn [guard bind].
    rewrite HL. cbn [bind]. unfold from_public_pair. cbn [fst snd]. rewrite HP. cbn [bind].
    apply (new_pub _ 0); auto. split; assumption.
Qed.

(** base58: the length tells the three forms apart *)
Lemma pow58_mono m n : 0 <= m <= n -> 58 ^ m <= 58 ^ n.
Proof. intros H. apply Z.pow_le_mono_r; lia. Qed.
Lemma minimal_len ds v n : B58Btc_proof.minimal 58 ds v -> 58 ^ n <= v < 58 ^ (n + 1) -> 0 <= n -> zlen ds = n + 1.
Proof.
  intros (M1 & M2 & M3) Hv Hn. pose proof (be_val_range 58 ds ltac:(lia) M1) as R. rewrite M2 in R. pose proof (zlen_nonneg ds) as ZN.
  destruct (Z.lt_trichotomy (zlen ds) (n + 1)) as [L|[L|L]]; [|exact L|].
  - pose proof (pow58_mono (zlen ds) n ltac:(lia)). lia.
  - destruct ds as [|x ds]; [change (zlen (@nil Z)) with 0 in *; lia|]. cbn [hd] in M3.
    rewrite be_val_cons in M2. rewrite zlen_cons in L. apply digits_ok_cons in M1. destruct M1 as [Hx Hd].
    pose proof (be_val_range 58 ds ltac:(lia) Hd) as R2. pose proof (pow58_mono (n + 1) (zlen ds) ltac:(lia)).
    assert (58 ^ zlen ds <= x * 58 ^ zlen ds) by nia. lia.
Qed.
Definition b58_version (v : Z) : Prop := 58 ^ 110 <= v * 256 ^ 78 /\ (v + 1) * 256 ^ 78 <= 58 ^ 111 /\ 2 ^ 24 <= v.
Lemma b58_len v rest s : 0 <= v < 2 ^ 32 -> b58_version v -> length rest = 78%nat -> bytes_ok rest ->
  B58Btc_model.b58encode (ser32 v ++ rest) = Ok s -> length s = 111%nat.
Proof.
  intros Hv (V1 & V2 & V3) L B E.
  assert (BB : bytes_ok (ser32 v ++ rest)) by (apply Forall_app; split; [apply bytes_be|exact B]).
  destruct (B58Btc_proof.b58encode_spec _ BB) as (n & t & ds & Et & _ & Hds & He).
  assert (V : be_val 256 (ser32 v ++ rest) = v * 256 ^ 78 + be_val 256 rest).
  { rewrite be_val_app. rewrite (zl rest 78 L). unfold ser32. rewrite be_val_digits by lia. rewrite Z.mod_small by exact Hv. reflexivity. }
  pose proof (be_val_range 256 rest ltac:(lia) (proj2 (digits_ok_256 rest) B)) as R. rewrite (zl rest 78 L) in R. change (Z.of_nat 78) with 78 in R.
  assert (n = 0%nat).
  { destruct n as [|n]; [reflexivity|]. cbn [repeat app] in Et. unfold ser32 in Et. cbn [be_digits app] in Et.
    assert (H0 : v / 256 / 256 / 256 mod 256 = 0) by congruence. lia. }
  subst n. cbn [repeat app] in *. rewrite <- Et, V in Hds.
  pose proof (minimal_len ds _ 110 Hds) as ML.
  assert (ZL : zlen ds = 110 + 1).
  { apply ML; [|lia]. change (110 + 1) with 111. rewrite Z.mul_add_distr_r, Z.mul_1_l in V2.
    set (a := 58 ^ 110) in *. set (b := 58 ^ 111) in *. set (e := 256 ^ 78) in *. clearbody a b e. clear - V1 V2 R. generalize dependent (v * e). intros. lia. }
  assert (S : s = map B58Mnr_spec.symbol ds) by congruence. subst s. rewrite map_length. unfold zlen in ZL. lia.
Qed.

Lemma b58_round v d fp i c kd : parts_ok v d fp i c kd -> b58_version v -> Addr_spec.hash_like (sha256 O) ->
  exists s, B58Btc_model.b58encode_check (sha256 O) (layout v d fp i c kd) = Ok s /\ length s = 111%nat /\
    B58Btc_model.b58decode_check (sha256 O) s = Ok (layout v d fp i c kd).
Proof.
  intros HP HV HS. pose proof (layout_bytes _ _ _ _ _ _ HP) as B. pose proof (layout_len _ _ _ _ _ _ HP) as L.
  destruct (B58Btc_proof.btc_check_round_trip _ _ HS B) as (s & E & D). exists s. split; [exact E|]. split; [|exact D].
  unfold B58Btc_model.b58encode_check in E. destruct (HS (sha256 O (layout v d fp i c kd))) as [HB HL].
  set (h := sha256 O (sha256 O _)) in *. clearbody h.
  unfold layout in E. rewrite <- app_assoc in E. eapply b58_len; [| |  | |exact E].
  - apply HP.
  - exact HV.
  - unfold layout in L. rewrite app_length in L. unfold ser32 in L at 1. rewrite be_digits_length in L.
    rewrite app_length. replace (length (py_upto h 4)) with 4%nat; [lia|].
    rewrite <- (firstn_skipn 4 h). rewrite (py_upto_app (firstn 4 h)); [|unfold zlen; rewrite firstn_length; unfold zlen in HL; lia].
    rewrite firstn_length. unfold zlen in HL. lia.
  - unfold layout, bytes_ok in B |- *. rewrite Forall_app in B |- *. split; [apply B|].
    apply Forall_forall. intros x Hx. unfold bytes_ok in HB. rewrite Forall_forall in HB. apply HB. rewrite <- (py_upto_from h 4). apply in_or_app. left. exact Hx.
Qed.
End B.
