(** C71: hierarchical wallets (BIP-0032, SLIP-0010).  The specification is Bip32_spec.v. *)
From Verif Require Import Py PyLemmas Digits B58Mnr_model B58Mnr_spec B58Mnr_proof Mnemonic_model Mnemonic_proof Ints_model Ints_proof2 Ec_model Ec_toy
  Bip32_model Bip32_spec Bip32_base Bip32_proof Bip32_path Bip32_derive Bip32_ser Bip32_more.
From Verif Require Addr_spec B58Btc_model.

(** coordinates of k * generator *)
Definition pnt (O : bops) (k : Z) : Z * Z := s_xy O (s_base O k).
(** the wallet has this private key, its public key and this chain code *)
Definition holds (O : bops) (w : wallet O) (k : Z) (c : list Z) : Prop :=
  (exists n, w_priv w = Some (PSecp k n)) /\ (exists n, w_pub w = QSecp O (s_base O k) n) /\
  w_chain w = hexlify c /\ length c = 32%nat /\ bytes_ok c.
Definition public_only (O : bops) (w : wallet O) (k : Z) (c : list Z) : Prop :=
  w_priv w = None /\ (exists n, w_pub w = QSecp O (s_base O k) n) /\ w_chain w = hexlify c.

Lemma wal_holds O k c d fp i pn net sd : bytes_n 32 c -> holds O (wal O k c d fp i pn net sd) k c.
Proof. intros [L B]. split; [eexists; reflexivity|]. split; [eexists; reflexivity|]. split; [reflexivity|]. split; assumption. Qed.

Lemma master_wal O (OK : bops_ok O) seed net k c : master (hmac512 O) seed = Some (k, c) ->
  from_master_secret O seed net false = Ok (wal O k c 0 [0; 0; 0; 0] 0 net net (Some seed)) /\ key_ok k /\ bytes_n 32 c.
Proof. intros H. pose proof (master_ok O OK seed net) as M. rewrite H in M. exact M. Qed.
Lemma zero4 : bytes_n 4 [0; 0; 0; 0].
Proof. split; [reflexivity|]. repeat constructor; unfold byte_ok; lia. Qed.
Lemma walk_master O (OK : bops_ok O) seed net k c path : Forall wf_written path -> master (hmac512 O) seed = Some (k, c) ->
  match derive (hmac512 O) (pnt O) (k, c) (map meaning path) with
  | Some (k', c') => exists fp i pn sd, walk O (wal O k c 0 [0; 0; 0; 0] 0 net net (Some seed)) path = Ok (wal O k' c' (zlen path) fp i pn net sd) /\
      key_ok k' /\ bytes_n 32 c' /\ bytes_n 4 fp /\ 0 <= i < 2 ^ 32 /\ (pn = net \/ pn = BitcoinMainNet)
  | None => exists e, walk O (wal O k c 0 [0; 0; 0; 0] 0 net net (Some seed)) path = Err e
  end.
Proof.
  intros W M. destruct (master_wal O OK seed net k c M) as (_ & Hk & Hc).
  exact (walk_ok O OK path W k c 0 [0; 0; 0; 0] 0 net net (Some seed) Hk Hc zero4 ltac:(lia)).
Qed.

(** a seed has a master key exactly when the BIP says so, and it is that key *)
Theorem C71_master : forall O, bops_ok O -> forall seed net,
  match master (hmac512 O) seed with
  | Some (k, c) => exists w, from_master_secret O seed net false = Ok w /\ holds O w k c /\ w_depth w = 0 /\ w_child w = 0 /\ w_fp w = hexlify [0; 0; 0; 0]
  | None => exists e, from_master_secret O seed net false = Err e
  end.
Proof.
  intros O OK seed net. pose proof (master_ok O OK seed net) as M. destruct (master (hmac512 O) seed) as [[k c]|]; [|exact M].
  destruct M as (E & _ & Hc). eexists. split; [exact E|]. split; [apply wal_holds, Hc|]. repeat split.
Qed.
Print Assumptions C71_master.

(** a written path leads to the key that the BIP derives, and fails exactly where the BIP has no key *)
Theorem C71_path : forall O, bops_ok O -> forall seed net w k c path,
  from_master_secret O seed net false = Ok w -> holds O w k c -> Forall wf_written path ->
  match derive (hmac512 O) (pnt O) (k, c) (map meaning path) with
  | Some (k', c') => exists w', get_child_for_path O w (render path) = Ok w' /\ holds O w' k' c' /\ w_depth w' = zlen path
  | None => exists e, get_child_for_path O w (render path) = Err e
  end.
Proof.
  intros O OK seed net w k c path HW HH Wf. pose proof (master_ok O OK seed net) as M.
  destruct (master (hmac512 O) seed) as [[k0 c0]|] eqn:EM; [|destruct M as (e & M); congruence].
  destruct M as (E & _ & [L0 B0]). assert (w = wal O k0 c0 0 [0; 0; 0; 0] 0 net net (Some seed)) by congruence. subst w.
  destruct HH as ((n1 & K) & _ & C & L & B). cbn [w_priv wal w_chain] in K, C. assert (k0 = k) by congruence. subst k0.
  assert (c0 = c). { pose proof (unhexlify_hexlify c0 B0) as U0. pose proof (unhexlify_hexlify c B) as U. congruence. } subst c0.
  rewrite path_walk by exact Wf. pose proof (walk_master O OK seed net k c path Wf EM) as WM.
  destruct (derive (hmac512 O) (pnt O) (k, c) (map meaning path)) as [[k' c']|]; [|exact WM].
  destruct WM as (fp & i & pn & sd & EW & _ & Hc' & _). eexists. split; [exact EW|]. split; [apply wal_holds, Hc'|reflexivity].
Qed.
Print Assumptions C71_path.

(** the last step is recorded: fingerprint of the parent, number of the child *)
Theorem C71_parent_recorded : forall O, bops_ok O -> forall seed net k c kp cp path s w',
  master (hmac512 O) seed = Some (k, c) -> Forall wf_written (path ++ [s]) ->
  derive (hmac512 O) (pnt O) (k, c) (map meaning path) = Some (kp, cp) ->
  (let* w := from_master_secret O seed net false in get_child_for_path O w (render (path ++ [s]))) = Ok w' ->
  w_fp w' = hexlify (fingerprint_of (pnt O) (hash160 O) kp) /\ w_child w' = index (meaning s) /\ w_net w' = net.
Proof.
  intros O OK seed net k c kp cp path s w' EM Wf D H. destruct (master_wal O OK seed net k c EM) as (E & _ & _). rewrite E in H. cbn [bind] in H.
  rewrite path_walk in H by exact Wf. rewrite walk_snoc in H. apply Forall_app in Wf. destruct Wf as [Wp Ws]. inversion Ws as [|? ? Hs _]; subst.
  pose proof (walk_master O OK seed net k c path Wp EM) as WM. rewrite D in WM. destruct WM as (fp & i & pn & sd & EW & Hk & Hc & _).
  rewrite EW in H. cbn [bind] in H.
  pose proof (meaning_range s Hs) as R.
  pose proof (child_step O OK kp cp (zlen path) fp i pn net sd (meaning s) (prime_arg (snd (meaning s))) Hk Hc (kind_step _ R) R) as S.
  destruct (CKDpriv _ _ _ _) as [[k1 c1]|]; [|destruct S as (e & S); congruence].
  destruct S as (S & _). rewrite S in H. assert (X : w' = wal O k1 c1 (zlen path + 1) (fingerprint_of (pnt O) (hash160 O) kp) (index (meaning s)) BitcoinMainNet net None).
  { assert (X : forall a b : wallet O, Ok a = Ok b -> b = a) by congruence. apply X, H. }
  subst w'. repeat split.
Qed.
Print Assumptions C71_parent_recorded.

(** ".pub": the same public key and chain code, and no private key *)
Theorem C71_public_path : forall O, bops_ok O -> forall seed net k c k' c' path,
  master (hmac512 O) seed = Some (k, c) -> Forall wf_written path ->
  derive (hmac512 O) (pnt O) (k, c) (map meaning path) = Some (k', c') ->
  exists w, (let* w := from_master_secret O seed net false in get_child_for_path O w (render path ++ [46; 112; 117; 98])) = Ok w /\
    public_only O w k' c' /\ w_depth w = zlen path.
Proof.
  intros O OK seed net k c k' c' path EM Wf D. destruct (master_wal O OK seed net k c EM) as (E & _ & _). rewrite E. cbn [bind].
  rewrite path_walk_pub by exact Wf. pose proof (walk_master O OK seed net k c path Wf EM) as WM. rewrite D in WM.
  destruct WM as (fp & i & pn & sd & EW & Hk & Hc & Hf & _). rewrite EW. cbn [bind]. rewrite (copy_ok O OK) by assumption.
  eexists. split; [reflexivity|]. split; [|reflexivity]. split; [reflexivity|]. split; [eexists; reflexivity|reflexivity].
Qed.
Print Assumptions C71_public_path.

(** SLIP-0010 over ed25519: hardened paths lead to the bytes that the document derives,
    unless the master key is not a key of SECP256k1 or a public key on the way is the identity *)
Definition ed_holds (O : bops) (w : wallet O) (raw c : list Z) : Prop :=
  w_chain w = hexlify c /\ exists q, w_priv w = Some q /\ priv_key q = hexlify raw.
Lemma ed_of_holds O w raw c : ed_of O w raw c -> ed_holds O w raw c.
Proof. intros (_ & C & _ & _ & (q & Q1 & Q2) & _). split; [exact C|]. exists q. auto. Qed.
Definition finite_key (O : bops) (raw : list Z) : Prop :=
  pt_eqb (bE O) (scalarmult_base (bE O) (le_val 256 raw mod l)) (pid (bE O)) = false.
Definition hard (w : written) : Prop := w_mark w <> 0.
Definition numbers (path : list written) : list Z := map (fun s => fst (meaning s)) path.
Theorem C71_slip0010_partial : forall O, bops_ok O -> forall seed net path, Forall wf_written path -> Forall hard path ->
  let m := slip_master (hmac512 O) seed in
  let r := slip_derive (hmac512 O) m (numbers path) in
  (1 <= parse256 (fst m) < N_secp ->
   (forall p q, path = p ++ q -> p <> [] -> finite_key O (fst (slip_derive (hmac512 O) m (numbers p)))) ->
   exists w, (let* w := from_master_secret O seed net true in get_child_for_path O w (render path)) = Ok w /\
     ed_holds O w (fst r) (snd r) /\ w_depth w = zlen path /\
     (path <> [] -> w_pub w = QEd O (scalarmult_base (bE O) (le_val 256 (fst r) mod l)))) /\
  (forall w, (let* w := from_master_secret O seed net true in get_child_for_path O w (render path)) = Ok w -> ed_holds O w (fst r) (snd r)).
Proof.
  intros O OK seed net path Wf Hh m r. pose proof (ed_master O OK seed net) as M. fold m in M.
  destruct m as [raw c] eqn:Em. cbn [fst] in *. destruct M as [M1 M2].
  assert (DK : key_ok (parse256 raw) \/ ~ key_ok (parse256 raw)) by (unfold key_ok; lia).
  split.
  - intros K F. destruct (M1 K) as (w0 & E0 & H0 & D0). rewrite E0. cbn [bind]. rewrite path_walk by exact Wf.
    pose proof (ed_walk O OK path Wf Hh w0 raw c H0) as W. fold (numbers path) in W. fold r in W. destruct r as [r1 r2]. cbn [fst snd].
    destruct W as [W _]. destruct (W F) as (w & A & B & C & D). exists w. split; [exact A|]. split; [apply ed_of_holds, B|]. split; [lia|exact D].
  - intros w H. destruct DK as [K|K]; [|destruct (M2 K) as (e & E); rewrite E in H; discriminate].
    destruct (M1 K) as (w0 & E0 & H0 & D0). rewrite E0 in H. cbn [bind] in H. rewrite path_walk in H by exact Wf.
    pose proof (ed_walk O OK path Wf Hh w0 raw c H0) as W. fold (numbers path) in W. fold r in W. destruct r as [r1 r2]. cbn [fst snd].
    destruct W as [_ W]. apply ed_of_holds, W, H.
Qed.
Print Assumptions C71_slip0010_partial.
(** SLIP-0010 has a master key for every seed; the code refuses the ones that are no keys of SECP256k1 *)
Theorem C71_slip0010_master_refuted : forall O, bops_ok O -> forall seed net,
  parse256 (fst (slip_master (hmac512 O) seed)) = 0 \/ N_secp <= parse256 (fst (slip_master (hmac512 O) seed)) ->
  exists e, from_master_secret O seed net true = Err e.
Proof.
  intros O OK seed net H. pose proof (ed_master O OK seed net) as M. destruct (slip_master (hmac512 O) seed) as [raw c]. cbn [fst] in H.
  destruct M as [_ M]. apply M. unfold key_ok. lia.
Qed.
Print Assumptions C71_slip0010_master_refuted.
(** a step that is not hardened is refused in an ed25519 wallet *)
Theorem C71_ed25519_only_hardened : forall O (w : wallet O) i, w_ed w = true -> 0 <= i < 2 ^ 31 -> exists e, get_child O w i None true = Err e.
Proof. intros O w i H R. destruct (ed_plain O w i H) as (e & [E|E]); [eauto|lia]. Qed.
Print Assumptions C71_ed25519_only_hardened.

(** ** extended keys as text *)
Definition known_net (net : network) : Prop := net = BitcoinMainNet \/ net = BitcoinTestNet \/ net = MoneroMainNet.
Definition b58v (v : Z) : bool := (58 ^ 110 <=? v * 256 ^ 78) && ((v + 1) * 256 ^ 78 <=? 58 ^ 111) && (2 ^ 24 <=? v).
Lemma b58v_spec v : b58v v = true -> b58_version v.
Proof. unfold b58v. intros H. apply andb_prop in H. destruct H as [H C]. apply andb_prop in H. destruct H as [A B]. apply Z.leb_le in A, B, C. split; [exact A|]. split; [exact B|exact C]. Qed.
Lemma known_ok net p : known_net net -> net_ok net /\ b58_version (version net p).
Proof.
  intros [->|[->| ->]]; (split; [split; cbn [n_EXT_SECRET n_EXT_PUBLIC BitcoinMainNet BitcoinTestNet MoneroMainNet]; lia|]);
    apply b58v_spec; destruct p; vm_compute; reflexivity.
Qed.

(** same key, chain code and place in the tree *)
Definition same_node (O : bops) (a b : wallet O) (private : bool) : Prop :=
  w_chain a = w_chain b /\ w_depth a = w_depth b /\ w_fp a = w_fp b /\ w_child a = w_child b /\ w_net a = w_net b /\
  (exists P n1 n2, w_pub a = QSecp O P n1 /\ w_pub b = QSecp O P n2) /\
  (if private then exists k n1 n2, w_priv a = Some (PSecp k n1) /\ w_priv b = Some (PSecp k n2) else w_priv b = None).

(** every wallet reached by a path of less than 256 steps is read back from its hex, byte and
    base58 text, with its private key or without *)
Theorem C71_text_round_trip : forall O, bops_ok O -> Addr_spec.hash_like (sha256 O) -> forall seed net path w private,
  known_net net -> Forall wf_written path -> zlen path < 256 ->
  (let* w := from_master_secret O seed net false in get_child_for_path O w (render path)) = Ok w ->
  exists hex bytes b58 w', serialize O w private = Ok hex /\ unhexlify hex = Ok bytes /\ length bytes = 78%nat /\ serialize_b58 O w private = Ok b58 /\
    deserialize O hex net = Ok w' /\ deserialize O bytes net = Ok w' /\ deserialize O b58 net = Ok w' /\ same_node O w w' private.
Proof.
  intros O OK HS seed net path w private KN Wf Hl H. destruct (known_ok net private KN) as [NO BV].
  apply bind_ok_inv in H. destruct H as (w0 & E0 & H). pose proof (master_ok O OK seed net) as M.
  destruct (master (hmac512 O) seed) as [[k0 c0]|] eqn:EM; [|destruct M as (e & M); congruence].
  destruct M as (E & _ & _). assert (w0 = wal O k0 c0 0 [0; 0; 0; 0] 0 net net (Some seed)) by congruence. subst w0.
  rewrite path_walk in H by exact Wf. pose proof (walk_master O OK seed net k0 c0 path Wf EM) as WM.
  destruct (derive (hmac512 O) (pnt O) (k0, c0) (map meaning path)) as [[k c]|]; [|destruct WM as (e & WM); congruence].
  destruct WM as (fp & i & pn & sd & EW & Hk & Hc & Hf & Hi & _). assert (w = wal O k c (zlen path) fp i pn net sd) by congruence. subst w.
  pose proof (zlen_nonneg path) as Hl0. assert (Hd : 0 <= zlen path < 256) by lia.
  assert (PO : parts_ok (version net private) (zlen path) fp i c (key_data O k private)).
  { split; [apply version_ok, NO|]. split; [exact Hd|]. split; [exact Hf|]. split; [exact Hi|]. split; [exact Hc|apply key_data_bytes]. }
  pose proof (layout_len _ _ _ _ _ _ PO) as LL. pose proof (layout_bytes _ _ _ _ _ _ PO) as LB.
  pose proof (layout_read O OK k c (zlen path) fp i net private Hk NO Hd Hf Hi Hc) as LR.
  destruct (b58_round O _ _ _ _ _ _ PO BV HS) as (s & S1 & S2 & S3).
  pose proof (serialize_ok O OK k c (zlen path) fp i pn net sd private NO Hd Hf Hi) as SE.
  set (b := layout (version net private) (zlen path) fp i c (key_data O k private)) in *.
  exists (hexlify b), b, s, (read_as O k c (zlen path) fp i net private).
  split; [exact SE|]. split; [apply unhexlify_hexlify, LB|]. split; [exact LL|].
  split; [unfold serialize_b58; rewrite SE; cbn [bind]; rewrite unhexlify_hexlify by exact LB; exact S1|].
  split; [rewrite deserialize_hex by assumption; exact LR|]. split; [rewrite deserialize_raw by assumption; exact LR|].
  split; [rewrite (deserialize_b58 O b s net S2 S3); exact LR|].
  unfold same_node, read_as. destruct private; cbn [w_chain w_depth w_fp w_child w_net w_pub w_priv wal]; repeat (split; [reflexivity|]).
  - split; [exists (s_base O k), pn, net; auto|]. exists k, pn, net. auto.
  - split; [exists (s_base O k), pn, net; auto|reflexivity].
Qed.
Print Assumptions C71_text_round_trip.

(** text for another network is refused *)
Theorem C71_other_network : forall O, bops_ok O -> forall seed net net' path w private hex,
  known_net net -> Forall wf_written path -> zlen path < 256 ->
  (let* w := from_master_secret O seed net false in get_child_for_path O w (render path)) = Ok w ->
  serialize O w private = Ok hex -> (if private then n_EXT_SECRET net <> n_EXT_SECRET net' else n_EXT_PUBLIC net <> n_EXT_PUBLIC net') ->
  deserialize O hex net' = Err MoneroError.
Proof.
  intros O OK seed net net' path w private hex KN Wf Hl H HS NE. destruct (known_ok net private KN) as [NO _].
  apply bind_ok_inv in H. destruct H as (w0 & E0 & H). pose proof (master_ok O OK seed net) as M.
  destruct (master (hmac512 O) seed) as [[k0 c0]|] eqn:EM; [|destruct M as (e & M); congruence].
  destruct M as (E & _ & _). assert (w0 = wal O k0 c0 0 [0; 0; 0; 0] 0 net net (Some seed)) by congruence. subst w0.
  rewrite path_walk in H by exact Wf. pose proof (walk_master O OK seed net k0 c0 path Wf EM) as WM.
  destruct (derive (hmac512 O) (pnt O) (k0, c0) (map meaning path)) as [[k c]|]; [|destruct WM as (e & WM); congruence].
  destruct WM as (fp & i & pn & sd & EW & Hk & Hc & Hf & Hi & _). assert (w = wal O k c (zlen path) fp i pn net sd) by congruence. subst w.
  pose proof (zlen_nonneg path) as Hl0. assert (Hd : 0 <= zlen path < 256) by lia.
  assert (PO : parts_ok (version net private) (zlen path) fp i c (key_data O k private)).
  { split; [apply version_ok, NO|]. split; [exact Hd|]. split; [exact Hf|]. split; [exact Hi|]. split; [exact Hc|apply key_data_bytes]. }
  rewrite (serialize_ok O OK k c (zlen path) fp i pn net sd private NO Hd Hf Hi) in HS.
  assert (HX : hexlify (layout (version net private) (zlen path) fp i c (key_data O k private)) = hex) by congruence. subst hex.
  rewrite deserialize_hex by (first [exact (layout_len _ _ _ _ _ _ PO)|exact (layout_bytes _ _ _ _ _ _ PO)]).
  destruct PO as (Hv & _ & [Lf _] & _ & [Lc _] & [Lk _]).
  pose proof (zl fp _ Lf) as Zf. pose proof (zl c _ Lc) as Zc. change (Z.of_nat 4) with 4 in Zf. change (Z.of_nat 32) with 32 in Zc.
  assert (L4 : forall x, zlen (ser32 x) = 4) by (intros x; apply be_digits_zlen).
  set (v := version net private) in *. set (kd := key_data O k private) in *. unfold deserialize_bytes.
  assert (G4 : py_get (layout v (zlen path) fp i c kd) 4 = Ok (zlen path)) by (unfold layout; apply py_get_mid; rewrite L4; reflexivity).
  assert (F45 : py_from (layout v (zlen path) fp i c kd) 45 = kd).
  { replace (layout v (zlen path) fp i c kd) with ((ser32 v ++ [zlen path] ++ fp ++ ser32 i ++ c) ++ kd) by (unfold layout; rewrite <- !app_assoc; reflexivity).
    apply py_from_app. rewrite !zlen_app, !L4, Zf, Zc. reflexivity. }
  assert (U4 : py_upto (layout v (zlen path) fp i c kd) 4 = ser32 v) by (apply py_upto_app; rewrite L4; reflexivity).
  rewrite G4, F45, U4. cbn [bind]. replace (int16 (hexlify (ser32 v))) with (Ok v) by (symmetry; apply (int16_be 4), Hv). cbn [bind].
  subst v kd. destruct private; cbn [version key_data].
  - change (py_get (0 :: ser256 k) 0) with (Ok 0). cbn [bind]. rewrite Z.eqb_refl. replace (n_EXT_SECRET net =? n_EXT_SECRET net') with false by lia. reflexivity.
  - unfold serP. set (t := if Z.odd _ then 3 else 2). change (py_get (t :: ser256 (fst (s_xy O (s_base O k)))) 0) with (Ok t). cbn [bind].
    assert (T : (t =? 0) = false /\ ((t =? 2) || (t =? 3)) = true) by (subst t; destruct (Z.odd _); auto). destruct T as [T0 T23].
    rewrite T0, T23. cbn [orb]. replace (n_EXT_PUBLIC net =? n_EXT_PUBLIC net') with false by lia. reflexivity.
Qed.
Print Assumptions C71_other_network.

(** a wallet below 255 steps has no base58 text: the depth takes three digits *)
Lemma unhexlify_even n : forall s b, (length s <= n)%nat -> unhexlify s = Ok b -> zlen s mod 2 = 0.
Proof.
  induction n as [|n IH]; intros s b L H.
  - destruct s; [reflexivity|cbn [length] in L; lia].
  - destruct s as [|x [|y s]]; [reflexivity|discriminate|]. cbn [unhexlify] in H.
    destruct (hex_digit x); cbn [bind] in H; [|discriminate]. destruct (hex_digit y); cbn [bind] in H; [|discriminate].
    destruct (unhexlify s) as [r|] eqn:E; cbn [bind] in H; [|discriminate].
    cbn [length] in L. pose proof (IH s r ltac:(lia) E). rewrite !zlen_cons. lia.
Qed.
Theorem C71_deep_wallet_text_refuted : forall O, bops_ok O -> forall seed net path w private,
  known_net net -> Forall wf_written path -> 256 <= zlen path < 4096 ->
  (let* w := from_master_secret O seed net false in get_child_for_path O w (render path)) = Ok w ->
  exists e, serialize_b58 O w private = Err e.
Proof.
  intros O OK seed net path w private KN Wf Hl H. destruct (known_ok net private KN) as [NO _].
  apply bind_ok_inv in H. destruct H as (w0 & E0 & H). pose proof (master_ok O OK seed net) as M.
  destruct (master (hmac512 O) seed) as [[k0 c0]|] eqn:EM; [|destruct M as (e & M); congruence].
  destruct M as (E & _ & _). assert (w0 = wal O k0 c0 0 [0; 0; 0; 0] 0 net net (Some seed)) by congruence. subst w0.
  rewrite path_walk in H by exact Wf. pose proof (walk_master O OK seed net k0 c0 path Wf EM) as WM.
  destruct (derive (hmac512 O) (pnt O) (k0, c0) (map meaning path)) as [[k c]|]; [|destruct WM as (e & WM); congruence].
  destruct WM as (fp & i & pn & sd & EW & Hk & [Lc _] & [Lf _] & Hi & _). assert (w = wal O k c (zlen path) fp i pn net sd) by congruence. subst w.
  unfold serialize_b58. destruct (serialize O (wal O k c (zlen path) fp i pn net sd) private) as [s|e] eqn:ES; cbn [bind]; [|eauto].
  destruct (unhexlify s) as [b|e] eqn:EU; cbn [bind]; [|eauto]. exfalso.
  pose proof (unhexlify_even (length s) s b (le_n _) EU) as EV.
  assert (ZS : zlen s = 157).
  { unfold serialize in ES. cbn [w_priv wal w_net w_depth w_fp w_child w_chain w_pub] in ES.
    replace (negb private || true) with true in ES by (destruct private; reflexivity). cbn [guard bind] in ES.
    fold (version net private) in ES. rewrite hex4 in ES by (apply version_ok, NO). rewrite (hex4 i) in ES by exact Hi.
    assert (ZD : zlen (long_to_hex (zlen path) 2) = 3).
    { unfold long_to_hex. unfold zlen at 1. rewrite map_length. fold (zlen (zrange (Z.max 2 (Z.log2 (zlen path) / 4 + 1)))).
      rewrite zlen_zrange by lia.
      assert (8 <= Z.log2 (zlen path)) by (apply Z.log2_le_pow2; [lia|]; change (2 ^ 8) with 256; lia).
      assert (Z.log2 (zlen path) < 12) by (apply Z.log2_lt_pow2; [lia|]; change (2 ^ 12) with 4096; lia). lia. }
    assert (ZK : zlen (hexlify (key_data O k private)) = 66).
    { rewrite hexlify_zlen. rewrite (zl _ 33) by apply key_data_bytes. reflexivity. }
    assert (XS : s = hexlify (ser32 (version net private)) ++ long_to_hex (zlen path) 2 ++ hexlify fp ++ hexlify (ser32 i) ++ hexlify c ++ hexlify (key_data O k private)).
    { assert (X : forall a b : list Z, Ok a = Ok b -> b = a) by congruence. apply X. rewrite <- ES. unfold key_data. destruct private.
      - rewrite <- !app_assoc. reflexivity.
      - rewrite serP_hex by exact OK. rewrite <- !app_assoc. reflexivity. }
    rewrite XS, !zlen_app, ZD, ZK, !hexlify_zlen. rewrite (zl fp 4 Lf), (zl c 32 Lc). unfold ser32. rewrite !be_digits_zlen. reflexivity. }
  rewrite ZS in EV. discriminate.
Qed.
Print Assumptions C71_deep_wallet_text_refuted.

(** the documented purpose of a public copy, making public children, is not met for any number *)
Theorem C71_public_children_refuted : forall O (w w' : wallet O) n p b, public_copy O w = Ok w' -> exists e, get_child O w' n p b = Err e.
Proof.
  intros O w w' n p b H. apply no_child. unfold public_copy in H. apply bind_ok_inv in H. destruct H as (pr & _ & H).
  unfold new_wallet in H. cbn [negb orb andb guard bind] in H.
  apply bind_ok_inv in H. destruct H as (q & _ & H).
  apply bind_ok_inv in H. destruct H as (f & _ & H).
  apply bind_ok_inv in H. destruct H as (h & _ & H).
  assert (X : forall a b : wallet O, Ok a = Ok b -> a = b) by congruence. apply X in H. subst w'. reflexivity.
Qed.
Print Assumptions C71_public_children_refuted.

(** the warning of the documentation: a public parent and a non-hardened private child give the
    parent's private key.  It is met on the Bitcoin network; on any other the call fails *)
Theorem C71_parent_from_child_partial : forall O, bops_ok O -> forall seed net path s w wp child k c,
  Forall wf_written path -> (let* w := from_master_secret O seed net false in get_child_for_path O w (render path)) = Ok w -> holds O w k c ->
  0 <= s < 2 ^ 31 -> public_copy O w = Ok wp -> get_child O w s None true = Ok child ->
  (forall k', w_priv child = Some (PSecp k' BitcoinMainNet) -> k' <> k) ->
  if n_name net =? n_name BitcoinMainNet then exists r, crack_private_key O wp child = Ok r /\ holds O r k c
  else crack_private_key O wp child = Err AssertionError.
Proof.
  intros O OK seed net path s w wp child k c Wf H HH Hs HP HC NE.
  apply bind_ok_inv in H. destruct H as (w0 & E0 & H). pose proof (master_ok O OK seed net) as M.
  destruct (master (hmac512 O) seed) as [[k0 c0]|] eqn:EM; [|destruct M as (e & M); congruence].
  destruct M as (E & _ & _). assert (w0 = wal O k0 c0 0 [0; 0; 0; 0] 0 net net (Some seed)) by congruence. subst w0.
  rewrite path_walk in H by exact Wf. pose proof (walk_master O OK seed net k0 c0 path Wf EM) as WM.
  destruct (derive (hmac512 O) (pnt O) (k0, c0) (map meaning path)) as [[k1 c1]|]; [|destruct WM as (e & WM); congruence].
  destruct WM as (fp & i & pn & sd & EW & Hk & Hc & Hf & Hi & _). assert (w = wal O k1 c1 (zlen path) fp i pn net sd) by congruence. subst w.
  destruct HH as ((n1 & K) & _ & C & L & B). cbn [w_priv wal w_chain] in K, C. assert (k1 = k) by congruence. subst k1.
  assert (c1 = c). { destruct Hc as [_ B0]. pose proof (unhexlify_hexlify c1 B0) as U0. pose proof (unhexlify_hexlify c B) as U. congruence. } subst c1.
  rewrite (crack_ok O OK k c (zlen path) fp i pn net sd s _ wp child Hk Hc Hf Hs eq_refl HP HC).
  - rewrite (Z.eqb_sym (n_name net)). destruct (n_name BitcoinMainNet =? n_name net); [|reflexivity].
    eexists. split; [reflexivity|apply wal_holds, Hc].
  - pose proof (child_step O OK k c (zlen path) fp i pn net sd (s, false) None Hk Hc (kind_step (s, false) Hs) Hs) as S. cbn [fst snd] in S.
    destruct (CKDpriv _ _ _ _) as [[k' c']|]; [|exact Logic.I]. destruct S as (S & _). rewrite S in HC.
    apply NE. assert (X : forall a b : wallet O, Ok a = Ok b -> b = a) by congruence. apply X in HC. subst child. reflexivity.
Qed.
Print Assumptions C71_parent_from_child_partial.

(** ** the cache in front of get_child *)
(** positional calls: any history of calls answers as without the cache *)
Theorem C71_cache_positional : forall O (heap : Z -> wallet O) cs, Forall (fun c => c_kw c = []) cs ->
  memo_calls O heap [] cs = map (direct O heap) cs.
Proof. intros O heap cs H. apply memo_positional; [exact H|constructor]. Qed.
Print Assumptions C71_cache_positional.

(** "M" in place of "m": the same as ".pub" *)
Theorem C71_public_spelling : forall O (w : wallet O) path, Forall wf_written path ->
  get_child_for_path O w (77 :: tl (render path)) = get_child_for_path O w (render path ++ [46; 112; 117; 98]).
Proof.
  intros O w path H. rewrite path_walk_pub by exact H. rewrite render_eq. cbn [app tl]. set (F := flat_map (fun w => 47 :: part_of w) path).
  assert (NP : zlist_eqb (py_from (77 :: F) (-4)) dot_pub = false).
  { apply zlist_eqb_neq. intros K. assert (I46 : In 46 (77 :: F)) by (rewrite <- (py_upto_from (77 :: F) (-4)); apply in_or_app; right; rewrite K; left; reflexivity).
    destruct I46 as [Q|I46]; [discriminate Q|]. unfold F in I46. apply in_flat_map in I46. destruct I46 as (s & Hs & [Q|Q]); [discriminate Q|]. rewrite Forall_forall in H.
    apply (part_chars s) in Q; [lia|]. apply H, Hs. }
  unfold get_child_for_path. rewrite NP. rewrite zlen_cons. pose proof (zlen_nonneg F) as NF. replace (1 + zlen F =? 0) with false by lia. cbn [negb guard bind andb].
  change (77 :: F) with ([77] ++ F). unfold F. rewrite split_render_gen by (try exact H; intros [Q|[]]; discriminate Q). cbn [foldM].
  change (path_part O w [77]) with (Ok w). cbn [bind]. rewrite foldM_parts by exact H. destruct (walk O w path); reflexivity.
Qed.
Print Assumptions C71_public_spelling.
(** a negative number asks for the hardened child *)
Theorem C71_negative : forall O (w : wallet O) n as_private, 0 < n < 2 ^ 31 -> get_child O w (- n) None as_private = get_child O w n (Some true) as_private.
Proof.
  intros O w n ap H. unfold get_child. replace (child_kind (- n) None) with (child_kind n (Some true)); [reflexivity|]. unfold child_kind, boundary. rewrite Z.abs_opp.
  replace (Z.abs n <? 2147483648) with true by lia. cbn [guard bind]. replace (- n <? 0) with true by lia. replace (n <? 0) with false by lia. replace (2147483648 <=? n) with false by lia. cbn [orb negb guard bind].
  rewrite Z.abs_eq by lia. reflexivity.
Qed.
Print Assumptions C71_negative.
(** a child asked for without its private key has none, and is otherwise the child *)
Theorem C71_public_child : forall O (w w' : wallet O) n p, get_child O w n p false = Ok w' ->
  w_priv w' = None /\ exists c, get_child O w n p true = Ok c /\ w_chain w' = w_chain c /\ w_depth w' = w_depth c /\ w_child w' = w_child c /\ w_fp w' = w_fp c /\ w_net w' = w_net c.
Proof.
  intros O w w' n p H. assert (X : exists c, get_child O w n p true = Ok c /\ public_copy O c = Ok w').
  { unfold get_child in *. repeat (apply bind_ok_inv in H; let a := fresh "a" in let E := fresh "E" in destruct H as (a & E & H); rewrite E; cbn [bind]; try destruct a as [? ?]). eexists. split; [reflexivity|exact H]. }
  destruct X as (c & EC & HP). unfold public_copy in HP. apply bind_ok_inv in HP. destruct HP as (pr & _ & HP). unfold new_wallet in HP. cbn [negb orb andb guard bind] in HP.
  apply bind_ok_inv in HP. destruct HP as (q & Q1 & HP). apply bind_ok_inv in HP. destruct HP as (f & Q2 & HP). apply bind_ok_inv in HP. destruct HP as (h & Q3 & HP).
  assert (X : forall a b : wallet O, Ok a = Ok b -> a = b) by congruence. apply X in HP. subst w'. cbn [w_priv w_chain w_depth w_child w_fp w_net]. split; [reflexivity|]. exists c. split; [exact EC|].
  assert (HX : forall s k r, hx (Datatypes.inr s) k = Ok r -> r = s) by (intros s k r HX; unfold hx in HX; destruct (zlen s =? k); [congruence|discriminate]). apply HX in Q2, Q3. subst. repeat split.
Qed.
Print Assumptions C71_public_child.
(** the parent's key is never computed from a hardened child *)
Theorem C71_hardened_child_refused : forall O (w child : wallet O), 2 ^ 31 <= w_child child -> exists e, crack_private_key O w child = Err e.
Proof.
  intros O w child H. unfold crack_private_key. destruct (guard _ AssertionError) as [[]|e]; cbn [bind]; [|eauto]. destruct (fingerprint O w) as [fp|e]; cbn [bind]; [|eauto].
  destruct (guard _ ValueError) as [[]|e]; cbn [bind]; [|eauto]. unfold boundary. replace (2147483648 <=? w_child child) with true by lia. cbn [negb guard bind]. eauto.
Qed.
Print Assumptions C71_hardened_child_refused.

(** ** a concrete instance *)
Definition toy_hmac (k m : list Z) : list Z := toy_hash (k ++ m) ++ toy_hash (1 :: m ++ k).
Definition toyB : bops := {|
  bE := toy; sp := Ec_toy.zl; s_base := mk; s_xy := fun P => (v P, v P);
  s_point := fun x y => if inr x && (x =? y) then Ok (mk x) else Err AssertionError;
  s_lift := fun x odd => if Bool.eqb (Z.odd x) odd then Ok (x, x) else Err ValueError;
  hmac512 := toy_hmac; hash160 := fun m => firstn 20 (toy_hash m); sha256 := toy_hash |}.
Lemma toy_hash_ok m : length (toy_hash m) = 32%nat /\ bytes_ok (toy_hash m).
Proof. unfold toy_hash. split; [apply le_digits_length|]. apply digits_ok_256, le_digits_ok. lia. Qed.
Lemma toyB_ok : bops_ok toyB.
Proof.
  constructor; cbn [toyB hmac512 hash160 s_xy s_point s_lift bE sp fst snd].
  - intros k m. unfold toy_hmac. destruct (toy_hash_ok (k ++ m)) as [L1 B1]. destruct (toy_hash_ok (1 :: m ++ k)) as [L2 B2].
    split; [rewrite app_length, L1, L2; reflexivity|]. apply Forall_app. split; assumption.
  - intros m. destruct (toy_hash_ok m) as [L B]. split; [rewrite firstn_length, L; reflexivity|].
    apply Forall_forall. intros x Hx. unfold bytes_ok in B. rewrite Forall_forall in B. eapply B, In_firstn, Hx.
  - intros P. pose proof (v_range P). assert (l < 2 ^ 256) by reflexivity. lia.
  - intros P. pose proof (v_range P). unfold inr. replace ((0 <=? v P) && (v P <? l)) with true by lia. rewrite Z.eqb_refl. cbn [andb]. rewrite mk_v. reflexivity.
  - intros P. rewrite eqb_reflx. reflexivity.
  - intros P. cbn [toy encp]. split; [apply le_digits_length|]. apply digits_ok_256, le_digits_ok. lia.
Qed.
Example C71_instance : bops_ok toyB /\ Addr_spec.hash_like (sha256 toyB).
Proof. split; [exact toyB_ok|]. intros m. cbn [toyB sha256]. destruct (toy_hash_ok m) as [L B]. split; [exact B|rewrite L; lia]. Qed.

Definition ex_seed : list Z := [1; 2; 3; 4; 5; 6; 7; 8].
(** m/44'/128'/0p/0/7 *)
Definition ex_path : list written := [ {| w_digits := [52; 52]; w_mark := 39 |}; {| w_digits := [49; 50; 56]; w_mark := 39 |};
  {| w_digits := [48]; w_mark := 112 |}; {| w_digits := [48]; w_mark := 0 |}; {| w_digits := [55]; w_mark := 0 |} ].
Definition digitsb (s : list Z) : bool := negb (zlen s =? 0) && forallb (fun c => (48 <=? c) && (c <=? 57)) s.
Definition writtenb (w : written) : bool := digitsb (w_digits w) && (number (w_digits w) <? 2 ^ 31) && ((w_mark w =? 0) || (w_mark w =? 39) || (w_mark w =? 112)).
Lemma writtenb_ok p : forallb writtenb p = true -> Forall wf_written p.
Proof.
  intros H. rewrite forallb_forall in H. apply Forall_forall. intros w Hw. specialize (H w Hw). unfold writtenb, digitsb in H.
  rewrite !andb_true_iff, forallb_forall in H. destruct H as (((N & D) & B) & M). split; [split|split].
  - intros K. rewrite K in N. discriminate.
  - apply Forall_forall. intros c Hc. specialize (D c Hc). lia.
  - lia.
  - lia.
Qed.
Example C71_case_path : Forall wf_written ex_path /\ map meaning ex_path = [(44, true); (128, true); (0, true); (0, false); (7, false)].
Proof. split; [apply writtenb_ok; reflexivity|reflexivity]. Qed.
(** the derivation has a result, and the model returns it *)
Example C71_case : exists k c k' c' w w', master (hmac512 toyB) ex_seed = Some (k, c) /\
  derive (hmac512 toyB) (pnt toyB) (k, c) (map meaning ex_path) = Some (k', c') /\ k <> k' /\
  from_master_secret toyB ex_seed MoneroMainNet false = Ok w /\ get_child_for_path toyB w (render ex_path) = Ok w' /\ holds toyB w' k' c'.
Proof.
  destruct (master (hmac512 toyB) ex_seed) as [[k c]|] eqn:EM; [|vm_compute in EM; discriminate].
  destruct (derive (hmac512 toyB) (pnt toyB) (k, c) (map meaning ex_path)) as [[k' c']|] eqn:ED.
  2: { exfalso. assert (X : match master (hmac512 toyB) ex_seed with Some kc => match derive (hmac512 toyB) (pnt toyB) kc (map meaning ex_path) with Some _ => true | None => false end | None => true end = true) by (vm_compute; reflexivity). rewrite EM, ED in X. discriminate. }
  destruct (master_wal toyB toyB_ok ex_seed MoneroMainNet k c EM) as (EW & _ & Hc).
  pose proof (C71_path toyB toyB_ok ex_seed MoneroMainNet _ k c ex_path EW (wal_holds _ _ _ _ _ _ _ _ _ Hc) (proj1 C71_case_path)) as P. rewrite ED in P.
  destruct P as (w' & P1 & P2 & _). exists k, c, k', c'. eexists. exists w'. split; [reflexivity|]. split; [exact ED|]. split; [|split; [exact EW|split; [exact P1|exact P2]]].
  assert (X : match master (hmac512 toyB) ex_seed with Some kc => match derive (hmac512 toyB) (pnt toyB) kc (map meaning ex_path) with Some kc' => negb (fst kc =? fst kc') | None => true end | None => true end = true) by (vm_compute; reflexivity).
  rewrite EM, ED in X. cbn [fst] in X. lia.
Qed.

Definition ex_master : wallet toyB := wal toyB 5 (repeat 9 32) 0 [0; 0; 0; 0] 0 MoneroMainNet MoneroMainNet None.
Definition ex_wallet (net : network) : res (wallet toyB) := let* w := from_master_secret toyB ex_seed net false in get_child_for_path toyB w (render (skipn 4 ex_path)).
Definition okT {A} (r : res A) (f : A -> bool) : bool := match r with Ok a => f a | Err _ => false end.
Lemma okT_spec {A} (r : res A) f : okT r f = true -> exists a, r = Ok a /\ f a = true.
Proof. destruct r; cbn [okT]; [eauto|discriminate]. Qed.

(** with keyword arguments the cache answers for other arguments: after the child that is not
    hardened was asked for, the hardened one is the same object *)
Definition kcall (h : bool) : call := {| c_obj := 1; c_num := 3; c_pos := []; c_kw := [(KPrime, Some h)] |}.
Definition cache_bad (heap : Z -> wallet toyB) : bool :=
  match memo_calls toyB heap [] [kcall false; kcall true], direct toyB heap (kcall true) with
  | [Ok a; Ok b], Ok d => zlist_eqb (w_chain a) (w_chain b) && (w_child b =? 3) && (w_child d =? 3 + 2 ^ 31) && negb (zlist_eqb (w_chain b) (w_chain d))
  | _, _ => false
  end.
Lemma cache_bad_spec heap : cache_bad heap = true -> exists a b d, memo_calls toyB heap [] [kcall false; kcall true] = [Ok a; Ok b] /\
  direct toyB heap (kcall true) = Ok d /\ w_chain b <> w_chain d /\ w_child b = 3 /\ w_child d = 3 + 2 ^ 31.
Proof.
  unfold cache_bad. destruct (memo_calls toyB heap [] [kcall false; kcall true]) as [|[a|] [|[b|] [|]]]; try discriminate.
  destruct (direct toyB heap (kcall true)) as [d|]; [|discriminate]. intros H. exists a, b, d.
  rewrite !andb_true_iff, negb_true_iff in H. destruct H as (((_ & H2) & H3) & H4). split; [reflexivity|]. split; [reflexivity|].
  split; [|lia]. intros E. rewrite E, zlist_eqb_refl in H4. discriminate.
Qed.
Theorem C71_cache_keywords_refuted : ~ (forall O (heap : Z -> wallet O) cs, bops_ok O -> memo_calls O heap [] cs = map (direct O heap) cs).
Proof.
  intros H. assert (B : cache_bad (fun _ => ex_master) = true) by (vm_compute; reflexivity).
  destruct (cache_bad_spec _ B) as (a & b & d & M & D & N & _). rewrite H in M by exact toyB_ok. cbn [map] in M.
  rewrite D in M. assert (d = b) by congruence. subst. apply N. reflexivity.
Qed.
Print Assumptions C71_cache_keywords_refuted.

(** a child of a Monero wallet is not equal to what is read back from its own text: the keys of
    children carry the Bitcoin network *)
Definition reread (r : res (wallet toyB)) (net : network) : res (wallet toyB * wallet toyB) :=
  let* w := r in let* s := serialize toyB w true in let* w' := deserialize toyB s net in Ok (w, w').
Lemma reread_spec r net : okT (reread r net) (fun p => negb (wallet_eqb toyB (fst p) (snd p)) && wallet_eqb toyB (fst p) (fst p)) = true ->
  exists w s w', r = Ok w /\ serialize toyB w true = Ok s /\ deserialize toyB s net = Ok w' /\ wallet_eqb toyB w w' = false /\ wallet_eqb toyB w w = true.
Proof.
  intros H. apply okT_spec in H. destruct H as ([w w'] & H & B). unfold reread in H. cbn [fst snd] in B.
  apply bind_ok_inv in H. destruct H as (w1 & E1 & H). apply bind_ok_inv in H. destruct H as (s & E2 & H). apply bind_ok_inv in H. destruct H as (w2 & E3 & H).
  assert (w1 = w) by congruence. assert (w2 = w') by congruence. subst w1 w2. apply andb_true_iff in B. rewrite negb_true_iff in B.
  exists w, s, w'. split; [exact E1|]. split; [exact E2|]. split; [exact E3|]. split; apply B.
Qed.
Theorem C71_text_equality_refuted : exists w s w', ex_wallet MoneroMainNet = Ok w /\ serialize toyB w true = Ok s /\
  deserialize toyB s MoneroMainNet = Ok w' /\ wallet_eqb toyB w w' = false /\ wallet_eqb toyB w w = true.
Proof. apply reread_spec. vm_compute. reflexivity. Qed.
Print Assumptions C71_text_equality_refuted.
(** on the Bitcoin network they are equal *)
Example C71_case_text_equal : okT (reread (ex_wallet BitcoinMainNet) BitcoinMainNet) (fun p => wallet_eqb toyB (fst p) (snd p)) = true.
Proof. vm_compute. reflexivity. Qed.

(** public children, M paths and hardened children occur *)
Example C71_case_public : okT (let* w := from_master_secret toyB ex_seed MoneroMainNet false in
    let* c := get_child toyB w (-7) None false in let* d := get_child_for_path toyB w (77 :: tl (render (firstn 1 ex_path))) in let* h := get_child toyB w 7 (Some true) true in Ok (c, d, h))
  (fun '(c, d, h) => match w_priv c, w_priv d with None, None => (2 ^ 31 <=? w_child h) && (w_child c =? w_child h) && (w_depth d =? 1) | _, _ => false end) = true.
Proof. vm_compute. reflexivity. Qed.
(** hypotheses of the text theorems, of SLIP-0010 and of the recovered parent are met *)
Example C71_case_text : known_net MoneroMainNet /\ zlen (skipn 4 ex_path) < 256 /\ exists w, ex_wallet MoneroMainNet = Ok w.
Proof.
  split; [right; right; reflexivity|]. split; [reflexivity|].
  assert (H : okT (ex_wallet MoneroMainNet) (fun _ => true) = true) by (vm_compute; reflexivity). apply okT_spec in H. destruct H as (w & H & _). eauto.
Qed.
Example C71_case_networks : n_EXT_SECRET MoneroMainNet <> n_EXT_SECRET BitcoinTestNet /\ n_EXT_PUBLIC MoneroMainNet <> n_EXT_PUBLIC BitcoinTestNet.
Proof. split; discriminate. Qed.
Definition ex_hard : list written := firstn 3 ex_path.
Example C71_case_slip : Forall hard ex_hard /\ 1 <= parse256 (fst (slip_master (hmac512 toyB) ex_seed)) < N_secp /\
  exists w, (let* w := from_master_secret toyB ex_seed MoneroMainNet true in get_child_for_path toyB w (render ex_hard)) = Ok w.
Proof.
  split; [repeat constructor; unfold hard; cbn [w_mark]; discriminate|]. split.
  - assert (H : (1 <=? parse256 (fst (slip_master (hmac512 toyB) ex_seed))) && (parse256 (fst (slip_master (hmac512 toyB) ex_seed)) <? N_secp) = true) by (vm_compute; reflexivity). lia.
  - assert (H : okT (let* w := from_master_secret toyB ex_seed MoneroMainNet true in get_child_for_path toyB w (render ex_hard)) (fun _ => true) = true) by (vm_compute; reflexivity).
    apply okT_spec in H. destruct H as (w & H & _). eauto.
Qed.
Definition cracked (net : network) : res bool :=
  let* w := (let* w := from_master_secret toyB ex_seed net false in get_child_for_path toyB w (render [])) in let* wp := public_copy toyB w in let* ch := get_child toyB w 12 None true in
  let* r := crack_private_key toyB wp ch in
  Ok (match w_priv w, w_priv r with Some (PSecp a _), Some (PSecp b _) => a =? b | _, _ => false end).
Example C71_case_crack : cracked BitcoinMainNet = Ok true /\ cracked MoneroMainNet = Err AssertionError.
Proof. vm_compute. split; reflexivity. Qed.
Example C71_case_deep : exists p : list written, Forall wf_written p /\ 256 <= zlen p < 4096.
Proof.
  exists (repeat {| w_digits := [49]; w_mark := 39 |} 300). split; [|unfold zlen; rewrite repeat_length; lia].
  apply Forall_forall. intros w Hw. apply repeat_spec in Hw. subst. assert (F : Forall wf_written [ {| w_digits := [49]; w_mark := 39 |} ]) by (apply writtenb_ok; reflexivity).
  inversion F; assumption.
Qed.
