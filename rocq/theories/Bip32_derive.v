(** Whole paths; public copies; SLIP-0010. *)
From Verif Require Import Py PyLemmas Digits B58Mnr_model B58Mnr_spec B58Mnr_proof Mnemonic_model Mnemonic_proof Ints_model Ints_proof2 Ec_model
  Bip32_model Bip32_spec Bip32_base Bip32_proof Bip32_path.

Section B.
Context (O : bops) (OK : bops_ok O).
Notation hmac := (hmac512 O).
Notation point := (fun k => s_xy O (s_base O k)).
Notation h160 := (hash160 O).

Lemma walk_ok path : Forall wf_written path -> forall k c d fp i pn net sd, key_ok k -> bytes_n 32 c -> bytes_n 4 fp -> 0 <= i < 2 ^ 32 ->
  match derive hmac point (k, c) (map meaning path) with
  | Some (k', c') => exists fp' i' pn' sd', walk O (wal O k c d fp i pn net sd) path = Ok (wal O k' c' (d + zlen path) fp' i' pn' net sd') /\
      key_ok k' /\ bytes_n 32 c' /\ bytes_n 4 fp' /\ 0 <= i' < 2 ^ 32 /\ (pn' = pn \/ pn' = BitcoinMainNet)
  | None => exists e, walk O (wal O k c d fp i pn net sd) path = Err e
  end.
Proof.
  induction 1 as [|s path Hs _ IH]; intros k c d fp i pn net sd Hk Hc Hf Hi.
  - cbn [map derive]. exists fp, i, pn, sd. unfold walk. cbn [foldM]. change (zlen (@nil written)) with 0. rewrite Z.add_0_r. auto 10.
  - cbn [map derive]. unfold walk. cbn [foldM].
    pose proof (meaning_range s Hs) as R.
    pose proof (child_step O OK k c d fp i pn net sd (meaning s) (prime_arg (snd (meaning s))) Hk Hc (kind_step _ R) R) as S.
    destruct (CKDpriv hmac point (k, c) (meaning s)) as [[k1 c1]|].
    + destruct S as (E & Hk1 & Hc1). rewrite E. cbn [bind].
      specialize (IH k1 c1 (d + 1) (fingerprint_of point h160 k) (index (meaning s)) BitcoinMainNet net None Hk1 Hc1 (fp_bytes O OK k) (index_range _ R)).
      destruct (derive hmac point (k1, c1) (map meaning path)) as [[k' c']|]; [|exact IH].
      destruct IH as (fp' & i' & pn' & sd' & E' & A & B & C & D & F). exists fp', i', pn', sd'.
      unfold walk in E'. rewrite zlen_cons. replace (d + (1 + zlen path)) with (d + 1 + zlen path) by lia.
      split; [exact E'|]. split; [exact A|]. split; [exact B|]. split; [exact C|]. split; [exact D|]. tauto.
    + destruct S as (e & E). rewrite E. exists e. reflexivity.
Qed.

Lemma walk_snoc w path s : walk O w (path ++ [s]) =
  let* p := walk O w path in get_child O p (fst (meaning s)) (prime_arg (snd (meaning s))) true.
Proof.
  unfold walk. rewrite foldM_app. destruct (foldM _ path w); cbn [bind foldM]; [|reflexivity].
  destruct (get_child O a _ _ _); reflexivity.
Qed.
Lemma derive_snoc path s : forall kc, derive hmac point kc (path ++ [s]) =
  match derive hmac point kc path with Some kc => CKDpriv hmac point kc s | None => None end.
Proof.
  induction path as [|a path IH]; intros kc; cbn [app derive].
  - destruct (CKDpriv hmac point kc s) as [[]|]; reflexivity.
  - destruct (CKDpriv hmac point kc a); [apply IH|reflexivity].
Qed.

Lemma copy_ok k c d fp i pn net sd : bytes_n 32 c -> bytes_n 4 fp ->
  public_copy O (wal O k c d fp i pn net sd) =
  Ok {| w_priv := None; w_pub := QSecp O (s_base O k) net; w_chain := hexlify c; w_depth := d; w_fp := hexlify fp; w_child := i;
        w_net := net; w_ed := false; w_seed := None |}.
Proof.
  intros [Lc _] [Lf _]. unfold public_copy. cbn [w_pub wal to_public_pair bind w_chain w_depth w_fp w_child w_net].
  unfold new_wallet. cbn [negb orb andb guard bind]. unfold from_public_pair. rewrite (ok_point O OK). cbn [bind guard orb].
  change 8 with (2 * Z.of_nat 4). rewrite hx_hex by exact Lf. cbn [bind].
  change 64 with (2 * Z.of_nat 32). rewrite hx_hex by exact Lc. reflexivity.
Qed.

(** without a private key there are no children at all *)
Lemma no_child (w : wallet O) n p b : w_priv w = None -> exists e, get_child O w n p b = Err e.
Proof.
  intros H. unfold get_child. rewrite H.
  destruct (child_kind n p) as [[cn prime]|e]; cbn [bind]; [|eauto].
  destruct prime; cbn [negb guard bind]; [eauto|].
  destruct (w_ed w); cbn [bind]; [eauto|].
  destruct (unhexlify (w_chain w)); cbn [bind]; [|eauto].
  destruct (unhexlify _); cbn [bind]; [|eauto].
  destruct (int16 _); cbn [bind]; [|eauto].
  destruct (guard _ _); cbn [bind]; eauto.
Qed.

(** ** SLIP-0010 *)
Definition ed_of (w : wallet O) (raw c : list Z) : Prop :=
  w_ed w = true /\ w_chain w = hexlify c /\ bytes_n 32 c /\ bytes_n 32 raw /\
  (exists q, w_priv w = Some q /\ priv_key q = hexlify raw) /\ (exists b, bytes_ok b /\ pub_key O (w_pub w) = hexlify b).
Definition not_infinity (raw : list Z) : Prop :=
  pt_eqb (bE O) (scalarmult_base (bE O) (le_val 256 raw mod l)) (pid (bE O)) = false.

Lemma fingerprint_any w b : bytes_ok b -> pub_key O (w_pub w) = hexlify b -> exists f, bytes_n 4 f /\ fingerprint O w = Ok (hexlify f).
Proof.
  intros B E. unfold fingerprint, identifier. rewrite E, unhexlify_hexlify by exact B. cbn [bind].
  destruct (ok_h160 O OK b) as [L Bh]. set (h := h160 b) in *. clearbody h.
  exists (firstn 4 h). split.
  - split; [rewrite firstn_length; lia|]. apply Forall_forall. intros x Hx. unfold bytes_ok in Bh. rewrite Forall_forall in Bh. eapply Bh, In_firstn, Hx.
  - f_equal. rewrite <- (firstn_skipn 4 h) at 1. rewrite hexlify_app. apply py_upto_app. rewrite hexlify_zlen. unfold zlen. rewrite firstn_length. lia.
Qed.

Lemma ed_child w raw c i : ed_of w raw c -> 0 <= i < 2 ^ 31 ->
  let '(raw', c') := slip_child hmac (raw, c) i in
  (not_infinity raw' -> exists w', get_child O w i (Some true) true = Ok w' /\ ed_of w' raw' c' /\ w_depth w' = w_depth w + 1 /\
     w_pub w' = QEd O (scalarmult_base (bE O) (le_val 256 raw' mod l))) /\
  (~ not_infinity raw' -> get_child O w i (Some true) true = Err MoneroError).
Proof.
  intros (Ed & Ec & [Lc Bc] & [Lr Br] & (q & Eq & Kq) & (b & Bb & Eb)) Hi.
  unfold slip_child. cbn [fst snd].
  pose proof (kind_step (i, true) Hi) as K. cbn [fst snd prime_arg] in K.
  pose proof (index_range (i, true) Hi) as R. unfold index in R. cbn [fst snd] in R.
  unfold get_child. rewrite K. cbn [bind]. rewrite Eq, Ed, Ec. cbn [guard bind].
  change (i + boundary) with (i + 2 ^ 31).
  assert (EH : long_to_hex (i + 2 ^ 31) 8 = hexlify (ser32 (i + 2 ^ 31))) by (apply (long_to_hex_be 4); [lia|exact R]).
  rewrite EH, Kq, unhexlify_hexlify by exact Bc. cbn [bind].
  change ([48; 48] ++ hexlify raw) with (hexlify (0 :: raw)). rewrite <- hexlify_app.
  rewrite unhexlify_hexlify by (apply Forall_app; split; [constructor; [unfold byte_ok; lia|exact Br]|apply bytes_be]). cbn [bind].
  change ((0 :: raw) ++ ser32 (i + 2 ^ 31)) with (0 :: raw ++ ser32 (i + 2 ^ 31)).
  destruct (upto32 O OK c (0 :: raw ++ ser32 (i + 2 ^ 31))) as (E1 & E2 & L1 & L2 & B1 & B2).
  rewrite E1, E2. set (I := hmac c _) in *. clearbody I.
  rewrite int16_hexlify by exact B1. cbn [bind orb guard].
  assert (DI : decodeint (left32 I) 0 = Ok (le_val 256 (left32 I) mod l)).
  { unfold decodeint, offset_of. rewrite Z.eqb_refl. rewrite decodeint_raw_val by exact B1.
    replace (32 <=? zlen (left32 I)) with true by (unfold zlen; rewrite L1; reflexivity). cbn [bind].
    rewrite firstn_all2 by (rewrite L1; auto). reflexivity. }
  rewrite DI. cbn [bind get_public_key].
  destruct (fingerprint_any w b Bb Eb) as (f & [Lf _] & Ef). rewrite Ef.
  unfold not_infinity. set (P := scalarmult_base (bE O) (le_val 256 (left32 I) mod l)).
  destruct (pt_eqb (bE O) P (pid (bE O))) eqn:EI; cbn [negb guard bind].
  - split; [intros HH; congruence|intros _; reflexivity].
  - split; [intros _|intros HH; destruct (HH eq_refl)].
    unfold new_wallet. cbn [negb orb andb guard bind].
    change 8 with (2 * Z.of_nat 4). rewrite hx_hex by exact Lf. cbn [bind].
    change 64 with (2 * Z.of_nat 32). rewrite hx_hex by exact L2. cbn [bind].
    eexists. split; [reflexivity|]. split; [|split; reflexivity].
    split; [reflexivity|]. split; [reflexivity|]. split; [split; assumption|]. split; [split; assumption|]. split.
    + eexists. split; reflexivity.
    + exists (encp (bE O) P). split; [apply (ok_enc O OK)|reflexivity].
Qed.

Lemma ed_master seed net : 
  let '(raw, c) := slip_master hmac seed in
  (key_ok (parse256 raw) -> exists w, from_master_secret O seed net true = Ok w /\ ed_of w raw c /\ w_depth w = 0) /\
  (~ key_ok (parse256 raw) -> exists e, from_master_secret O seed net true = Err e).
Proof.
  unfold slip_master, from_master_secret. change ed25519_seed with Ed25519_seed.
  destruct (upto32 O OK Ed25519_seed seed) as (E1 & E2 & L1 & L2 & B1 & B2).
  rewrite E1, E2. set (I := hmac Ed25519_seed seed) in *. clearbody I.
  rewrite !int16_hexlify by assumption. cbn [bind].
  fold (parse256 (left32 I)). fold (parse256 (right32 I)).
  pose proof (parse_bound _ (conj L1 B1)) as P1. pose proof (parse_bound _ (conj L2 B2)) as P2.
  pose proof (be_parse _ (conj L2 B2)) as R2. pose proof (be_parse _ (conj L1 B1)) as R1.
  set (k := parse256 (left32 I)) in *. set (c := parse256 (right32 I)) in *. clearbody k c.
  unfold new_wallet. cbn [negb orb andb]. rewrite andb_false_r. cbn [negb guard bind]. split; intros KO.
  - replace (k =? 0) with false by (unfold key_ok in KO; lia).
    rewrite PrivateKey_ok by exact KO. cbn [bind get_public_key guard].
    change (hx (inl 0) 8) with (hx (inl 0) (2 * Z.of_nat 4)). rewrite hx_int by (cbn; lia). cbn [bind].
    change 64 with (2 * Z.of_nat 32). rewrite hx_int by (lia || exact P2). cbn [bind]. rewrite R2.
    eexists. split; [reflexivity|]. split; [|reflexivity].
    split; [reflexivity|]. split; [reflexivity|]. split; [split; assumption|]. split; [split; assumption|]. split.
    + eexists. split; [reflexivity|]. cbn [priv_key]. rewrite R1. reflexivity.
    + eexists. split; [|cbn [w_pub]; apply serP_hex, OK]. apply serP_bytes.
  - destruct (Z.eqb_spec k 0) as [->|]; [eexists; reflexivity|]. rewrite PrivateKey_bad by exact KO. eexists. reflexivity.
Qed.

Definition hardened (w : written) : Prop := w_mark w <> 0.
Lemma ed_walk path : Forall wf_written path -> Forall hardened path -> forall w raw c, ed_of w raw c ->
  let '(raw', c') := slip_derive hmac (raw, c) (map (fun s => fst (meaning s)) path) in
  ((forall p q, path = p ++ q -> p <> [] -> not_infinity (fst (slip_derive hmac (raw, c) (map (fun s => fst (meaning s)) p)))) ->
     exists w', walk O w path = Ok w' /\ ed_of w' raw' c' /\ w_depth w' = w_depth w + zlen path /\
       (path <> [] -> w_pub w' = QEd O (scalarmult_base (bE O) (le_val 256 raw' mod l)))) /\
  (forall w', walk O w path = Ok w' -> ed_of w' raw' c').
Proof.
  induction path as [|s path IH]; intros Wf Hh w raw c E.
  - cbn [map slip_derive fold_left]. unfold walk. cbn [foldM]. split.
    + intros _. exists w. change (zlen (@nil written)) with 0. rewrite Z.add_0_r. split; [reflexivity|]. split; [exact E|]. split; [reflexivity|congruence].
    + intros w' H. assert (w = w') by congruence. subst. exact E.
  - inversion Wf as [|? ? Ws Wp]; subst. inversion Hh as [|? ? Hs Hp]; subst.
    assert (M : prime_arg (snd (meaning s)) = Some true).
    { cbn [meaning snd]. unfold hardened in Hs. replace (w_mark s =? 0) with false by lia. reflexivity. }
    cbn [map slip_derive fold_left].
    pose proof (ed_child w raw c (fst (meaning s)) E (meaning_range s Ws)) as C.
    change (fold_left (slip_child hmac) (map (fun s => fst (meaning s)) path) (slip_child hmac (raw, c) (fst (meaning s))))
      with (slip_derive hmac (slip_child hmac (raw, c) (fst (meaning s))) (map (fun s => fst (meaning s)) path)).
    destruct (slip_child hmac (raw, c) (fst (meaning s))) as [r1 c1] eqn:Esc. destruct C as [C1 C2].
    destruct (slip_derive hmac (r1, c1) (map (fun s0 => fst (meaning s0)) path)) as [r2 c2] eqn:Esd.
    unfold walk. cbn [foldM]. rewrite M. split.
    + intros NI. assert (N1 : not_infinity r1).
      { specialize (NI [s] path eq_refl ltac:(discriminate)). cbn [map] in NI. unfold slip_derive in NI. cbn [fold_left] in NI. rewrite Esc in NI. exact NI. }
      destruct (C1 N1) as (w1 & G & Ew & D1 & P1). rewrite G. cbn [bind].
      specialize (IH Wp Hp w1 r1 c1 Ew). rewrite Esd in IH. destruct IH as [IH _].
      destruct IH as (w' & A & B & D & F).
      { intros p q -> Np. specialize (NI (s :: p) q eq_refl ltac:(discriminate)). cbn [map] in NI. unfold slip_derive in NI |- *.
        cbn [fold_left] in NI. rewrite Esc in NI. exact NI. }
      exists w'. split; [exact A|]. split; [exact B|]. split; [rewrite zlen_cons; lia|]. intros _.
      destruct path as [|s2 path]; [|apply F; discriminate].
      unfold walk in A. cbn [foldM] in A. unfold slip_derive in Esd. cbn [map fold_left] in Esd.
      assert (w1 = w') by congruence. subst w'. assert (r1 = r2) by congruence. subst. exact P1.
    + intros w' H. destruct (pt_eqb (bE O) (scalarmult_base (bE O) (le_val 256 r1 mod l)) (pid (bE O))) eqn:EI.
      * rewrite C2 in H by (unfold not_infinity; congruence). cbn [bind] in H. discriminate.
      * destruct (C1 EI) as (w1 & G & Ew & _ & _). rewrite G in H. cbn [bind] in H.
        specialize (IH Wp Hp w1 r1 c1 Ew). rewrite Esd in IH. apply IH. exact H.
Qed.
Lemma ed_plain w i : w_ed w = true -> exists e, get_child O w i None true = Err e \/ i < 0 \/ 2 ^ 31 <= i.
Proof.
  intros H. destruct (Z.ltb_spec i 0); [exists ValueError; auto|]. destruct (Z.leb_spec (2 ^ 31) i); [exists ValueError; auto|].
  unfold get_child. pose proof (kind_step (i, false) ltac:(cbn; lia)) as K. cbn [fst snd prime_arg] in K. rewrite K. cbn [bind].
  rewrite H. destruct (w_priv w); cbn [guard bind]; eexists; left; reflexivity.
Qed.
End B.
