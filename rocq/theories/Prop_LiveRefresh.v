(** C81: key images and derivations the agent asks the device for. *)
From Verif Require Import Py PyLemmas Digits Ints_model Ec_model Ec_spec Ec_proof Ec_toy Sigs_model Sigs_spec Sigs_proof Mlsag_model Rsig_model Container_model Container_proof LiveRefresh_model LiveRefresh_spec LiveRefresh_proof Accept_spec Prop_Sigs Prop_Accept Ed25519_inst.

(** the agent returns a key image exactly if the answer decrypts under the key shared for this output, to a point
    followed by a proof (c, r) that this point and the output's key have one secret; any other answer is an error *)
Theorem C81_accepts (E : ecops) (K : prims) view out_key salt pack ki :
  live_refresh E K view out_key salt pack = Ok ki <->
  exists b P c r,
    decrypt_pack K (shared_key (hash E) (hmac K) (enc_sc view) out_key salt) pack = Ok b /\ (96 <= length b)%nat /\
    decp E out_key = Ok P /\ decp E (firstn 32 b) = Ok ki /\
    c = le_val 256 (firstn 32 (skipn 32 b)) mod l /\ r = le_val 256 (firstn 32 (skipn 64 b)) mod l /\
    image_proof E (firstn 32 b) P ki c r.
Proof. apply refresh_ok. Qed.
Print Assumptions C81_accepts.

(** a device that holds the secret x of the output and signs its key image as key image export does is believed, and
    the agent gets the key image x Hp(xG); [tail] is whatever follows the 96 bytes *)
Theorem C81_honest (E : ecops) (K : prims) : ec_laws E -> (forall P, length (encp E P) = 32%nat) -> cipher_laws K ->
  forall view salt nonce x test rnd tail, scalar x -> (forall i, scalar (fst (rnd i)) /\ scalar (snd (rnd i))) -> length nonce = 12%nat ->
  let P := smul E (Gb E) x in
  exists c r, generate_ring_signature E (encp E (image_of E x)) (image_of E x) [P] x 0 test rnd = Ok [(c, r)] /\
    (c <> 0 -> r <> 0 ->
     live_refresh E K view (encp E P) salt
       (encrypt_pack K (shared_key (hash E) (hmac K) (enc_sc view) (encp E P) salt) (encp E (image_of E x) ++ enc_sc c ++ enc_sc r ++ tail) nonce None)
     = Ok (image_of E x)).
Proof.
  intros L e32 HK view salt nonce x test rnd tail Sx Hr Hn P.
  destruct (C32_complete E L (encp E (image_of E x)) [P] x 0 test rnd Sx Hr (Z.le_refl 0) eq_refl) as (sig & H1 & H2 & H3).
  destruct sig as [|[c r] [|]]; try discriminate H2. exists c, r. split; [exact H1|]. intros Nc Nr.
  apply (refresh_pack E L e32); [exact HK|exact Hn|]. apply one_member. apply H3. repeat constructor; assumption.
Qed.
Print Assumptions C81_honest.

(** a wrong key image in the group of order l: whatever two points the device commits to, there is at most one
    challenge it can answer, so the hash has to hit this one value *)
Theorem C81_wrong_image_partial (E : ecops) : ec_laws E -> (forall P, length (encp E P) = 32%nat) -> Gb E <> pid E ->
  forall x I, scalar x -> in_group E I -> I <> image_of E x ->
  forall m c r m' c' r', let P := smul E (Gb E) x in
  image_proof E m P I c r -> image_proof E m' P I c' r' ->
  proof_G E P c r = proof_G E P c' r' -> proof_H E P I c r = proof_H E P I c' r' -> c = c'.
Proof.
  intros L e32 NG x I Sx GI N m c r m' c' r' P (Hc & Hr & _) (Hc' & Hr' & _) HG HH.
  destruct (Z.eq_dec c c') as [E1|E1]; [exact E1|exfalso]. apply N.
  apply (two_challenges E L e32 P I x c r c' r' NG Sx eq_refl GI); try lia; assumption.
Qed.
Print Assumptions C81_wrong_image_partial.
Theorem C81_on_ed25519_wrong_image_partial : forall x I, scalar x -> in_group ed25519 I -> I <> image_of ed25519 x ->
  forall m c r m' c' r', let P := smul ed25519 (Gb ed25519) x in
  image_proof ed25519 m P I c r -> image_proof ed25519 m' P I c' r' ->
  proof_G ed25519 P c r = proof_G ed25519 P c' r' -> proof_H ed25519 P I c r = proof_H ed25519 P I c' r' -> c = c'.
Proof. exact (C81_wrong_image_partial ed25519 ed25519_laws ed25519_enc_len ed_G_nz). Qed.
Print Assumptions C81_on_ed25519_wrong_image_partial.

(** outside this group it is false: the agent does not check that the key image has order l.  The device adds a point
    T of order 2, 4 or 8 to the key image and draws nonces k until the challenge is a multiple of 8 *)
Theorem C81_wrong_image_refuted (E : ecops) (K : prims) : ec_laws E -> (forall P, length (encp E P) = 32%nat) -> cipher_laws K ->
  forall view salt nonce x k T, scalar x -> scalar k -> length nonce = 12%nat -> smul E T 8 = pid E -> T <> pid E ->
  let P := smul E (Gb E) x in let I := padd E (image_of E x) T in
  let c := le_val 256 (hash E (encp E I ++ encp E (smul E (Gb E) k) ++ encp E (smul E (Hp E (encp E P)) k))) mod l in
  let r := (k - c * x) mod l in
  c mod 8 = 0 -> c <> 0 -> r <> 0 ->
  I <> image_of E x /\
  live_refresh E K view (encp E P) salt
    (encrypt_pack K (shared_key (hash E) (hmac K) (enc_sc view) (encp E P) salt) (encp E I ++ enc_sc c ++ enc_sc r) nonce None) = Ok I.
Proof.
  intros L e32 HK view salt nonce x k T Sx Sk Hn HT NT P I c r Hm Nc Nr.
  assert (Sc : scalar c) by apply mod_scalar. assert (Sr : scalar r) by apply mod_scalar. unfold scalar in Sc, Sr. split.
  - intros X. apply NT. apply (cancel_l E L (image_of E x)). rewrite (law_comm E L _ (pid E)), (law_id E L). exact X.
  - rewrite <- (app_nil_r (enc_sc r)). apply (refresh_pack E L e32 K view x salt nonce I c r []); [exact HK|exact Hn|].
    destruct (torsion_points E L e32 x k c T Sx Sk (proj1 Sc) HT Hm) as [HG HH]. fold r P I in HG, HH. fold P.
    split; [lia|]. split; [lia|]. rewrite HG, HH. reflexivity.
Qed.
Print Assumptions C81_wrong_image_refuted.

(** derivations: the agent returns exactly the points the device packed *)
Theorem C81_derivations (E : ecops) (K : prims) : ec_laws E -> (forall P, length (encp E P) = 32%nat) -> cipher_laws K ->
  forall view tx_prefix_hash salt nonce Ds, length nonce = 12%nat ->
  agent_get_tx_deriv E K view tx_prefix_hash salt
    (encrypt_pack K (shared_key (hash E) (hmac K) (enc_sc view) tx_prefix_hash salt) (concat (map (encp E) Ds)) nonce None) = Ok Ds.
Proof.
  intros L e32 HK view h salt nonce Ds Hn. unfold agent_get_tx_deriv.
  change (compute_tx_key_host E K view h salt) with (shared_key (hash E) (hmac K) (enc_sc view) h salt).
  rewrite pack_roundtrip by assumption. cbn [bind].
  assert (Lk : zlen (concat (map (encp E) Ds)) = zlen Ds * 32) by (unfold zlen; rewrite (concat_enc_len E e32); lia).
  rewrite Lk, Z.mod_mul, Z.div_mul by discriminate. cbn [Z.eqb guard bind].
  pose proof (derivs_all E L e32 [] Ds [] eq_refl) as H. rewrite app_nil_r in H. cbn [app length Nat.div] in H.
  unfold zrange, zlen. rewrite Nat2Z.id. exact H.
Qed.
Print Assumptions C81_derivations.
(** an answer that is not a whole number of 32-byte values, or does not decrypt, is refused: for derivations and for keys *)
Theorem C81_malformed (E : ecops) (K : prims) view tx_prefix_hash salt pack :
  match decrypt_pack K (shared_key (hash E) (hmac K) (enc_sc view) tx_prefix_hash salt) pack with
  | Ok b => (length b mod 32)%nat <> 0%nat
  | Err _ => True
  end ->
  (forall Ds, agent_get_tx_deriv E K view tx_prefix_hash salt pack <> Ok Ds) /\
  (forall ks, agent_get_tx_key E K view tx_prefix_hash salt pack <> Ok ks).
Proof.
  intros H. unfold agent_get_tx_deriv, agent_get_tx_key.
  change (compute_tx_key_host E K view tx_prefix_hash salt) with (shared_key (hash E) (hmac K) (enc_sc view) tx_prefix_hash salt).
  destruct (decrypt_pack K _ pack) as [b|e]; cbn [bind]; [|split; discriminate].
  assert (G : (zlen b mod 32 =? 0) = false).
  { apply Z.eqb_neq. unfold zlen. intros X. apply H. apply Nat2Z.inj. rewrite Nat2Z.inj_mod. exact X. }
  rewrite G. split; discriminate.
Qed.
Print Assumptions C81_malformed.
Example C81_case_malformed :
  let pack b := encrypt_pack toy_prims (shared_key (hash toy) (hmac toy_prims) (enc_sc 55) (repeat 1 32) [9]) b (repeat 3 12) None in
  match decrypt_pack toy_prims (shared_key (hash toy) (hmac toy_prims) (enc_sc 55) (repeat 1 32) [9]) (pack (repeat 0 33)) with
  | Ok b => Nat.eqb (length b mod 32) 0 = false | Err _ => False end /\
  agent_get_tx_key toy toy_prims 55 (repeat 1 32) [9] (pack (repeat 0 33)) = Err ValueError /\
  agent_get_tx_key toy toy_prims 55 (repeat 1 32) [9] (pack (repeat 0 32)) = Ok [0].
Proof. intros pack. split; [|split]; vm_compute; reflexivity. Qed.

(** examples: an honest answer, the same answer for another output, a device that does not know the secret, trailing bytes *)
Definition x_pack (E : ecops) (x : Z) (I : pt E) (c r : Z) (tail : list Z) : list Z :=
  encrypt_pack toy_prims (shared_key (hash E) (hmac toy_prims) (enc_sc 55) (encp E (smul E (Gb E) x)) [9]) (encp E I ++ enc_sc c ++ enc_sc r ++ tail) (repeat 3 12) None.
Definition x_honest : bool :=
  match generate_ring_signature toy (encp toy (image_of toy 77)) (image_of toy 77) [smul toy (Gb toy) 77] 77 0 true (fun _ => (123456789, 0)) with
  | Ok [(c, r)] =>
      let pack := x_pack toy 77 (image_of toy 77) c r in
      negb (c =? 0) && negb (r =? 0) &&
      match live_refresh toy toy_prims 55 (encp toy (smul toy (Gb toy) 77)) [9] (pack []) with Ok J => pt_eqb toy J (image_of toy 77) | _ => false end &&
      match live_refresh toy toy_prims 55 (encp toy (smul toy (Gb toy) 77)) [9] (pack [1; 2]) with Ok J => pt_eqb toy J (image_of toy 77) | _ => false end &&
      match live_refresh toy toy_prims 55 (encp toy (smul toy (Gb toy) 78)) [9] (pack []) with Err ValueError => true | _ => false end &&
      match live_refresh toy toy_prims 55 (encp toy (smul toy (Gb toy) 77)) [9] (x_pack toy 77 (image_of toy 78) c r []) with Err ValueError => true | _ => false end
  | _ => false
  end.
Example C81_case : x_honest = true.
Proof. vm_compute. reflexivity. Qed.
(** the refutation's hypotheses: a group with a point of order 2 *)
Definition x_T : pt toyT := (pid toy, true).
Definition x_c (k : Z) : Z :=
  let P := smul toyT (Gb toyT) 77 in let I := padd toyT (image_of toyT 77) x_T in
  le_val 256 (hash toyT (encp toyT I ++ encp toyT (smul toyT (Gb toyT) k) ++ encp toyT (smul toyT (Hp toyT (encp toyT P)) k))) mod l.
Definition x_r (k : Z) : Z := (k - x_c k * 77) mod l.
Definition x_k : Z := 24.
Example C81_case_refuted :
  (pt_eqb toyT (smul toyT x_T 8) (pid toyT) && negb (pt_eqb toyT x_T (pid toyT)) &&
   (x_c x_k mod 8 =? 0) && negb (x_c x_k =? 0) && negb (x_r x_k =? 0)) = true /\
  match live_refresh toyT toy_prims 55 (encp toyT (smul toyT (Gb toyT) 77)) [9] (x_pack toyT 77 (padd toyT (image_of toyT 77) x_T) (x_c x_k) (x_r x_k) []) with
  | Ok J => pt_eqb toyT J (image_of toyT 77) = false | Err _ => False end.
Proof. split; vm_compute; reflexivity. Qed.
Example C81_case_derivations :
  match agent_get_tx_deriv toy toy_prims 55 (repeat 1 32) [9]
    (encrypt_pack toy_prims (shared_key (hash toy) (hmac toy_prims) (enc_sc 55) (repeat 1 32) [9]) (encp toy (Gb toy) ++ encp toy (Hb toy)) (repeat 3 12) None) with
  | Ok [a; b] => pt_eqb toy a (Gb toy) && pt_eqb toy b (Hb toy) | _ => false end = true.
Proof. vm_compute. reflexivity. Qed.
