(** C69: what an accepted ring signature or range proof means.
    C70: who can answer two challenges knows the keys; key images are unique; nonces must not be reused. *)
From Verif Require Import Py PyLemmas Digits Ints_model Ints_proof Ec_model Ec_spec Ec_proof Ec_toy Sigs_model Sigs_spec Sigs_proof Mlsag_model Mlsag_spec Borromean_model Borromean_spec Clsag_proof Prop_Mlsag Accept_spec Accept_proof Accept_proof2 Accept_proof3 Accept_proof4 Ed25519_order Ed25519_inst.

(** ** C69 *)
(** the verifier accepts exactly the signatures whose challenges close the ring, for every input (also malformed ones) *)
Theorem C69_mlsag_accepts (E : ecops) message pk rv ds :
  ver_mlsag_ext E message pk rv ds = Ok true <-> mlsag_valid E message pk rv ds.
Proof. apply mlsag_iff. Qed.
Print Assumptions C69_mlsag_accepts.
(** one input against its pseudo output *)
Theorem C69_simple_accepts (E : ecops) message mg pubs pseudo :
  ver_rct_mg_simple E message mg pubs pseudo = Ok true <-> simple_valid E message pubs pseudo mg.
Proof. apply simple_iff. Qed.
Print Assumptions C69_simple_accepts.
(** all inputs together: the last row is inputs - outputs - fee *)
Theorem C69_full_accepts (E : ecops) : ec_laws E -> forall message mg pubs outs fee,
  ver_rct_mg E mg pubs outs fee message = Ok true <-> full_valid E message pubs outs fee mg.
Proof. intros L message mg pubs outs fee. apply full_iff, L. Qed.
Print Assumptions C69_full_accepts.
Theorem C69_clsag_accepts (E : ecops) message ss c1 I D pubs offset :
  verify_clsag E message ss c1 I D pubs offset = Ok tt <-> clsag_valid E message ss c1 I D pubs offset.
Proof. apply clsag_iff. Qed.
Print Assumptions C69_clsag_accepts.
(** a range proof is accepted for the commitment C exactly if its 64 bit commitments add up to C and the rings close *)
Theorem C69_range_accepts (E : ecops) : ec_laws E -> forall C R, ver_range E (Some C) R = Ok true <-> range_valid E C R.
Proof. intros L C R. apply range_iff, L. Qed.
Print Assumptions C69_range_accepts.
Theorem C69_on_ed25519_range_accepts : forall C R, ver_range ed25519 (Some C) R = Ok true <-> range_valid ed25519 C R.
Proof. exact (C69_range_accepts ed25519 ed25519_laws). Qed.
Print Assumptions C69_on_ed25519_range_accepts.
Theorem C69_on_ed25519_full_accepts : forall message mg pubs outs fee,
  ver_rct_mg ed25519 mg pubs outs fee message = Ok true <-> full_valid ed25519 message pubs outs fee mg.
Proof. exact (C69_full_accepts ed25519 ed25519_laws). Qed.
Print Assumptions C69_on_ed25519_full_accepts.
(** a signature accepted for two messages of the same length (messages are 32-byte hashes) shows a hash collision *)
Theorem C69_mlsag_binding (E : ecops) m m' pk rv ds : length m = length m' -> m <> m' ->
  ver_mlsag_ext E m pk rv ds = Ok true -> ver_mlsag_ext E m' pk rv ds = Ok true -> collision E.
Proof. intros H1 H2 H3 H4. apply mlsag_iff in H3, H4. eapply mlsag_binds; eauto. Qed.
Print Assumptions C69_mlsag_binding.
Theorem C69_clsag_binding (E : ecops) m m' ss c1 I D pubs offset : length m = length m' -> m <> m' -> pubs <> [] ->
  verify_clsag E m ss c1 I D pubs offset = Ok tt -> verify_clsag E m' ss c1 I D pubs offset = Ok tt -> collision E.
Proof. intros H1 H2 H3 H4 H5. apply clsag_iff in H4, H5. exact (clsag_binds E m m' ss c1 I D pubs offset H1 H2 H3 H4 H5). Qed.
Print Assumptions C69_clsag_binding.

Definition is_true (r : res bool) : bool := match r with Ok b => b | Err _ => false end.
Lemma is_true_ok r : is_true r = true -> r = Ok true.
Proof. destruct r as [[]|]; [reflexivity|discriminate..]. Qed.
Definition is_tt (r : res unit) : bool := match r with Ok _ => true | Err _ => false end.
Lemma is_tt_ok r : is_tt r = true -> r = Ok tt.
Proof. destruct r as [[]|]; [reflexivity|discriminate]. Qed.
(** accepted cases, also for two messages (the toy hash has collisions) *)
Definition x_pk := [[smul toy (Gb toy) 7; smul toy (Gb toy) 8]; [smul toy (Gb toy) 77; smul toy (Gb toy) 78]; [smul toy (Gb toy) 9; smul toy (Gb toy) 10]].
Definition x_two (r : res (mgsig toy * Z)) : bool := match r with
  | Ok (rv, _) => is_true (ver_mlsag_ext toy [1; 0] x_pk rv 1) && is_true (ver_mlsag_ext toy [0; 7919] x_pk rv 1)
  | Err _ => false end.
Lemma x_two_ok r : x_two r = true -> exists rv, ver_mlsag_ext toy [1; 0] x_pk rv 1 = Ok true /\ ver_mlsag_ext toy [0; 7919] x_pk rv 1 = Ok true.
Proof.
  unfold x_two. destruct r as [(rv, c)|]; intros H; [|discriminate H].
  apply andb_prop in H. destruct H as [H1 H2]. exists rv. split; apply is_true_ok; assumption.
Qed.
Lemma x_mlsag_ok : x_two (gen_mlsag_ext toy [1; 0] x_pk [77; 78] None false 1 1 [501; 502] (fun i => [100 + Z.of_nat i; 200])) = true.
Proof. vm_compute. reflexivity. Qed.
Example C69_mlsag_case : exists rv, ver_mlsag_ext toy [1; 0] x_pk rv 1 = Ok true /\ ver_mlsag_ext toy [0; 7919] x_pk rv 1 = Ok true.
Proof. exact (x_two_ok _ x_mlsag_ok). Qed.
Definition x_sk : sctkey := {| sk_dest := 5555; sk_mask := 777 |}.
Definition x_some (f : mgsig toy -> res bool) (r : res (mgsig toy * Z)) : bool := match r with Ok (rv, _) => is_true (f rv) | Err _ => false end.
Lemma x_some_ok f r : x_some f r = true -> exists rv, f rv = Ok true.
Proof. unfold x_some. destruct r as [(rv, c)|]; intros H; [|discriminate H]. exists rv. apply is_true_ok, H. Qed.
Lemma x_simple_ok : x_some (fun rv => ver_rct_mg_simple toy [1; 2] rv t_ring (commit toy 999 1000))
  (prove_rct_mg_simple toy [1; 2] t_ring x_sk 999 (commit toy 999 1000) None false 1 [501; 502] (fun i => [100 + Z.of_nat i; 200])) = true.
Proof. vm_compute. reflexivity. Qed.
Example C69_simple_case : exists rv, simple_valid toy [1; 2] t_ring (commit toy 999 1000) rv.
Proof. destruct (x_some_ok _ _ x_simple_ok) as (rv & H). exists rv. apply C69_simple_accepts, H. Qed.
Definition x_pubs := [[tk 1 2 3; tk 4 5 6]; [tk 11 12 70; tk 14 15 40]].
Definition x_outs := [encp toy (commit toy 31 100)].
Lemma x_full_ok : x_some (fun rv => ver_rct_mg toy rv x_pubs x_outs (smul toy (Hb toy) 10) [5])
  (prove_rct_mg toy [5] x_pubs [{| sk_dest := 11; sk_mask := 12 |}; {| sk_dest := 14; sk_mask := 15 |}] [31] x_outs None false 1
     (smul toy (Hb toy) 10) [501; 502; 503] (fun i => [100; 200; 300])) = true.
Proof. vm_compute. reflexivity. Qed.
Example C69_full_case : exists rv, full_valid toy [5] x_pubs x_outs (smul toy (Hb toy) 10) rv.
Proof. destruct (x_some_ok _ _ x_full_ok) as (rv & H). exists rv. apply (C69_full_accepts toy toy_laws), H. Qed.
Definition x_img : pt toy := smul toy (Hp toy (ct_dest (tk 5555 777 1000))) 5555.
Definition x_clsag (r : res (list (list Z))) : bool := match r with
  | Ok b => match decp toy (sig_D 3 b) with
            | Ok sD => is_tt (verify_clsag toy [1; 0] (sig_ss 3 b) (sig_c1 3 b) x_img sD t_ring (commit toy 999 1000)) &&
                       is_tt (verify_clsag toy [0; 7919] (sig_ss 3 b) (sig_c1 3 b) x_img sD t_ring (commit toy 999 1000))
            | Err _ => false end
  | Err _ => false end.
Lemma x_clsag_two r : x_clsag r = true -> exists ss c1 D, verify_clsag toy [1; 0] ss c1 x_img D t_ring (commit toy 999 1000) = Ok tt /\
  verify_clsag toy [0; 7919] ss c1 x_img D t_ring (commit toy 999 1000) = Ok tt.
Proof.
  unfold x_clsag. destruct r as [b|]; [|intros H; discriminate H].
  destruct (decp toy (sig_D 3 b)) as [D|] eqn:Q; intros H; [|discriminate H].
  apply andb_prop in H. destruct H as [H1 H2]. exists (sig_ss 3 b), (sig_c1 3 b), D. split; apply is_tt_ok; assumption.
Qed.
Lemma x_clsag_ok : x_clsag (generate_clsag_simple toy [1; 0] t_ring x_sk 999 (commit toy 999 1000) 1 [] 4242 (fun i => 100 + Z.of_nat i)) = true.
Proof. vm_compute. reflexivity. Qed.
Example C69_clsag_case : exists ss c1 D, verify_clsag toy [1; 0] ss c1 x_img D t_ring (commit toy 999 1000) = Ok tt /\
  verify_clsag toy [0; 7919] ss c1 x_img D t_ring (commit toy 999 1000) = Ok tt.
Proof. exact (x_clsag_two _ x_clsag_ok). Qed.

(** ** C70 *)
(** two Schnorr signatures with one key and one nonce and different challenges give away the key *)
Theorem C70_nonce_reuse (E : ecops) data data' priv k c r pub c' r' pub' : scalar priv ->
  generate_signature E data priv k = (c, r, pub) -> generate_signature E data' priv k = (c', r', pub') -> c <> c' ->
  revealed priv r r' c c' /\ forall x, revealed x r r' c c' -> x = priv.
Proof.
  intros Sp H H' N. pose proof (nonce_reuse E data data' priv k c r pub c' r' pub' Sp H H' N) as R. split; [exact R|].
  intros x Rx. eapply revealed_unique; eauto.
  assert (S1 : scalar c) by (unfold generate_signature in H; assert (X : c = hash_to_scalar E (data ++ encp E (scalarmult_base E priv) ++ encp E (scalarmult_base E k))) by congruence; rewrite X; apply hts_scalar).
  assert (S2 : scalar c') by (unfold generate_signature in H'; assert (X : c' = hash_to_scalar E (data' ++ encp E (scalarmult_base E priv) ++ encp E (scalarmult_base E k))) by congruence; rewrite X; apply hts_scalar).
  rewrite !scalar_small by assumption. exact N.
Qed.
Print Assumptions C70_nonce_reuse.
(** whoever gives two accepted signatures with the same commitment to the nonce and different challenges has the key *)
Theorem C70_schnorr_knowledge (E : ecops) : ec_laws E -> forall data data' c r c' r' pub, in_group E pub ->
  check_signature E data c r pub = Ok true -> check_signature E data' c' r' pub = Ok true -> c <> c' ->
  padd E (smul E (Gb E) r) (smul E pub c) = padd E (smul E (Gb E) r') (smul E pub c') ->
  exists x, revealed x r r' c c' /\ pub = smul E (Gb E) x.
Proof. intros L data data' c r c' r' pub. apply (schnorr_extract E L). Qed.
Print Assumptions C70_schnorr_knowledge.
(** ring signature: the same hashed points of a column, two challenges: every key of the column and its key images *)
Theorem C70_column_knowledge (E : ecops) : ec_laws E -> (forall P, length (encp E P) = 32%nat) ->
  forall c c' col ss ss' II, 0 <= c -> 0 <= c' -> c mod l <> c' mod l ->
  length ss = length col -> length ss' = length col -> (length II <= length col)%nat ->
  Forall (fun s => 0 <= s) ss -> Forall (fun s => 0 <= s) ss' -> Forall (in_group E) col -> Forall (in_group E) II ->
  mlsag_column E col ss II c = mlsag_column E col ss' II c' ->
  exists xx, column_keys E col xx /\ II = key_images E (length II) col xx /\
    forall j x, nth_error xx j = Some x -> revealed x (nth j ss 0) (nth j ss' 0) c c'.
Proof. intros L e32 c c' col ss ss' II H1 H2 H3. apply (column_extract E L e32 c c' H1 H2 H3). Qed.
Print Assumptions C70_column_knowledge.
(** one input: the secret key, its key image, and the pseudo output commits to the amount of the spent output *)
Theorem C70_spend_knowledge (E : ecops) : ec_laws E -> (forall P, length (encp E P) = 32%nat) ->
  forall c c' P C pseudo Im s z s' z', 0 <= c -> 0 <= c' -> c mod l <> c' mod l ->
  0 <= s -> 0 <= z -> 0 <= s' -> 0 <= z' -> in_group E P -> in_group E C -> in_group E pseudo -> in_group E Im ->
  mlsag_column E [P; padd E C (pneg E pseudo)] [s; z] [Im] c = mlsag_column E [P; padd E C (pneg E pseudo)] [s'; z'] [Im] c' ->
  exists x d, revealed x s s' c c' /\ revealed d z z' c c' /\
    P = smul E (Gb E) x /\ Im = smul E (Hp E (encp E P)) x /\ C = padd E pseudo (smul E (Gb E) d) /\
    forall mask amount, 0 <= mask -> C = commit E mask amount -> pseudo = commit E ((mask - d) mod l) amount.
Proof.
  intros L e32 c c' P C pseudo Im s z s' z' H1 H2 H3 Hs Hz Hs' Hz' GP GC GO GI H.
  assert (GQ : in_group E (padd E C (pneg E pseudo))).
  { apply (in_group_sub E L). apply (sub_add E L); [apply (in_group_sub E L), GC|]. apply (sub_neg E L). apply (in_group_sub E L), GO. }
  destruct (C70_column_knowledge E L e32 c c' [P; padd E C (pneg E pseudo)] [s; z] [s'; z'] [Im] H1 H2 H3 eq_refl eq_refl (le_S _ _ (le_n 1)) (Forall_cons _ Hs (Forall_cons _ Hz (Forall_nil _)))
     (Forall_cons _ Hs' (Forall_cons _ Hz' (Forall_nil _))) (Forall_cons _ GP (Forall_cons _ GQ (Forall_nil _))) (Forall_cons _ GI (Forall_nil _)) H) as (xx & K & KI & RV).
  inversion K as [|? x ? xx1 [Sx K1] K2]; subst. inversion K2 as [|? d ? xx2 [Sd K3] K4]; subst. inversion K4; subst.
  exists x, d. split; [apply (RV 0%nat x eq_refl)|]. split; [apply (RV 1%nat d eq_refl)|]. split; [reflexivity|].
  assert (X : C = padd E pseudo (smul E (Gb E) d)) by (rewrite <- K3; lin E L).
  split; [unfold key_images in KI; cbn [length combine firstn map fst snd] in KI; congruence|]. split; [exact X|].
  intros mask amount Hm HC. unfold commit in *. rewrite (smul_mod E L) by apply (sub_G E L).
  apply (cancel_l E L (smul E (Gb E) d)). rewrite (law_comm E L _ pseudo), <- X, HC.
  rewrite (smul_zmul E L (Gb E) mask Hm), (smul_zmul E L (Gb E) d) by apply Sd. lin E L.
Qed.
Print Assumptions C70_spend_knowledge.
(** CLSAG: the same points L and R, two challenges: the aggregated key opens both *)
Theorem C70_clsag_knowledge (E : ecops) : ec_laws E -> forall mu_P mu_C P C offset HP Im D s s' c c',
  0 <= s -> 0 <= s' -> c mod l <> c' mod l ->
  in_group E P -> in_group E C -> in_group E offset -> in_group E HP -> in_group E Im -> in_group E D ->
  clsag_L E mu_P mu_C P C offset s c = clsag_L E mu_P mu_C P C offset s' c' ->
  clsag_R E mu_P mu_C HP Im D s c = clsag_R E mu_P mu_C HP Im D s' c' ->
  exists w, revealed w s s' c c' /\
    smul E (Gb E) w = padd E (smul E P (mu_P mod l)) (smul E (padd E C (pneg E offset)) (mu_C mod l)) /\
    smul E HP w = padd E (smul E Im (mu_P mod l)) (smul E (smul E D 8) (mu_C mod l)).
Proof. intros L mu_P mu_C P C offset HP Im D s s' c c'. apply (clsag_extract E L). Qed.
Print Assumptions C70_clsag_knowledge.
(** range proof: who can close the same rings for two challenges (or has a hash collision) can open the commitment
    to an amount below 2^64 *)
Theorem C70_range_knowledge (E : ecops) : ec_laws E -> forall R R',
  rs_Ci E R = rs_Ci E R' -> length (rs_Ci E R) = 64%nat -> Forall (in_group E) (rs_Ci E R) ->
  scalar (rs_ee E R) -> scalar (rs_ee E R') -> rs_ee E R <> rs_ee E R' ->
  Forall (fun s => 0 <= s) (rs_s0 E R ++ rs_s1 E R ++ rs_s0 E R' ++ rs_s1 E R') ->
  (forall i, (i < 64)%nat -> range_point E R i = range_point E R' i) ->
  collision E \/ exists m a, 0 <= a < 2 ^ 64 /\ scalar m /\ psum E (rs_Ci E R) = commit E m a.
Proof. intros L R R'. apply (range_extract E L). Qed.
Print Assumptions C70_range_knowledge.
(** a one-time key has one key image: two spends of it carry the same one *)
Theorem C70_image_unique (E : ecops) : ec_laws E -> Gb E <> pid E -> forall P x x', scalar x -> scalar x' ->
  P = smul E (Gb E) x -> P = smul E (Gb E) x' ->
  smul E (Hp E (encp E P)) x = smul E (Hp E (encp E P)) x'.
Proof. intros L NG P x x' Sx Sx' H H'. f_equal. apply (base_inj E L x x' NG Sx Sx'). congruence. Qed.
Print Assumptions C70_image_unique.
Lemma ed_G_nz : Gb ed25519 <> pid ed25519.
Proof. rewrite ed_G, ed_id. exact G_nz. Qed.
(** ... so on Ed25519 two spends of a one-time key, each by someone who answers two challenges, show the same key image *)
Theorem C70_on_ed25519_double_spend_detected : forall c1 c1' c2 c2' P C1 C2 O1 O2 I1 I2 s1 z1 s1' z1' s2 z2 s2' z2',
  0 <= c1 -> 0 <= c1' -> c1 mod l <> c1' mod l -> 0 <= c2 -> 0 <= c2' -> c2 mod l <> c2' mod l ->
  Forall (fun s => 0 <= s) [s1; z1; s1'; z1'; s2; z2; s2'; z2'] -> Forall (in_group ed25519) [P; C1; C2; O1; O2; I1; I2] ->
  mlsag_column ed25519 [P; padd ed25519 C1 (pneg ed25519 O1)] [s1; z1] [I1] c1 = mlsag_column ed25519 [P; padd ed25519 C1 (pneg ed25519 O1)] [s1'; z1'] [I1] c1' ->
  mlsag_column ed25519 [P; padd ed25519 C2 (pneg ed25519 O2)] [s2; z2] [I2] c2 = mlsag_column ed25519 [P; padd ed25519 C2 (pneg ed25519 O2)] [s2'; z2'] [I2] c2' ->
  I1 = I2.
Proof.
  intros c1 c1' c2 c2' P C1 C2 O1 O2 I1 I2 s1 z1 s1' z1' s2 z2 s2' z2' A1 A2 A3 B1 B2 B3 F G H1 H2.
  repeat match goal with K : Forall _ (_ :: _) |- _ => let a := fresh "K" in pose proof (Forall_inv K) as a; apply Forall_inv_tail in K; cbv beta in a end.
  destruct (C70_spend_knowledge ed25519 ed25519_laws ed25519_enc_len c1 c1' P C1 O1 I1 s1 z1 s1' z1') as (x & d & [Sx _] & _ & X1 & X2 & _); try assumption.
  destruct (C70_spend_knowledge ed25519 ed25519_laws ed25519_enc_len c2 c2' P C2 O2 I2 s2 z2 s2' z2') as (y & e & [Sy _] & _ & Y1 & Y2 & _); try assumption.
  rewrite X2, Y2. apply (C70_image_unique ed25519 ed25519_laws ed_G_nz); assumption.
Qed.
Print Assumptions C70_on_ed25519_double_spend_detected.
Theorem C70_on_ed25519_range_knowledge : forall R R',
  rs_Ci ed25519 R = rs_Ci ed25519 R' -> length (rs_Ci ed25519 R) = 64%nat -> Forall (in_group ed25519) (rs_Ci ed25519 R) ->
  scalar (rs_ee ed25519 R) -> scalar (rs_ee ed25519 R') -> rs_ee ed25519 R <> rs_ee ed25519 R' ->
  Forall (fun s => 0 <= s) (rs_s0 ed25519 R ++ rs_s1 ed25519 R ++ rs_s0 ed25519 R' ++ rs_s1 ed25519 R') ->
  (forall i, (i < 64)%nat -> range_point ed25519 R i = range_point ed25519 R' i) ->
  collision ed25519 \/ exists m a, 0 <= a < 2 ^ 64 /\ scalar m /\ psum ed25519 (rs_Ci ed25519 R) = commit ed25519 m a.
Proof. exact (C70_range_knowledge ed25519 ed25519_laws). Qed.
Print Assumptions C70_on_ed25519_range_knowledge.

(** ** Cases *)
Lemma toy_in_group P : in_group toy P.
Proof. unfold in_group. cbn [smul toy pid]. apply v_inj. rewrite !v_mk. rewrite Z.mul_comm, Z.mod_mul by discriminate. reflexivity. Qed.
Lemma toy_all_in_group Ps : Forall (in_group toy) Ps.
Proof. apply Forall_forall. intros P _. apply toy_in_group. Qed.
Definition x_schnorr : bool :=
  let '(c, r, pub) := generate_signature toy [1; 2] 5555 42 in
  let '(c', r', pub') := generate_signature toy [1; 3] 5555 42 in
  negb (c =? c') && is_true (check_signature toy [1; 2] c r pub) && is_true (check_signature toy [1; 3] c' r' pub) &&
  pt_eqb toy pub pub' && pt_eqb toy (padd toy (smul toy (Gb toy) r) (smul toy pub c)) (padd toy (smul toy (Gb toy) r') (smul toy pub c')).
Lemma x_schnorr_ok : x_schnorr = true.
Proof. vm_compute. reflexivity. Qed.
Example C70_schnorr_case : exists c r c' r' pub, generate_signature toy [1; 2] 5555 42 = (c, r, pub) /\ generate_signature toy [1; 3] 5555 42 = (c', r', pub) /\
  c <> c' /\ in_group toy pub /\ check_signature toy [1; 2] c r pub = Ok true /\ check_signature toy [1; 3] c' r' pub = Ok true /\
  padd toy (smul toy (Gb toy) r) (smul toy pub c) = padd toy (smul toy (Gb toy) r') (smul toy pub c').
Proof.
  pose proof x_schnorr_ok as H. unfold x_schnorr in H. destruct (generate_signature toy [1; 2] 5555 42) as [[c r] pub].
  destruct (generate_signature toy [1; 3] 5555 42) as [[c' r'] pub'].
  apply andb_prop in H. destruct H as [H H5]. apply andb_prop in H. destruct H as [H H4]. apply andb_prop in H. destruct H as [H H3]. apply andb_prop in H. destruct H as [H1 H2].
  apply (law_eqb toy toy_laws) in H4, H5. subst pub'. exists c, r, c', r', pub.
  repeat split; auto using is_true_ok, toy_in_group. intros ->. rewrite Z.eqb_refl in H1. discriminate H1.
Qed.
(** a signer of one input answering the challenges 10 and 11 *)
Definition x_P : pt toy := smul toy (Gb toy) 7.
Definition x_I : pt toy := smul toy (Hp toy (encp toy x_P)) 7.
Definition x_C : pt toy := commit toy 30 1000.
Definition x_O : pt toy := commit toy 21 1000.
Definition x_ss (c : Z) : list Z := [sc_mulsub 7 c 501; sc_mulsub 9 c 502].
Definition x_col : bool := zlist_eqb (mlsag_column toy [x_P; padd toy x_C (pneg toy x_O)] (x_ss 10) [x_I] 10) (mlsag_column toy [x_P; padd toy x_C (pneg toy x_O)] (x_ss 11) [x_I] 11).
Lemma x_col_ok : x_col = true.
Proof. vm_compute. reflexivity. Qed.
Example C70_spend_case : mlsag_column toy [x_P; padd toy x_C (pneg toy x_O)] (x_ss 10) [x_I] 10 = mlsag_column toy [x_P; padd toy x_C (pneg toy x_O)] (x_ss 11) [x_I] 11 /\
  Forall (in_group toy) [x_P; x_C; x_O; x_I] /\ (forall P, length (encp toy P) = 32%nat) /\ Gb toy <> pid toy.
Proof.
  split; [apply zlist_eqb_spec, x_col_ok|]. split; [apply toy_all_in_group|]. split; [intros P; apply le_digits_length|].
  intros H. apply (f_equal v) in H. cbn [toy Gb pid] in H. rewrite !v_mk in H. vm_compute in H. discriminate H.
Qed.
(** CLSAG *)
Definition x_HP : pt toy := Hp toy (encp toy x_P).
Definition x_D : pt toy := smul toy x_HP (sc_mul 9 inv_eight).
(** aggregated key 3 * 7 + 5 * 9 *)
Definition x_s (c : Z) : Z := sc_mulsub 66 c 777.
Definition x_LR : bool :=
  pt_eqb toy (clsag_L toy 3 5 x_P x_C x_O (x_s 10) 10) (clsag_L toy 3 5 x_P x_C x_O (x_s 11) 11) &&
  pt_eqb toy (clsag_R toy 3 5 x_HP x_I x_D (x_s 10) 10) (clsag_R toy 3 5 x_HP x_I x_D (x_s 11) 11).
Lemma x_LR_ok : x_LR = true.
Proof. vm_compute. reflexivity. Qed.
Example C70_clsag_case : clsag_L toy 3 5 x_P x_C x_O (x_s 10) 10 = clsag_L toy 3 5 x_P x_C x_O (x_s 11) 11 /\
  clsag_R toy 3 5 x_HP x_I x_D (x_s 10) 10 = clsag_R toy 3 5 x_HP x_I x_D (x_s 11) 11 /\ 0 <= x_s 10 /\ 0 <= x_s 11.
Proof.
  pose proof x_LR_ok as H. apply andb_prop in H. destruct H as [H1 H2]. apply (law_eqb toy toy_laws) in H1, H2.
  split; [exact H1|]. split; [exact H2|]. split; vm_compute; discriminate.
Qed.
(** the prover of a range proof for 2^63 + 5 answering an arbitrary challenge *)
Definition x_range (ee : Z) : rangesig toy :=
  let al := map Z.of_nat (seq 900 64) in let sr := map Z.of_nat (seq 7 64) in
  match d2b (2 ^ 63 + 5) 64 with
  | Ok bb =>
      let '(ai, Ci, CiH, a) := po_loop toy (Some 42) 0 (map Z.of_nat (seq 100 64)) bb (gen_Hpow toy 64) 0 in
      let '(h, s1) := gb_first toy al sr CiH bb in
      let '(s0, s1) := gb_second toy ee ai al sr s1 Ci bb in
      {| rs_Ci := Ci; rs_s0 := s0; rs_s1 := s1; rs_ee := ee |}
  | Err _ => {| rs_Ci := []; rs_s0 := []; rs_s1 := []; rs_ee := ee |}
  end.
Fixpoint pts_eqb (ps qs : list (pt toy)) : bool :=
  match ps, qs with [], [] => true | p :: ps, q :: qs => pt_eqb toy p q && pts_eqb ps qs | _, _ => false end.
Lemma pts_eqb_ok : forall ps qs, pts_eqb ps qs = true -> ps = qs.
Proof.
  induction ps as [|p ps IH]; destruct qs as [|q qs]; cbn [pts_eqb]; intros H; try reflexivity; try discriminate H.
  apply andb_prop in H. destruct H as [H1 H2]. apply (law_eqb toy toy_laws) in H1. rewrite H1, (IH _ H2). reflexivity.
Qed.
Definition rings (R R' : rangesig toy) : bool :=
  pts_eqb (rs_Ci toy R) (rs_Ci toy R') && (length (rs_Ci toy R) =? 64)%nat && (rs_ee toy R =? 10) && (rs_ee toy R' =? 11) &&
  forallb (fun s => 0 <=? s) (rs_s0 toy R ++ rs_s1 toy R ++ rs_s0 toy R' ++ rs_s1 toy R') &&
  pts_eqb (map (range_point toy R) (seq 0 64)) (map (range_point toy R') (seq 0 64)).
Lemma x_rings_ok : rings (x_range 10) (x_range 11) = true.
Proof. vm_compute. reflexivity. Qed.
Lemma rings_case R R' : rings R R' = true ->
  rs_Ci toy R = rs_Ci toy R' /\ length (rs_Ci toy R) = 64%nat /\ Forall (in_group toy) (rs_Ci toy R) /\ rs_ee toy R = 10 /\ rs_ee toy R' = 11 /\
  Forall (fun s => 0 <= s) (rs_s0 toy R ++ rs_s1 toy R ++ rs_s0 toy R' ++ rs_s1 toy R') /\
  (forall i, (i < 64)%nat -> range_point toy R i = range_point toy R' i).
Proof.
  unfold rings. intros H. apply andb_prop in H. destruct H as [H H6]. apply andb_prop in H. destruct H as [H H5]. apply andb_prop in H. destruct H as [H H4].
  apply andb_prop in H. destruct H as [H H3]. apply andb_prop in H. destruct H as [H1 H2].
  split; [apply pts_eqb_ok, H1|]. split; [apply Nat.eqb_eq, H2|]. split; [apply toy_all_in_group|]. split; [apply Z.eqb_eq, H3|]. split; [apply Z.eqb_eq, H4|].
  split. { rewrite forallb_forall in H5. apply Forall_forall. intros s Hs. apply Z.leb_le, H5, Hs. }
  intros i Hi. apply pts_eqb_ok in H6.
  assert (X : forall f : nat -> pt toy, nth i (map f (seq 0 64)) (f 0%nat) = f i).
  { intros f. rewrite map_nth, seq_nth by exact Hi. reflexivity. }
  rewrite <- (X (range_point toy R)), <- (X (range_point toy R')), H6. apply nth_indep. rewrite map_length, seq_length. exact Hi.
Qed.
Example C70_range_case : exists R R', rs_Ci toy R = rs_Ci toy R' /\ length (rs_Ci toy R) = 64%nat /\ Forall (in_group toy) (rs_Ci toy R) /\ rs_ee toy R = 10 /\ rs_ee toy R' = 11 /\
  Forall (fun s => 0 <= s) (rs_s0 toy R ++ rs_s1 toy R ++ rs_s0 toy R' ++ rs_s1 toy R') /\
  (forall i, (i < 64)%nat -> range_point toy R i = range_point toy R' i).
Proof. exact (ex_intro _ (x_range 10) (ex_intro _ (x_range 11) (rings_case _ _ x_rings_ok))). Qed.
