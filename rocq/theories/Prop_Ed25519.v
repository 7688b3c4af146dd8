(** C45 and C64: the curve arithmetic of the Python backend. *)
From Verif Require Import Py PyLemmas Digits Ints_model Ints_proof Ints_proof2 Primes Fq Curve0 Curve Agroup Ed25519_model Ed25519_proof Ed25519_group Ed25519_enc0 Ed25519_enc Ed25519_order Ed25519_fe Ed25519_spec Ed25519_bridge Ec_model Ec_spec Wallet_spec Keccak_model Keccak_spec Ed25519_inst.
From Coq Require Import Znumtheory.
Ltac Zify.zify_post_hook ::= idtac.

(** ** C45: the law is total and makes the curve an abelian group *)
Theorem C45_law_total : forall a b, curve a -> curve b ->
  exists c, curve c /\ is_sum a b c /\ forall c', curve c' -> is_sum a b c' -> c' = c.
Proof.
  intros a b Ha Hb. apply curve_pt in Ha, Hb. destruct Ha as [r ->], Hb as [s ->]. exists (to_pair (cadd r s)).
  split; [apply to_pair_curve|]. split; [apply sum_pt; [apply to_pair_curve|reflexivity]|]. intros c' Hc S. apply sum_pt in S; assumption.
Qed.
Print Assumptions C45_law_total.
Theorem C45_group : forall a b c, curve a -> curve b -> curve c ->
  is_sum neutral a a /\ is_sum a (negp a) neutral /\ curve (negp a) /\
  (forall ab, curve ab -> is_sum a b ab -> is_sum b a ab) /\
  (forall ab bc abc, curve ab -> curve bc -> curve abc -> is_sum a b ab -> is_sum b c bc -> is_sum ab c abc -> is_sum a bc abc).
Proof.
  intros a b c Ha Hb Hc. apply curve_pt in Ha, Hb, Hc. destruct Ha as [r ->], Hb as [s ->], Hc as [t ->].
  rewrite neg_pt, neutral_pt. split; [apply sum_pt; [apply to_pair_curve|rewrite cadd_0; reflexivity]|].
  split; [apply sum_pt; [apply to_pair_curve|rewrite cadd_neg; reflexivity]|]. split; [apply to_pair_curve|]. split.
  - intros ab H E. apply sum_pt in E; [|exact H]. apply sum_pt; [exact H|]. rewrite cadd_comm. exact E.
  - intros ab bc abc H1 H2 H3 E1 E2 E3. apply sum_pt in E1; [|exact H1]. apply sum_pt in E2; [|exact H2]. subst ab bc. apply sum_pt in E3; [|exact H3].
    apply sum_pt; [exact H3|]. rewrite cadd_assoc. exact E3.
Qed.
Print Assumptions C45_group.

(** ** the three backends compute it *)
Theorem C45_add : forall P Q a b c, curve a -> curve b -> curve c -> stands_for P a -> stands_for Q b -> is_sum a b c ->
  stands_for (edwards_add P Q) c /\ stands_for (ietf_point_add P Q) c /\
  (a = b -> stands_for (edwards_double P) c) /\
  (forall p' q', stands_aff p' a -> stands_aff q' b -> stands_aff (edwards p' q') c).
Proof.
  intros P Q a b c Ha Hb Hc HP HQ S. apply curve_pt in Ha, Hb. destruct Ha as [r ->], Hb as [s ->]. apply sum_pt in S; [|exact Hc]. subst c.
  apply sf_rep in HP, HQ. split; [apply sf_rep, repp_add; assumption|]. split; [apply sf_rep, repp_ietf; assumption|]. split.
  - intros E. apply to_pair_inj in E. subst s. apply sf_rep, repp_double, HP.
  - intros p' q' A1 A2. apply sa_aff in A1, A2. apply sa_aff, edwards_affp; assumption.
Qed.
Print Assumptions C45_add.
Theorem C45_sub : forall P Q a b c, curve a -> curve b -> curve c -> stands_for P a -> stands_for Q b -> is_sum c b a ->
  stands_for (point_sub_v P Q) c /\ stands_for (invert_v Q) (negp b) /\
  (forall p' q', stands_aff p' a -> stands_aff q' b -> stands_aff (edwards_Minus p' q') c).
Proof.
  intros P Q a b c Ha Hb Hc HP HQ S. apply curve_pt in Hc, Hb. destruct Hc as [r ->], Hb as [s ->]. apply sum_pt in S; [|exact Ha]. subst a.
  apply sf_rep in HP, HQ. assert (E : cadd (cadd r s) (cneg s) = r) by (rewrite <- cadd_assoc, cadd_neg, cadd_comm, cadd_0; reflexivity).
  split; [rewrite <- E; apply sf_rep, repp_sub; assumption|]. rewrite neg_pt. split; [apply sf_rep, repp_invert, HQ|].
  intros p' q' A1 A2. apply sa_aff in A1, A2. rewrite <- E. apply sa_aff, edwards_minus_affp; assumption.
Qed.
Print Assumptions C45_sub.
(** membership test and comparison decide what they should *)
Theorem C45_membership : forall P, isoncurve P = true <-> exists a, curve a /\ stands_for P a.
Proof.
  intros P. rewrite isoncurve_repp. split.
  - intros [r R]. exists (to_pair r). split; [apply to_pair_curve|apply sf_rep, R].
  - intros (a & Ha & S). apply curve_pt in Ha. destruct Ha as [r ->]. exists r. apply sf_rep, S.
Qed.
Print Assumptions C45_membership.
Theorem C45_equality : forall P Q a b, curve a -> curve b -> stands_for P a -> stands_for Q b -> (point_equal P Q = true <-> a = b).
Proof.
  intros P Q a b Ha Hb HP HQ. apply curve_pt in Ha, Hb. destruct Ha as [r ->], Hb as [s ->]. apply sf_rep in HP, HQ. rewrite (repp_equal _ _ _ _ HP HQ).
  split; [intros ->; reflexivity|apply to_pair_inj].
Qed.
Print Assumptions C45_equality.
(** closure, stated with the code's own membership test *)
Theorem C45_closed : forall P Q e, isoncurve P = true -> isoncurve Q = true ->
  isoncurve (edwards_add P Q) = true /\ isoncurve (edwards_double P) = true /\ isoncurve (point_sub_v P Q) = true /\
  isoncurve (ietf_point_add P Q) = true /\ (0 <= e -> isoncurve (Ed25519_model.scalarmult P e) = true /\ isoncurve (ietf_point_mul e P) = true) /\
  point_equal (edwards_double P) (edwards_add P P) = true /\ point_equal (edwards_add P Q) (edwards_add Q P) = true.
Proof.
  intros P Q e HP HQ. apply isoncurve_repp in HP, HQ. destruct HP as [r HP], HQ as [s HQ].
  split; [apply isoncurve_repp; eexists; apply repp_add; eassumption|]. split; [apply isoncurve_repp; eexists; apply repp_double; eassumption|].
  split; [apply isoncurve_repp; eexists; apply repp_sub; eassumption|]. split; [apply isoncurve_repp; eexists; apply repp_ietf; eassumption|].
  split.
  - intros He. split; apply isoncurve_repp; eexists; [apply scalarmult_rep|apply ietf_point_mul_rep]; eassumption.
  - split; [apply (repp_equal _ _ _ _ (repp_double _ _ HP) (repp_add _ _ _ _ HP HP)); reflexivity|].
    apply (repp_equal _ _ _ _ (repp_add _ _ _ _ HP HQ) (repp_add _ _ _ _ HQ HP)). apply cadd_comm.
Qed.
Print Assumptions C45_closed.
Theorem C45_scalarmult : forall P a e, curve a -> stands_for P a -> 0 <= e ->
  exists c, curve c /\ times a (Z.to_nat e) c /\ stands_for (Ed25519_model.scalarmult P e) c /\ stands_for (ietf_point_mul e P) c /\
    forall p', stands_aff p' a -> stands_aff (aff_scalarmult p' e) c.
Proof.
  intros P a e Ha HP He. apply curve_pt in Ha. destruct Ha as [r ->]. apply sf_rep in HP. exists (to_pair (zm e r)).
  split; [apply to_pair_curve|]. split; [apply times_z; [exact He|reflexivity]|]. split; [apply sf_rep, scalarmult_rep; assumption|].
  split; [apply sf_rep, ietf_point_mul_rep; assumption|]. intros p' A. apply sa_aff in A. apply sa_aff, aff_scalarmult_rep; assumption.
Qed.
Print Assumptions C45_scalarmult.
Lemma quad_ext {A B C D : Type} : forall (a a' : A) (b b' : B) (c c' : C) (d d' : D), a = a' -> b = b' -> c = c' -> d = d' -> (a, b, c, d) = (a', b', c', d').
Proof. intros; subst; reflexivity. Qed.
(** the base point, RFC 8032: y = 4/5, x even *)
Definition base : pair := (gx, gy).
Theorem C45_base : curve base /\ eqm (5 * snd base) 4 /\ fst base mod 2 = 0 /\ stands_for B base /\ B = (gx, gy, 1, gx * gy mod p).
Proof.
  assert (E : base = to_pair Gp).
  { unfold base, to_pair, Gp, mkpt, px, py. cbn [proj1_sig fst snd]. rewrite !val_fz. f_equal; (rewrite Z.mod_small; [reflexivity|vm_compute; split; [discriminate|reflexivity]]). }
  split; [rewrite E; apply to_pair_curve|]. split; [vm_compute; reflexivity|]. split; [reflexivity|]. split; [rewrite E; apply sf_rep, B_rep|].
  pose proof By_F as Hy. apply fz_eq in Hy. unfold B. rewrite Bx_gx. rewrite p_q. apply quad_ext.
  - apply Z.mod_small, gx_range.
  - rewrite q_eq, Hy. apply Z.mod_small. vm_compute. split; [discriminate|reflexivity].
  - reflexivity.
  - rewrite q_eq, Zmult_mod, Hy, <- Zmult_mod. reflexivity.
Qed.
Print Assumptions C45_base.
Lemma base_pt : base = to_pair Gp.
Proof.
  unfold base, to_pair, Gp, mkpt, px, py. cbn [proj1_sig fst snd]. rewrite !val_fz. f_equal; (rewrite Z.mod_small; [reflexivity|vm_compute; split; [discriminate|reflexivity]]).
Qed.
(** multiplication of the base point through the precomputed table, every integer scalar *)
Theorem C45_scalarmult_base : forall e, exists R c, scalarmult_B e = Ok R /\ stands_for R c /\ curve c /\ times base (Z.to_nat (e mod l)) c /\
  point_equal R (Ed25519_model.scalarmult B (e mod l)) = true.
Proof.
  intros e. destruct (scalarmult_B_rep e) as (R & E & H). exists R, (to_pair (zm e Gp)). split; [exact E|]. split; [apply sf_rep, H|]. split; [apply to_pair_curve|].
  pose proof (Z.mod_pos_bound e l l_pos) as Re.
  assert (M : zm e Gp = zm (e mod l) Gp).
  { rewrite (Z.div_mod e l) at 1 by (pose proof l_pos; lia). rewrite zm_add, Z.mul_comm, zm_mul, G_order, zm_zero, cadd_0. reflexivity. }
  split; [rewrite base_pt; apply times_z; [lia|rewrite M; reflexivity]|].
  apply (repp_equal _ _ _ _ H (scalarmult_rep B Gp (e mod l) ltac:(lia) B_rep)). exact M.
Qed.
Print Assumptions C45_scalarmult_base.

(** ** encodings *)
Theorem C45_roundtrip : forall P a, curve a -> stands_for P a ->
  exists s P', encoding a s /\ encodepoint P = Ok s /\ point_compress P = Ok s /\
    stands_for P' a /\ point_decompress s = Ok (Some P') /\ forall rest, bytes_ok rest -> decodepoint (s ++ rest) = Ok P'.
Proof.
  intros P a Ha HP. apply curve_pt in Ha. destruct Ha as [r ->]. apply sf_rep in HP. exists (enc_pt r), (norm r).
  split; [apply enc_encoding|]. split; [apply encodepoint_spec, HP|]. split; [apply point_compress_spec, HP|]. split; [apply sf_rep, norm_rep|].
  split; [apply point_decompress_spec|]. intros rest. apply decodepoint_enc.
Qed.
Print Assumptions C45_roundtrip.
Theorem C45_encoding_injective : forall P Q a b, curve a -> curve b -> stands_for P a -> stands_for Q b ->
  (encodepoint P = encodepoint Q <-> a = b).
Proof.
  intros P Q a b Ha Hb HP HQ. apply curve_pt in Ha, Hb. destruct Ha as [r ->], Hb as [s ->]. apply sf_rep in HP, HQ.
  rewrite (encodepoint_spec _ _ HP), (encodepoint_spec _ _ HQ). split.
  - intros E. apply ok_inj' in E. apply enc_pt_inj in E. subst. reflexivity.
  - intros E. apply to_pair_inj in E. subst. reflexivity.
Qed.
Print Assumptions C45_encoding_injective.
(** what the decoder accepts is on the curve; too short strings raise *)
Theorem C45_decode_sound : forall s P, bytes_ok s -> decodepoint s = Ok P ->
  isoncurve P = true /\ 32 <= zlen s /\
  exists a, curve a /\ stands_for P a /\ eqm (snd a) (le_val 256 (firstn 32 s) mod 2 ^ 255).
Proof.
  intros s P Hb H. destruct (Z.lt_ge_cases (zlen s) 32) as [L|L]; [rewrite decodepoint_short in H by assumption; discriminate|].
  destruct (decodepoint_on s P H) as [r R]. split; [apply isoncurve_repp; exists r; exact R|]. split; [exact L|].
  exists (to_pair r). split; [apply to_pair_curve|]. split; [apply sf_rep, R|].
  rewrite decodepoint_val in H by assumption. cbv zeta in H. destruct (isoncurve _); [|discriminate]. apply ok_inj' in H. subst P.
  unfold repp in R. cbn [rep] in R. destruct R as (_ & _ & Hy & _). apply eqm_F. cbn [to_pair snd]. rewrite fz_val, Hy.
  change (fz 1) with (fz 1). transitivity (py r * fz 1)%F; [|reflexivity]. rewrite <- (fz_val (py r)), <- fz_mul, Z.mul_1_r. reflexivity.
Qed.
Print Assumptions C45_decode_sound.
(** the decoder is lenient (a finding, not part of C45): a non-canonical y and the sign bit on x = 0 are accepted *)
Definition noncanonical : list Z := 238 :: repeat 255 30 ++ [127].     (* 2^255 - 18 = p + 1 *)
Definition neutral_bytes : list Z := 1 :: repeat 0 31.
Definition signed_neutral : list Z := 1 :: repeat 0 30 ++ [128].
Theorem C45_decoder_lenient :
  exists P1 P2 P3, decodepoint neutral_bytes = Ok P1 /\ decodepoint noncanonical = Ok P2 /\ decodepoint signed_neutral = Ok P3 /\
    stands_for P1 neutral /\ stands_for P2 neutral /\ stands_for P3 neutral.
Proof.
  assert (K : forall Y, eqm Y 1 -> xrecover Y = 0).
  { intros Y E. rewrite eqm_F in E. destruct (xrecover_spec Y (fz 0)) as (R & X & _); [rewrite E; exact oncurve_id|].
    assert (Z0 : fz (xrecover Y) = fz 0). { destruct X as [X|X]; [exact X|]. rewrite X, <- fz_opp. reflexivity. }
    apply fz_zero in Z0. rewrite Z.mod_small in Z0 by exact R. exact Z0. }
  assert (D : forall s V Y sb, bytes_ok s -> 32 <= zlen s -> le_val 256 (firstn 32 s) = V -> V mod 2 ^ 255 = Y -> V / 2 ^ 255 = sb -> eqm Y 1 -> (sb = 0 \/ sb = 1) ->
    exists P, decodepoint s = Ok P /\ stands_for P neutral).
  { intros s V Y sb Hb Hs EV EY Es E1 Hsb. rewrite decodepoint_val by assumption. rewrite EV. cbv zeta. rewrite EY, Es, (K Y E1).
    set (x := if negb (Z.land 0 1 =? sb) then q - 0 else 0).
    assert (Ex : eqm x 0) by (unfold x; destruct Hsb as [-> | ->]; vm_compute; reflexivity).
    assert (R : repp (x, Y, 1, x * Y mod q) czero).
    { apply sf_rep. rewrite <- neutral_pt. unfold neutral, stands_for. rewrite !eqm_F. rewrite fzq, !fz_mul. rewrite eqm_F in Ex, E1. rewrite Ex, E1.
      split; [discriminate|]. split; [reflexivity|]. split; reflexivity. }
    assert (O : isoncurve (x, Y, 1, x * Y mod q) = true) by (apply isoncurve_repp; exists czero; exact R). rewrite O.
    eexists. split; [reflexivity|]. rewrite neutral_pt. apply sf_rep, R. }
  assert (A1 : bytes_ok neutral_bytes) by (apply bytes_okb_spec; vm_compute; reflexivity).
  destruct (D neutral_bytes 1 1 0 A1) as (P1 & E1 & S1); [vm_compute; discriminate|vm_compute; reflexivity|vm_compute; reflexivity|vm_compute; reflexivity|vm_compute; reflexivity|left; reflexivity|].
  assert (A2 : bytes_ok noncanonical) by (apply bytes_okb_spec; vm_compute; reflexivity).
  destruct (D noncanonical (2 ^ 255 - 18) (2 ^ 255 - 18) 0 A2) as (P2 & E2 & S2); [vm_compute; discriminate|vm_compute; reflexivity|vm_compute; reflexivity|vm_compute; reflexivity|vm_compute; reflexivity|left; reflexivity|].
  assert (A3 : bytes_ok signed_neutral) by (apply bytes_okb_spec; vm_compute; reflexivity).
  destruct (D signed_neutral (1 + 2 ^ 255) 1 1 A3) as (P3 & E3 & S3); [vm_compute; discriminate|vm_compute; reflexivity|vm_compute; reflexivity|vm_compute; reflexivity|vm_compute; reflexivity|right; reflexivity|].
  exists P1, P2, P3. auto 7.
Qed.
Print Assumptions C45_decoder_lenient.

(** hypotheses are met: the base point and a point of order 8, whose sum is computed by [edwards_add] *)
Example C45_example : curve (gx, gy) /\ curve (tx, ty) /\ stands_for (lit gx gy) (gx, gy) /\ stands_for (lit tx ty) (tx, ty) /\ (gx, gy) <> (tx, ty) /\
  isoncurve (lit gx gy) = true.
Proof.
  assert (Et : (tx, ty) = to_pair Tp).
  { unfold to_pair, Tp, mkpt, px, py. cbn [proj1_sig fst snd]. rewrite !val_fz. f_equal; (rewrite Z.mod_small; [reflexivity|vm_compute; split; [discriminate|reflexivity]]). }
  split; [exact (eq_ind_r curve (to_pair_curve Gp) base_pt)|]. split; [rewrite Et; apply to_pair_curve|].
  split; [change (gx, gy) with base; rewrite base_pt; apply sf_rep, lit_rep|]. split; [rewrite Et; apply sf_rep, lit_rep|]. split; [intros H; apply pair_equal_spec in H; destruct H as [H _]; revert H; vm_compute; discriminate|].
  apply isoncurve_repp. exists Gp. apply lit_rep.
Qed.

(** ** C64: orders, hash_to_point, H *)
Theorem C64_base_order : forall n c, times base n c -> (c = neutral <-> (l | Z.of_nat n)).
Proof.
  intros n c H. rewrite base_pt in H. rewrite <- (Nat2Z.id n) in H. apply times_z in H; [|lia]. subst c. rewrite neutral_pt. split.
  - intros E. apply to_pair_inj in E. apply (order_l _ _ G_nz G_order) in E. exact E.
  - intros [k ->]. rewrite zm_mul, G_order, zm_zero. reflexivity.
Qed.
Print Assumptions C64_base_order.
Theorem C64_cofactor : forall a, curve a -> times a (Z.to_nat (8 * l)) neutral.
Proof.
  intros a Ha. apply curve_pt in Ha. destruct Ha as [r ->]. apply times_z; [discriminate|]. rewrite exponent. exact neutral_pt.
Qed.
Print Assumptions C64_cofactor.
(** hash_to_point: for every digest the code returns a point of the curve, in the subgroup of order l *)
Theorem C64_hash_to_point : forall data, bytes_ok data ->
  exists digest P a, cn_fast_hash data = Ok digest /\ length digest = 32%nat /\ hash_to_point digest = Ok P /\
    isoncurve P = true /\ curve a /\ stands_for P a /\ times a (Z.to_nat l) neutral.
Proof.
  intros data Hb. destruct (Prop_Keccak.C28_chunking [data] [data]) as (h & _ & _ & H & L & Bk); [constructor; [exact Hb|constructor]..|reflexivity|].
  cbn [concat] in H. rewrite app_nil_r in H. destruct (hash_to_point_ok h Bk L) as (P & r & E & R & K).
  exists h, P, (to_pair r). split; [exact H|]. split; [exact L|]. split; [exact E|]. split; [apply isoncurve_repp; exists r; exact R|].
  split; [apply to_pair_curve|]. split; [apply sf_rep, R|]. apply times_z; [discriminate|]. rewrite K. exact neutral_pt.
Qed.
Print Assumptions C64_hash_to_point.
(** the second generator: the constant is 8 times the point decoded from the hash of the encoded base point, of order l *)
Definition jx : Z := 57701914911747821057445958566581218620782741241240001393355936663485847981287.
Definition jy : Z := 43900498174272981350934271567304109497575013990668179171682307948917429198878.
Lemma j_on : oncurve (fz jx) (fz jy). Proof. apply onz_on. vm_compute. reflexivity. Qed.
Theorem C64_second_generator :
  exists PG hG J PH a, encodepoint B = Ok PG /\ cn_fast_hash PG = Ok hG /\ decodepoint hG = Ok J /\ decodepoint XMR_H = Ok PH /\
    curve a /\ stands_for PH a /\ stands_for (Ed25519_model.scalarmult J 8) a /\ times a (Z.to_nat l) neutral /\ a <> neutral /\ a <> base.
Proof.
  set (Jp := mkpt _ _ j_on). exists (enc_pt Gp), (enc_pt Jp), (norm Jp), (norm Hpt), (to_pair Hpt).
  split; [apply encodepoint_spec, B_rep|]. split.
  { assert (E1 : enc_pt Gp = enc_raw gx gy). { unfold enc_pt. f_equal; (unfold Gp, mkpt, px, py; cbn [proj1_sig fst snd]; rewrite val_fz, Z.mod_small; [reflexivity|vm_compute; split; [discriminate|reflexivity]]). }
    assert (E2 : enc_pt Jp = enc_raw jx jy). { unfold enc_pt. f_equal; (unfold Jp, mkpt, px, py; cbn [proj1_sig fst snd]; rewrite val_fz, Z.mod_small; [reflexivity|vm_compute; split; [discriminate|reflexivity]]). }
    rewrite E1, E2. vm_compute. reflexivity. }
  split; [rewrite <- (app_nil_r (enc_pt Jp)); apply decodepoint_enc; constructor|]. split; [exact H_decode|]. split; [apply to_pair_curve|].
  split; [apply sf_rep, norm_rep|]. split.
  { apply sf_rep. replace Hpt with (zm 8 Jp); [apply scalarmult_rep; [lia|apply norm_rep]|].
    apply (same_spec _ _ hx hy h_on (qsm_rep _ _ 8 (lit_rep jx jy j_on))). vm_compute. reflexivity. }
  split; [apply times_z; [discriminate|rewrite H_order; exact neutral_pt]|].
  assert (Eh : to_pair Hpt = (hx, hy)).
  { unfold to_pair, Hpt, mkpt, px, py. cbn [proj1_sig fst snd]. rewrite !val_fz. f_equal; (rewrite Z.mod_small; [reflexivity|vm_compute; split; [discriminate|reflexivity]]). }
  rewrite Eh. split; intros K; apply pair_equal_spec in K; destruct K as [K _]; revert K; vm_compute; discriminate.
Qed.
Print Assumptions C64_second_generator.
(** the interface the protocol theorems are stated for, with the library's routines and Keccak-256, satisfies all their hypotheses *)
Theorem C64_interface : ec_laws ed25519 /\ hash_bytes ed25519 /\ (forall P, length (encp ed25519 P) = 32%nat).
Proof. split; [exact ed25519_laws|]. split; [exact ed25519_hash|exact ed25519_enc_len]. Qed.
Print Assumptions C64_interface.
(** and its operations do not depend on the coordinates a point happens to have *)
Theorem C64_representation : forall P Q e, isoncurve P = true -> isoncurve Q = true -> 0 <= e ->
  pt_of (edwards_add P Q) = padd ed25519 (pt_of P) (pt_of Q) /\
  pt_of (edwards_double P) = padd ed25519 (pt_of P) (pt_of P) /\
  pt_of (invert_v P) = pneg ed25519 (pt_of P) /\
  pt_of (Ed25519_model.scalarmult P e) = smul ed25519 (pt_of P) e /\
  (exists R, scalarmult_B e = Ok R /\ pt_of R = smul ed25519 (Gb ed25519) e) /\
  encodepoint P = Ok (encp ed25519 (pt_of P)) /\
  point_equal P Q = pt_eqb ed25519 (pt_of P) (pt_of Q).
Proof.
  intros P Q e HP HQ He. apply isoncurve_repp in HP, HQ. destruct HP as [r HP], HQ as [s HQ]. rewrite (pt_of_rep _ _ HP), (pt_of_rep _ _ HQ).
  rewrite !ed_add, ed_neg, !ed_smul, ed_enc by exact He. split; [apply pt_of_rep, repp_add; assumption|]. split; [apply pt_of_rep, repp_double, HP|].
  split; [apply pt_of_rep, repp_invert, HP|]. split; [apply pt_of_rep, scalarmult_rep; assumption|]. split.
  - destruct (scalarmult_B_rep e) as (R & E & H). exists R. split; [exact E|]. rewrite ed_G. apply pt_of_rep, H.
  - split; [apply encodepoint_spec, HP|]. pose proof (repp_equal _ _ _ _ HP HQ) as K1. pose proof (ed_eqb r s) as K2.
    destruct (point_equal P Q), (pt_eqb ed25519 r s); try reflexivity; [symmetry; apply K2, K1; reflexivity|apply K1, K2; reflexivity].
Qed.
Print Assumptions C64_representation.
