(** The modelled primitives work, so the agent completes every request of the wallet. *)
From Verif Require Import Py PyLemmas Digits Addr_model Lists_model Lists_spec Lists_proof Signer_model Signer_spec Signer_base Keys_spec Ints_model Protobuf_spec Ec_model Ec_spec Ec_proof
  Sigs_spec Sigs_proof KeySep_proof Clsag_proof Mlsag_proof Mlsag_model Mlsag_spec Mlsag_proof2 Wallet_model Wallet_spec Wallet_proof Extra_model Extra_proof Bp_model Bp_proof1 Bp_proof2 Bp_proof3 Bp_proof4 Bp_proof5 Bp_proof6 Agent_model Complete_spec
  Real_model Real_proof Node_spec Node_proof Request_spec Prop_Bp Prop_Mlsag.
Ltac Zify.zify_post_hook ::= idtac.

Section Complete.
Context (E : ecops) (L : ec_laws E) (v : env E).
Hypothesis Hlen : forall P, length (encp E P) = 32%nat.
Hypothesis HB : hash_bytes E.
Hypothesis HV : env_ok E v.

Lemma prove_rounds am ms sd p : (1 <= length am <= 16)%nat -> Forall u64 am -> real_prove E v am ms sd = Ok p -> zlen (bp_L p) <= 127.
Proof.
  intros Hn HU H. unfold real_prove, prove_range_bp_batch in H. rewrite sc_init_all in H by exact HU. cbn [bind] in H.
  destruct (blocks_small (length am) ltac:(lia)) as (k & EB & LE).
  assert (RO : rand_ok (Z.to_nat (Z.of_nat (padded (length am))) * BP_N) (v_rand E v sd (length am))).
  { rewrite Nat2Z.id, Nat.mul_comm. apply (eo_prover E v HV). lia. }
  destruct (prove_sat E L (computed_gens E) (gens_gens_ok E L _ (computed_generators E L)) am (map (fun m => m mod l) ms) (v_rand E v sd (length am)) p (Z.of_nat (padded (length am))) k EB ltac:(rewrite Nat2Z.id; exact LE) HU) as (_ & _ & _ & _ & d & ws & S); [|exact RO|exact H|].
  { apply Forall_forall. intros m Hm. apply in_map_iff in Hm. destruct Hm as (m' & <- & _). apply mod_scalar. }
  destruct S as (_ & _ & LL & _). unfold zlen. rewrite LL.
  destruct (bp_blocks_ok (length am)) as (M' & k' & EB' & EM & Hk & _). rewrite EB in EB'. apply Ok_inj in EB'. apply pair_inj in EB'. destruct EB' as [<- <-].
  lia.
Qed.
Lemma mods_id ms : Forall (fun m => 0 <= m < ell) ms -> map (fun m => m mod l) ms = ms.
Proof. induction 1 as [|m ms Hm _ IH]; [reflexivity|]. cbn [map]. rewrite IH, Z.mod_small by exact Hm. reflexivity. Qed.
Lemma real_bp am ms sd p : (1 <= length am <= 16)%nat -> length ms = length am -> Forall (fun a => 0 <= a < 2 ^ 64) am -> Forall (fun m => 0 <= m < ell) ms ->
  real_prove E v am ms sd = Ok p -> exists bs q, dump_rsig_bp (real_ops E v) p = Ok bs /\ bs <> [] /\
    parse_bulletproof bs = Ok q /\ bp_bytes (real_ops E v) q = bp_bytes (real_ops E v) p /\ real_verify E v q am ms = Ok true.
Proof.
  intros Hn Hm Ha Hms Hp.
  pose proof (C36_complete E L (computed_gens E) (computed_generators E L) am ms (v_rand E v sd (length am)) ltac:(lia) Hm Ha Hms ltac:(apply (eo_prover E v HV); lia)) as C.
  pose proof (prove_rounds am ms sd p Hn Ha Hp) as Hr. pose proof Hp as Hp'. unfold real_prove in Hp'. rewrite (mods_id ms Hms) in Hp'. rewrite Hp' in C. destruct C as [C _].
  unfold prove_range_bp_batch in Hp'. bnd Hp' sv Hsv. apply sc_init_map in Hsv. apply (prove_shape E Hlen) in Hp'. destruct Hp' as (_ & _ & S3 & S4). subst sv.
  rewrite <- (mods_id ms Hms), (map2_commit E) in S3.
  assert (Hd : dump_rsig_bp (real_ops E v) p = Ok (concat [bp_A p; bp_S p; bp_T1 p; bp_T2 p; bp_taux p; bp_mu p] ++ [zlen (bp_L p)] ++ concat (bp_L p) ++ [zlen (bp_R p)] ++ concat (bp_R p) ++ concat [bp_a p; bp_b p; bp_t p])).
  { unfold dump_rsig_bp. cbn [bp_parts real_ops]. rewrite (proj2 (Z.leb_le _ _) Hr). reflexivity. }
  eexists _, (set_V p []). split; [exact Hd|]. split.
  { intros X. apply app_eq_nil in X. destruct X as [_ X]. discriminate X. }
  split; [exact (parse_dump E v p _ S4 Hd)|]. split; [reflexivity|].
  unfold real_verify. destruct am as [|x am]; [cbn in Hn; lia|]. rewrite (proj2 (Nat.leb_le _ _)) by lia. cbn [guard bind]. rewrite set_V_twice, (commit_V_eq E), <- S3, set_V_id. apply C.
Qed.

Lemma real_prim : prim_laws (real_ops E v).
Proof.
  constructor.
  - apply (real_codec E L v Hlen (eo_cipher E v HV)).
  - intros b. apply mod_scalar.
  - intros k. apply hts_scalar.
  - intros m. apply (HB (hash E m)).
  - intros x. apply enc_sc_len.
  - intros p P r H. apply (pid_len E p P r H HB).
  - intros am ms sd p. apply real_bp.
Qed.

(** ** Sources *)
Lemma gen_c_commit_gen m x : 0 <= x -> gen_c E (m mod l) x = commit E (m mod l) x.
Proof.
  intros Hx. destruct (mod_scalar m) as [A _]. change (gen_c E (m mod l) x) with (commit_pt E (m, x)). rewrite (commit_zmul E L). unfold commit. rewrite !(smul_zmul E L) by assumption. f_equal.
  rewrite <- (smul_mod E L m (Gb E) (sub_G E L)). apply (smul_zmul E L). exact A.
Qed.
Lemma mine_table a b x acc m : scalar b -> tc_account x = Some acc -> u32 acc -> Forall u32 (tc_minor x) -> In m (tc_minor x) -> forall cr, view_priv (real_ops E v) cr = a -> spend_pub (real_ops E v) cr = smul E (Gb E) b ->
  table_sound E a b (table (real_ops E v) cr x) /\ table_has E a b (table (real_ops E v) cr x) acc m.
Proof.
  intros Hb Ha Hu Hm Hin cr Hc Hs. unfold table. rewrite Ha. destruct (tc_minor x) as [|m0 ms] eqn:Em; [destruct Hin|]. cbn [Signer_model.compute_subs real_ops]. rewrite Hc, Hs.
  destruct (compute_ok E L a b acc Hb Hu (m0 :: ms) [] Hm) as (d & H1 & H2 & H3 & _).
  { intros k M m' X. discriminate X. }
  rewrite H1. cbn [val]. split; [exact H2|]. apply H3, Hin.
Qed.
Lemma one_time_otk a b R i M m : 0 <= a -> one_time_key E a b R i M m = otk E (zmul E (8 * a) R) i (sub_D E a b M m).
Proof.
  intros Ha. unfold one_time_key, otk, derive_public_key, derivation_to_scalar, point_add, scalarmult_base.
  assert (X : smul E (smul E R a) 8 = zmul E (8 * a) R) by (rewrite !(smul_zmul E L) by lia; symmetry; apply (zmul_mul E L)). rewrite X. reflexivity.
Qed.
Lemma mine_owned cr x s : nz_scalar (view_priv (real_ops E v) cr) -> nz_scalar (spend_priv (real_ops E v) cr) -> spend_pub (real_ops E v) cr = smul E (Gb E) (spend_priv (real_ops E v) cr) ->
  src_ok s -> mine E (view_priv _ cr) (spend_priv _ cr) x s -> owned (real_ops E v) cr x s.
Proof.
  set (a := view_priv (real_ops E v) cr). set (b := spend_priv (real_ops E v) cr). intros Ha Hb Hs Hok (acc & m & real & T & add & R & mask & H1 & H2 & H3 & H4 & H5 & H6 & H7 & H8 & H9 & H10 & H11 & H12 & H13).
  destruct Hok as (_ & Hr0 & _ & _ & Hi & Hamt & _).
  destruct (mine_table a b x acc m (nz_scalar_scalar b Hb) H1 H2 H3 H4 cr eq_refl Hs) as [Ts Th].
  set (P := one_time_key E a b R (se_real_output_in_tx_index s) acc m) in *. set (i := se_real_output_in_tx_index s) in *.
  assert (Ha0 : 0 <= a) by (unfold nz_scalar in Ha; lia).
  assert (EP : P = otk E (zmul E (8 * a) R) i (sub_D E a b acc m)) by (apply one_time_otk; exact Ha0).
  assert (HR : exists M' m' der', is_out_to_acc_precomp E (table (real_ops E v) cr x) P (zmul E (8 * a) T) (map (zmul E (8 * a)) add) i = Ok (Some ((M', m'), der'))).
  { destruct (found E L a b _ P (zmul E (8 * a) R) i acc m Ts Th EP) as (M' & m' & Eg & _). unfold is_out_to_acc_precomp.
    destruct (sa_get (encp E (derive_subaddress_public_key E P (zmul E (8 * a) T) i)) _) as [[M2 m2]|] eqn:E2; [eauto|].
    destruct H10 as [->|Hn]; [congruence|]. apply (map_nth_error (zmul E (8 * a))) in Hn. destruct (map (zmul E (8 * a)) add) as [|a0 adds]; [destruct (Z.to_nat i); discriminate|].
    assert (Hlt : (Z.to_nat i < length (a0 :: adds))%nat) by (apply nth_error_Some; congruence).
    rewrite (proj2 (Z.ltb_lt _ _)) by (unfold zlen; lia). cbn [guard bind]. rewrite (py_get_nonneg _ i _ Hi Hn). cbn [bind]. rewrite Eg. eauto. }
  destruct HR as (M' & m' & der' & HR). destruct (recognised_spendable E L a b _ P _ _ i M' m' der' Hb Ts HR) as (EP' & HM & Hm).
  destruct (helper_ok E L a b der' i M' m' Hb HM Hm) as (xi & K1 & K2 & K3). cbv zeta in K1, K3. rewrite <- EP' in K1, K3.
  exists real, P, T, add, xi, (smul E (Hp E (encp E P)) xi), mask, (commit E (le_val 256 mask mod l) (se_amount s)).
  split; [exact H7|]. split; [exact H11|]. split; [exact H8|]. split; [exact H9|]. split.
  { cbn [Signer_model.key_image_helper real_ops]. unfold generate_key_image_helper. cbn [cr_view]. fold a b. rewrite (derivation_ok E L T a Ha). cbn [bind]. rewrite (mapM_deriv E L a Ha). cbn [bind]. fold i. rewrite HR. cbn [bind].
    change {| cr_view := a; cr_spend := b; cr_spend_pub := scalarmult_base E b; cr_multisig := false |} with (wallet E a b). rewrite K1. reflexivity. }
  split; [exact K2|]. split.
  { cbn [Signer_model.point_eqb Signer_model.smul_base real_ops]. rewrite Z.mod_small by exact K2. apply (law_eqb E L). symmetry. exact K3. }
  split; [exact H12|]. split; [exact H13|]. split.
  { cbn [Signer_model.point_eqb Signer_model.gen_c Signer_model.dec_int real_ops]. apply (law_eqb E L). rewrite Zmod_mod, (gen_c_commit_gen (le_val 256 mask) _ Hamt). reflexivity. }
  intros msg alpha sd Hal. cbn [Signer_model.mlsag_sign Signer_model.gen_c Signer_model.dec_int real_ops]. unfold real_sign. rewrite (proj2 (Z.leb_le _ _) Hr0). cbn [guard bind].
  rewrite (gen_c_commit_gen alpha _ Hamt).
  destruct (C33_simple E L msg (ring_of (se_outputs s)) xi (le_val 256 mask mod l) (alpha mod l) (se_amount s) (Z.to_nat (se_real_output s)) (v_nonces E v sd) (v_rows E v sd)
    {| ct_dest := re_dest real; ct_comm := re_commitment real |}) as (mg & c & S1 & _ & S3).
  - unfold ring_of. rewrite map_length. exact H5.
  - unfold ring_of. apply Forall_map. eapply Forall_impl; [|exact H6]. intros r X. exact X.
  - unfold ring_of. apply (map_nth_error (fun r => {| ct_dest := re_dest r; ct_comm := re_commitment r |})), H7.
  - exact K2.
  - apply mod_scalar.
  - apply mod_scalar.
  - exact Hamt.
  - cbn [ct_dest]. rewrite K3. exact H11.
  - exact H13.
  - apply (eo_nonces E v HV).
  - apply (eo_nonces E v HV).
  - intros j. apply (eo_rows E v HV).
  - rewrite S1. cbn [bind]. rewrite S3. cbn [bind guard]. eexists. reflexivity.
Qed.
Lemma request_well_formed cr x : request E v cr x -> well_formed (real_ops E v) cr x.
Proof.
  intros (A & B & Cc & H1 & H2 & H3 & H4 & H5 & H6 & H7). unfold well_formed. do 5 (split; [assumption|]). split; [|exact H7].
  eapply Forall_impl; [|exact H6]. intros s [S1 S2]. split; [exact S1|]. apply mine_owned; assumption.
Qed.
(** when no hash is zero *)
Lemma request_no_zero cr tp x : (forall s, hash_to_scalar E s <> 0) -> no_zero_mask (real_ops E v) cr tp x.
Proof. intros HZ _ e i s _ _ _. apply HZ. Qed.
Lemma request_no_give_up cr tp hs x : (forall s, hash_to_scalar E s <> 0) -> Forall (fun e => u64 (de_amount e)) (tc_dsts x) -> no_give_up (real_ops E v) cr tp hs x.
Proof.
  intros HZ Hd j k am ms n sd Ham Hn Hm Hms _ _. cbn [prove_bp real_ops].
  assert (Ha : Forall u64 am). { subst am. apply Forall_map, Forall_forall. intros e He. rewrite Forall_forall in Hd. apply Hd. rewrite <- (firstn_skipn k (tc_dsts x)). apply in_or_app. left. rewrite <- (firstn_skipn j (firstn k (tc_dsts x))). apply in_or_app. right. exact He. }
  pose proof (C36_complete E L (computed_gens E) (computed_generators E L) am ms (v_rand E v sd (length am)) ltac:(lia) Hm Ha Hms ltac:(apply (eo_prover E v HV); lia)) as C.
  destruct (real_prove E v am ms sd) as [p|e] eqn:Hp; [eauto|].
  unfold real_prove in Hp. rewrite (mods_id ms Hms) in Hp. rewrite Hp in C. destruct C as [s Hs]. destruct (HZ s Hs).
Qed.
End Complete.
