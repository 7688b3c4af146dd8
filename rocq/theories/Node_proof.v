(** A node accepts what the agent returns. *)
From Coq Require Import Permutation Sorted.
From Verif Require Import Py PyLemmas Digits Addr_model Lists_model Lists_spec Lists_proof Signer_model Signer_spec Signer_base Keys_spec Ints_model Protobuf_spec Ec_model Ec_spec Ec_proof
  Mlsag_model Mlsag_spec Mlsag_proof2 Wallet_model Wallet_spec Wallet_proof Extra_model Extra_proof Bp_model Bp_proof1 Bp_proof6 Signer_props2 Signer_props3 Agent_model Agent_trace Agent_sound
  Real_model Real_proof Node_spec Prop_Bp.
Ltac Zify.zify_post_hook ::= idtac.

(** ** Parsing what was dumped *)
Definition len32 (k : list Z) : Prop := length k = 32%nat.
Lemma key_list_ok : forall ks rest, Forall len32 ks -> key_list (length ks) (concat ks ++ rest) = Ok (ks, rest).
Proof.
  induction ks as [|k ks IH]; intros rest H; [reflexivity|]. inversion H as [|? ? Hk Hks]; subst. cbn [length key_list concat]. rewrite <- app_assoc. unfold take.
  assert (Hz : (32 <=? zlen (k ++ concat ks ++ rest)) = true) by (apply Z.leb_le; unfold zlen; rewrite app_length, Hk; lia). rewrite Hz. change (Z.to_nat 32) with 32%nat.
  rewrite firstn_app, skipn_app, Hk, Nat.sub_diag, firstn_all2, skipn_all2 by (rewrite Hk; lia). cbn [firstn skipn bind]. rewrite app_nil_r. cbn [app]. rewrite IH by exact Hks. reflexivity.
Qed.
Definition keys32 (p : bproof) : Prop :=
  Forall len32 [bp_A p; bp_S p; bp_T1 p; bp_T2 p; bp_taux p; bp_mu p] /\ Forall len32 (bp_L p) /\ Forall len32 (bp_R p) /\ Forall len32 [bp_a p; bp_b p; bp_t p] /\
  length (bp_R p) = length (bp_L p).
Lemma parse_dump E v p bs : keys32 p -> dump_rsig_bp (real_ops E v) p = Ok bs -> parse_bulletproof bs = Ok (set_V p []).
Proof.
  intros (H1 & H2 & H3 & H4 & H5) H. unfold dump_rsig_bp in H. cbn [bp_parts real_ops] in H. bnd_guard H G. apply Z.leb_le in G. apply Ok_inj in H. subst bs. unfold parse_bulletproof.
  change 6%nat with (length [bp_A p; bp_S p; bp_T1 p; bp_T2 p; bp_taux p; bp_mu p]). rewrite (key_list_ok _ _ H1). cbn [bind].
  assert (Hv : forall n r, 0 <= n <= 127 -> read_uvarint ([n] ++ r) = Ok (n, r)).
  { intros n r Hn. cbn [app read_uvarint]. rewrite (proj2 (Z.ltb_lt n 128)) by lia. reflexivity. }
  assert (G' : zlen (bp_R p) = zlen (bp_L p)) by (unfold zlen; rewrite H5; reflexivity). pose proof (zlen_nonneg (bp_L p)) as G0.
  rewrite Hv by lia. cbn [bind]. unfold zlen at 1. rewrite Nat2Z.id, (key_list_ok _ _ H2). cbn [bind]. rewrite Hv by lia. cbn [bind]. unfold zlen at 1. rewrite Nat2Z.id, (key_list_ok _ _ H3). cbn [bind].
  rewrite <- (app_nil_r (concat [bp_a p; bp_b p; bp_t p])). change 3%nat with (length [bp_a p; bp_b p; bp_t p]). rewrite (key_list_ok _ _ H4). reflexivity.
Qed.
Lemma set_V_twice p V V' : set_V (set_V p V) V' = set_V p V'.
Proof. reflexivity. Qed.
Lemma set_V_id p : set_V p (bp_V p) = p.
Proof. destruct p. reflexivity. Qed.

Section Node.
Context (E : ecops) (L : ec_laws E) (v : env E).
Hypothesis Hlen : forall P, length (encp E P) = 32%nat.

(** ** The shape of a proof *)
Lemma inv8_len P : len32 (inv8 E P). Proof. apply Hlen. Qed.
Lemma enc_sc_len x : len32 (enc_sc x). Proof. unfold len32, enc_sc. apply le_digits_length. Qed.
Lemma loop_shape x : forall r s s', prove_loop E r x s = Ok s' -> Forall len32 (s_L E s) -> Forall len32 (s_R E s) -> length (s_R E s) = length (s_L E s) ->
  Forall len32 (s_L E s') /\ Forall len32 (s_R E s') /\ length (s_R E s') = length (s_L E s').
Proof.
  induction r as [|r IH]; intros s s' H A B C; cbn [prove_loop] in H; [apply Ok_inj in H; subst; auto|]. bnd H s1 H1. apply (IH _ _ H); clear IH H; unfold loop_body in H1; cbv zeta in H1; bnd_guard H1 G; apply Ok_inj in H1; subst s1; cbn [s_L s_R].
  - apply Forall_app. split; [exact A|]. constructor; [apply inv8_len|constructor].
  - apply Forall_app. split; [exact B|]. constructor; [apply inv8_len|constructor].
  - rewrite !app_length, C. reflexivity.
Qed.
Lemma prove_shape gs sv gamma rd p : prove_batch E gs sv gamma rd = Ok p ->
  length sv = length gamma /\ length sv <> 0%nat /\ bp_V p = map2 (fun v g => inv8 E (add_keys2 E g v (Hb E))) sv gamma /\ keys32 p.
Proof.
  intros H. unfold prove_batch in H. bnd_guard H G1. bnd_guard H G2. bnd H z Hz. destruct z as [M lM]. cbv zeta in H. bnd_guard H G3. bnd_guard H G4.
  match type of H with (let '(_, _) := ?e in _) = _ => destruct e as [t1 t2] end. bnd_guard H G5. bnd_guard H G6. bnd H s Hs. bnd H a Ha. bnd H b Hb'. apply Ok_inj in H. subst p.
  apply Nat.eqb_eq in G1. split; [exact G1|]. split; [intros X; rewrite X in G2; discriminate|]. split; [reflexivity|].
  apply loop_shape in Hs; [|constructor|constructor|reflexivity]. destruct Hs as (A & B & C). unfold keys32. cbn [bp_A bp_S bp_T1 bp_T2 bp_taux bp_mu bp_L bp_R bp_a bp_b bp_t].
  split; [repeat constructor; first [apply inv8_len|apply enc_sc_len]|]. split; [exact A|]. split; [exact B|]. split; [repeat constructor; apply enc_sc_len|exact C].
Qed.

(** ** Commitments *)
Definition commit_pt (am : Z * Z) : pt E := gen_c E (fst am mod l) (snd am).
Lemma commit_zmul m x : commit_pt (m, x) = padd E (zmul E m (Gb E)) (zmul E x (Hb E)).
Proof. unfold commit_pt, gen_c, point_add, scalarmult_base, scalarmult_h. cbn [fst snd]. rewrite (smul_mod E L m (Gb E) (sub_G E L)), (smul_mod E L x (Hb E) (sub_H E L)). reflexivity. Qed.
Lemma commit_sum_points : forall a x, length a = length x ->
  sum_points E (map commit_pt (combine a x)) = padd E (zmul E (zsum a) (Gb E)) (zmul E (zsum x) (Hb E)).
Proof.
  induction a as [|a1 a IH]; intros [|x1 x] H; try discriminate; cbn [combine map sum_points fold_right].
  - change (zsum []) with 0. rewrite !(zmul_0 E), (law_id E L). reflexivity.
  - change (zsum (a1 :: a)) with (a1 + zsum a). change (zsum (x1 :: x)) with (x1 + zsum x). rewrite commit_zmul. change (fold_right (padd E) (pid E) (map commit_pt (combine a x))) with (sum_points E (map commit_pt (combine a x))).
    rewrite IH by (now injection H). rewrite !(zmul_add E L). rewrite <- !(law_assoc E L). f_equal. rewrite !(law_assoc E L). f_equal. apply (law_comm E L).
Qed.
Lemma commitments_map a x : commitments (real_ops E v) a x = map (encp E) (map commit_pt (combine a x)).
Proof. unfold commitments. rewrite map_map. reflexivity. Qed.
Lemma dec_commitments a x : mapM (decp E) (commitments (real_ops E v) a x) = Ok (map commit_pt (combine a x)).
Proof.
  rewrite commitments_map. induction (map commit_pt (combine a x)) as [|P Ps IH]; [reflexivity|]. cbn [map mapM]. rewrite (law_dec E L). cbn [bind]. rewrite IH. reflexivity.
Qed.
Lemma node_balanced a ins m outs fee : length a = length ins -> length m = length outs -> zsum a mod l = zsum m mod l -> zsum ins = zsum outs + fee -> 0 <= fee ->
  balanced E (commitments (real_ops E v) a ins) (commitments (real_ops E v) m outs) fee.
Proof.
  intros L1 L2 Hm Hs Hf. eexists _, _. split; [apply dec_commitments|]. split; [apply dec_commitments|]. rewrite !commit_sum_points by assumption.
  rewrite Hs, (zmul_add E L), (smul_zmul E L) by exact Hf. rewrite (zmul_congr E L _ _ _ (sub_G E L) Hm). apply (law_assoc E L).
Qed.

(** ** Range proofs *)
Lemma combine_concat {A B} : forall (xs : list (list A)) (ys : list (list B)), Forall2 (fun x y => length x = length y) xs ys -> combine (concat xs) (concat ys) = concat (map (fun xy => combine (fst xy) (snd xy)) (combine xs ys)).
Proof.
  induction 1 as [|x y xs ys H _ IH]; [reflexivity|]. cbn [concat combine map fst snd]. rewrite <- IH. clear IH. revert y H. induction x as [|a x IHx]; intros [|b y] H; try discriminate; [reflexivity|].
  cbn [app combine]. f_equal. apply IHx. now injection H.
Qed.
Lemma map2_commit : forall am ms, map2 (fun x g => inv8 E (add_keys2 E g x (Hb E))) (map (fun x => x mod l) am) (map (fun m => m mod l) ms) = map (inv8 E) (map commit_pt (combine ms am)).
Proof. induction am as [|x am IH]; intros [|m ms]; try reflexivity. cbn [map map2 combine]. rewrite IH. reflexivity. Qed.
Lemma commit_V_eq : forall am ms, commit_V E am ms = map (inv8 E) (map commit_pt (combine ms am)).
Proof. unfold commit_V. induction am as [|x am IH]; intros [|m ms]; try reflexivity. cbn [combine map]. rewrite <- IH. reflexivity. Qed.
Lemma sc_init_map : forall am sv, mapM bp_sc_init am = Ok sv -> sv = map (fun x => x mod l) am.
Proof.
  induction am as [|x am IH]; intros sv H; cbn [mapM] in H; [apply Ok_inj in H; now subst|]. bnd H y Hy. bnd H ys Hys. apply Ok_inj in H. subst sv. cbn [map]. rewrite <- (IH _ Hys). f_equal.
  unfold bp_sc_init in Hy. destruct (x >=? 2 ^ 64); [discriminate|]. apply Ok_inj in Hy. now subst.
Qed.
Lemma made_in_range am ms sd p bs w : (forall sd n, (1 <= n <= 32)%nat -> random_ok n (v_rand E v sd n)) -> Forall u64 am -> (length am <= 32)%nat ->
  real_prove E v am ms sd = Ok p -> dump_rsig_bp (real_ops E v) p = Ok bs ->
  length ms = length am /\ in_range E w (commitments (real_ops E v) ms am) bs.
Proof.
  intros HR HU HN Hp Hd. unfold real_prove in Hp. pose proof Hp as Hp'. unfold prove_range_bp_batch in Hp'. bnd Hp' sv Hsv. apply sc_init_map in Hsv. apply prove_shape in Hp'. destruct Hp' as (S1 & S2 & S3 & S4).
  subst sv. rewrite !map_length in S1. rewrite map_length in S2. split; [congruence|]. rewrite map2_commit in S3.
  pose proof (C36_complete E L (computed_gens E) (computed_generators E L) am (map (fun m => m mod l) ms) (v_rand E v sd (length am))) as C. rewrite Hp in C.
  destruct C as [C _]; [lia|now rewrite map_length|exact HU| |apply HR; lia|].
  { apply Forall_forall. intros m Hm. apply in_map_iff in Hm. destruct Hm as (m' & <- & _). apply mod_scalar. }
  eexists _, _. split; [apply dec_commitments|]. split; [exact (parse_dump E v p bs S4 Hd)|]. rewrite set_V_twice, <- S3, set_V_id. apply C.
Qed.
Lemma checked_in_range am ms p bs : parse_bulletproof bs = Ok p -> real_verify E v p am ms = Ok true -> length ms = length am ->
  in_range E (v_weights E v) (commitments (real_ops E v) ms am) bs.
Proof.
  intros Hp Hv Hl. eexists _, _. split; [apply dec_commitments|]. split; [exact Hp|]. unfold real_verify in Hv. bnd Hv p' Hp'. destruct am as [|x am].
  - exfalso. apply Ok_inj in Hp'. subst p'. unfold verify_batch in Hv. cbn [mapM] in Hv. bnd Hv u Hu. bnd Hu u' Hu'. unfold bp_check in Hu'.
    assert (HV : bp_V p = []).
    { unfold parse_bulletproof in Hp. clear Hu' Hu Hv. bnd Hp a Ha. destruct a. bnd Hp a Hb1. destruct a. bnd Hp a Hc. destruct a. bnd Hp a Hd. destruct a. bnd Hp a He. destruct a. bnd Hp a Hf. destruct a.
      repeat match type of Hp with match ?e with _ => _ end = _ => destruct e; try discriminate end. apply Ok_inj in Hp. subst p. reflexivity. }
    rewrite HV in Hu'. do 5 (let G := fresh in bnd_guard Hu' G). bnd_guard Hu' G. discriminate G.
  - bnd_guard Hp' G. apply Ok_inj in Hp'. subst p'. rewrite commit_V_eq in Hv. exact Hv.
Qed.
Lemma checked_lens am ms p : real_verify E v p am ms = Ok true -> (length am <= length ms)%nat.
Proof. intros H. unfold real_verify in H. bnd H p' Hp'. destruct am as [|x am]; [cbn; lia|]. bnd_guard Hp' G. now apply Nat.leb_le. Qed.
Lemma lens_eq {P} (B : list (list Z * list Z * P)) : Forall (fun b => length (fst (fst b)) <= length (snd (fst b)))%nat B ->
  length (concat (map (fun b => snd (fst b)) B)) = length (concat (map (fun b => fst (fst b)) B)) -> Forall (fun b => length (snd (fst b)) = length (fst (fst b))) B.
Proof.
  induction 1 as [|b B H HB IH]; intros HL; [constructor|]. cbn [map concat] in HL. rewrite !app_length in HL.
  assert (length (concat (map (fun b => fst (fst b)) B)) <= length (concat (map (fun b => snd (fst b)) B)))%nat.
  { clear -HB. induction HB as [|c B H _ IH]; [reflexivity|]. cbn [map concat]. rewrite !app_length. lia. }
  constructor; [lia|]. apply IH. lia.
Qed.
Lemma groups_concat {P} (B : list (list Z * list Z * P)) : Forall (fun b => length (snd (fst b)) = length (fst (fst b))) B ->
  concat (map (fun b => commitments (real_ops E v) (snd (fst b)) (fst (fst b))) B) =
  commitments (real_ops E v) (concat (map (fun b => snd (fst b)) B)) (concat (map (fun b => fst (fst b)) B)).
Proof.
  intros H. unfold commitments at 2. rewrite combine_concat.
  - induction H as [|b B Hb _ IH]; [reflexivity|]. cbn [map concat combine fst snd]. rewrite map_app, <- IH. reflexivity.
  - induction H; constructor; assumption.
Qed.

(** ** Signatures *)
Lemma upd_Forall {A} (Q : A -> Prop) i x : forall ys, Forall Q ys -> Q x -> Forall Q (upd ys i x).
Proof. revert i. intros i ys. revert i. induction ys as [|y ys IH]; intros [|i] H Hx; cbn [upd]; inversion H; subst; constructor; auto. Qed.
Lemma ring_loop_rows {R} (Q : R -> Prop) g row n index : (forall i, Q (row i)) -> forall fuel i c cc ss c' cc' ss', Forall Q ss -> 
  ring_loop fuel g row n index i c cc ss = Ok (c', cc', ss') -> Forall Q ss'.
Proof.
  intros Hr. induction fuel as [|fuel IH]; intros i c cc ss c' cc' ss' Hs H; cbn [ring_loop] in H; destruct (i =? index)%nat.
  1, 3: apply Ok_inj in H; injection H as _ _ <-; exact Hs. 1: discriminate.
  bnd H c1 Hc. apply IH in H; [exact H|]. apply upd_Forall; auto.
Qed.
Lemma ring_loop_cc {R} g row n index : (forall i c c', g i c = Ok c' -> scalar c') -> forall fuel i c cc (ss : list R) c' cc' ss', scalar c -> (forall x, cc = Some x -> scalar x) ->
  ring_loop fuel g row n index i c cc ss = Ok (c', cc', ss') -> scalar c' /\ (forall x, cc' = Some x -> scalar x).
Proof.
  intros Hg. induction fuel as [|fuel IH]; intros i c cc ss c' cc' ss' Hc Hcc H; cbn [ring_loop] in H; destruct (i =? index)%nat.
  1, 3: apply Ok_inj in H; injection H as <- <- _; auto. 1: discriminate.
  bnd H c1 Hc1. apply IH in H; [exact H|eapply Hg; exact Hc1|]. destruct (_ =? 0)%nat; [|exact Hcc]. intros x X. injection X as <-. eapply Hg. exact Hc1.
Qed.
Lemma hts_scalar x : scalar (hash_to_scalar E x).
Proof. unfold hash_to_scalar. apply mod_scalar. Qed.
(** a ring signature that verifies has one key image, that of the signer's key *)
Lemma sign_shape m pubs x mask a P index al rnd mg c dest : (forall i, Forall scalar (rnd i)) ->
  prove_rct_mg_simple E m pubs {| sk_dest := x; sk_mask := mask |} a P None false index al rnd = Ok (mg, c) ->
  length (mg_II E mg) = 1%nat -> nth_error pubs index = Some dest ->
  Forall (Forall scalar) (mg_ss E mg) /\ scalar (mg_cc E mg) /\ exists D, decp E (ct_dest dest) = Ok D /\ mg_II E mg = [smul E (Hp E (encp E D)) x].
Proof.
  intros Hrnd H Hl Hd. unfold prove_rct_mg_simple in H. bnd_guard H G. cbv zeta in H. bnd H M HM. unfold gen_mlsag_ext in H. bnd H rc Hrc. destruct rc as [rows cols]. bnd H col Hcol. 
  destruct (gen_rows E col _ al None 1) as [[b II] alpha] eqn:Eg. cbv zeta in H. bnd H z Hz. destruct z as [[c1 cc] ss].
  destruct cc as [cc|]; [|discriminate]. apply Ok_inj in H. injection H as <- <-. cbn [mg_ss mg_cc mg_II] in *.
  split; [|split].
  - apply upd_Forall.
    + refine (ring_loop_rows (Forall scalar) _ _ _ _ Hrnd _ _ _ _ _ _ _ _ _ Hz). apply Forall_forall. intros y Hy. apply repeat_spec in Hy. subst y. constructor.
    + apply Forall_forall. intros y Hy. apply in_map_iff in Hy. destruct Hy as (q & <- & _). apply mod_scalar.
  - eapply ring_loop_cc in Hz; [apply Hz; reflexivity| |apply hts_scalar|].
    + intros i c0 c' Hg. bnd Hg pk Hpk. apply Ok_inj in Hg. subst c'. apply hts_scalar.
    + intros y X. match type of X with (if ?e then _ else _) = _ => destruct e end; [|discriminate X]. injection X as <-. apply hts_scalar.
  - assert (Hc2 : exists D c2, decp E (ct_dest dest) = Ok D /\ col = [D; point_sub E c2 P]).
    { unfold getn in Hcol. destruct (nth_error M index) as [col'|] eqn:EM; [|discriminate]. apply Ok_inj in Hcol. subst col'. clear -HM EM Hd. unfold simple_matrix in HM.
      revert M HM index EM Hd. induction pubs as [|p pubs IH]; intros M HM index EM Hd; [destruct index; discriminate|]. cbn [mapM] in HM. bnd HM y Hy. bnd HM ys Hys. apply Ok_inj in HM. subst M.
      destruct index as [|index]; cbn [nth_error] in EM, Hd.
      - injection EM as <-. injection Hd as <-. bnd Hy d Hdd. bnd Hy c0 Hc. apply Ok_inj in Hy. subst y. eauto.
      - eapply IH; eassumption. }
    destruct Hc2 as (D & c2 & HD & ->). exists D. split; [exact HD|]. cbn [gen_rows] in Eg. destruct al as [|a1 al]; [injection Eg as _ <- _; discriminate Hl|].
    destruct al as [|a2 al]; cbn [gen_rows] in Eg; injection Eg as _ <- _; reflexivity.
Qed.
Lemma ver_one_image m mg pubs P : ver_rct_mg_simple E m mg pubs P = Ok true -> length (mg_II E mg) = 1%nat.
Proof.
  intros H. unfold ver_rct_mg_simple in H. bnd_guard H G. bnd H M HM. unfold ver_mlsag_ext in H. bnd H rc Hrc. unfold ver_mlsag_assert in Hrc.
  bnd_guard Hrc G1. bnd Hrc pk0 H0. bnd_guard Hrc G2. bnd_guard Hrc G3. bnd_guard Hrc G4. now apply Nat.eqb_eq in G4.
Qed.

Definition parses (parse : list Z -> res (list (list Z) * Z)) : Prop :=
  forall mg, Forall (Forall scalar) (mg_ss E mg) -> scalar (mg_cc E mg) -> parse (v_dump_mg E v mg) = Ok (mg_ss E mg, mg_cc E mg).
Lemma sc_add_scalar a b : scalar (Ec_model.sc_add a b). Proof. apply mod_scalar. Qed.
Lemma helper_image ack sb P T add i xi ki : cr_multisig E ack = false -> (let* (r, _) := generate_key_image_helper E ack sb P T add i in Ok r) = Ok (xi, ki) ->
  scalar xi /\ ki = smul E (Hp E (encp E P)) xi.
Proof.
  intros Hms H. bnd H z Hz. destruct z as [[xi' ki'] rc]. apply Ok_inj in H. apply pair_inj in H. destruct H as [-> ->]. unfold generate_key_image_helper in Hz. bnd Hz r1 H1. bnd Hz r2 H2. bnd Hz r3 H3.
  destruct r3 as [[i' der]|]; [|discriminate]. bnd Hz z4 H4. destruct z4 as [xi1 ki1]. apply Ok_inj in Hz. injection Hz as -> -> _. unfold generate_key_image_helper_precomp in H4. bnd_guard H4 G.
  bnd H4 s1 Hs1. cbv zeta in H4. bnd H4 s2 Hs2. destruct s2 as [sk step2]. rewrite Hms in H4. cbn [negb] in H4. bnd_guard H4 G2. apply Ok_inj in H4. injection H4 as <- <-. apply (law_eqb E L) in G2.
  split; [|unfold key_image_of, scalarmult; now rewrite G2].
  unfold derive_secret_key in Hs1. bnd_guard Hs1 G3. apply Ok_inj in Hs1.
  match type of Hs2 with (if ?e then _ else _) = _ => destruct e end.
  - apply Ok_inj in Hs2. injection Hs2 as _ <-. rewrite <- Hs1. apply sc_add_scalar.
  - bnd Hs2 sk' Hsk. apply Ok_inj in Hs2. injection Hs2 as _ <-. apply sc_add_scalar.
Qed.
Lemma spends_signed parse cr fm s vini a sig : parses parse -> (forall sd i, Forall scalar (v_rows E v sd i)) ->
  spends (real_ops E v) cr fm s vini a sig ->
  input_signed E parse fm (if truthy (se_rct s) then 0 else se_amount s) (se_outputs s) vini (encp E (commit_pt (a, se_amount s))) sig.
Proof.
  intros Hpa Hrw (real & P & T & add & sb & xi & ki & offs & mask & Q & sd & H1 & H2 & H3 & H4 & H5 & H6 & H7 & H8 & H9 & H10 & H11 & H12).
  cbn [Signer_model.key_image_helper real_ops] in H5. apply helper_image in H5; [|reflexivity]. destruct H5 as [Hxi Hki].
  cbn [Signer_model.mlsag_sign Signer_model.dec_int Signer_model.enc_int Signer_model.gen_c real_ops] in H12. rewrite (enc_dec_sc xi Hxi) in H12.
  unfold real_sign in H12. bnd_guard H12 G. apply Z.leb_le in G. bnd H12 z Hz. destruct z as [mg c]. bnd H12 ok Hok. bnd_guard H12 Gok. apply Ok_inj in H12. subst sig ok.
  pose proof (ver_one_image _ _ _ _ Hok) as Hone.
  assert (Hn : nth_error (ring_of (se_outputs s)) (Z.to_nat (se_real_output s)) = Some {| ct_dest := re_dest real; ct_comm := re_commitment real |}).
  { unfold ring_of. rewrite nth_error_map. replace (se_real_output s) with (Z.of_nat (Z.to_nat (se_real_output s))) in H1 by lia. apply py_get_nat in H1. rewrite H1. reflexivity. }
  destruct (sign_shape _ _ _ _ _ _ _ _ _ _ _ _ (Hrw sd) Hz Hone Hn) as (S1 & S2 & D & HD & HI). cbn [ct_dest] in HD. cbn [Signer_model.dec_pt real_ops] in H2. rewrite H2 in HD. apply Ok_inj in HD. subst D.
  rewrite <- Hki in HI. exists ki, offs, (mg_ss E mg), (mg_cc E mg), (commit_pt (a, se_amount s)).
  split; [exact H6|]. split; [exact H7|]. split.
  { rewrite Hki. destruct Hxi as [X1 X2]. pose proof l_pos as X3. rewrite !(smul_zmul E L), <- (zmul_mul E L), Z.mul_comm, (zmul_mul E L), <- (smul_zmul E L (Hp E (encp E P)) l), (law_Hp E L) by lia. apply (zmul_id E L). }
  split; [apply Hpa; assumption|]. split; [apply (law_dec E L)|]. rewrite <- HI. destruct mg. exact Hok.
Qed.

Theorem node_accepts_agent cr tp hs x st st' ev sg parse :
  (forall k n p, v_dec E v k (v_enc E v k n p) = Ok p) -> (forall n i, 0 <= rnd (tp n) i < ell) ->
  parses parse -> (forall sd i, Forall scalar (v_rows E v sd i)) -> (forall sd n, (1 <= n <= 32)%nat -> random_ok n (v_rand E v sd n)) ->
  tc_use_bulletproofs x = true -> pseudo_outs_kept x -> Forall (fun e => u64 (de_amount e)) (tc_dsts x) ->
  sign_transaction_data (real_ops E v) cr tp hs x st = Ok ((st', ev), sg) ->
  exists srcs, Permutation srcs (tc_sources x) /\ forall w, (w = v_weights E v \/ (length (tc_dsts x) <= 2)%nat) ->
    node_accepts E (real_ops E v) parse w (map (fun s => (if truthy (se_rct s) then 0 else se_amount s, se_outputs s)) srcs) sg.
Proof.
  intros Haead Hr Hpa Hrw Hrd Hbp Hk Hu H. pose proof (real_codec E L v Hlen Haead) as HL.
  pose proof (agent_sorted _ _ _ _ _ _ _ _ H) as Hso.
  assert (Hcnt : length (sg_ecdh sg) = length (sg_vout sg) /\ sg_unlock sg = tc_unlock_time x).
  { destruct (agent_traced _ _ _ _ _ _ _ _ H) as (d & r0 & tr & p & ins & fm & R). rewrite (ar_ecdh _ _ _ _ _ _ _ _ _ _ _ R), (ar_vout _ _ _ _ _ _ _ _ _ _ _ R), !map_length.
    split; [reflexivity|]. exact (ar_unlock _ _ _ _ _ _ _ _ _ _ _ R). }
  destruct Hcnt as [Hcnt Hul].
  destruct (agent_transaction cr tp hs x st st' ev sg HL Hr H) as (d & c & extra & srcs & a & m & blob & fm & Hd & Hp & HP & L1 & L2 & L3 & Hsp & L4 & Hpay & Hz & Hf & L5 & Hpk & Hpo & Hm & Hb & Hos & HB).
  exists srcs. split; [exact HP|]. intros w Hw. specialize (Hpo Hk). specialize (HB Hk).
  assert (Hzs : zsum (map se_amount srcs) = zsum (map se_amount (tc_sources x))) by (apply zsum_permutation; now apply Permutation_map).
  assert (Lpo : length (sg_pseudo_outs sg) = length srcs).
  { rewrite Hpo. unfold commitments. rewrite map_length, combine_length, map_length. lia. }
  assert (Lpk : length (sg_out_pk sg) = length (tc_dsts x)).
  { rewrite Hpk. unfold commitments. rewrite map_length, combine_length, map_length. lia. }
  constructor.
  - exists blob, fm. rewrite Hul. split; [exact Hb|]. split; [exact Hos|]. intros j ring Hj. rewrite nth_error_map in Hj. destruct (nth_error srcs j) as [s|] eqn:Es; [|discriminate]. cbn [option_map] in Hj. apply Some_inj in Hj. subst ring.
    assert (Hjl : (j < length srcs)%nat) by (apply nth_error_Some; congruence).
    destruct (nth_error (sg_vin sg) j) as [vini|] eqn:Ev; [|apply nth_error_None in Ev; lia]. destruct (nth_error (sg_sigs sg) j) as [sig|] eqn:Eg; [|apply nth_error_None in Eg; lia].
    destruct (nth_error a j) as [aj|] eqn:Ea; [|apply nth_error_None in Ea; lia].
    exists vini, (encp E (commit_pt (aj, se_amount s))), sig. split; [reflexivity|]. split.
    { rewrite Hpo, commitments_map, !nth_error_map. rewrite (nth_combine _ _ _ aj (se_amount s)); [reflexivity|exact Ea|]. now rewrite nth_error_map, Es. }
    split; [reflexivity|]. cbn [fst snd]. eapply spends_signed; [exact Hpa|exact Hrw|]. eapply Hsp; eassumption.
  - rewrite map_length. repeat split; congruence.
  - exact Hso.
  - rewrite Hpo, Hpk. apply node_balanced; rewrite ?map_length; try assumption. rewrite Hzs. exact Hz.
  - exact Hf.
  - destruct HB as (B & B1 & B2 & B3 & _ & B4 & B5).
    assert (HuB : Forall u64 (concat (map (fun b => fst (fst b)) B))).
    { rewrite B1. apply Forall_forall. intros y Hy. apply in_map_iff in Hy. destruct Hy as (e & <- & He). rewrite Forall_forall in Hu. now apply Hu. }
    assert (Hlc : length (concat (map (fun b => snd (fst b)) B)) = length (concat (map (fun b => fst (fst b)) B))) by (rewrite B1, map_length; exact B3).
    destruct (c_rsig_offload (real_ops E v) c) eqn:Eo.
    + (* checked by the device *)
      specialize (B5 eq_refl). clear B4.
      assert (Hle : Forall (fun b => length (fst (fst b)) <= length (snd (fst b)))%nat B).
      { clear -B5. induction B5 as [|b bs B l [_ Hv] _ IH]; constructor; [|exact IH]. eapply checked_lens. exact Hv. }
      pose proof (lens_eq B Hle Hlc) as Heq.
      assert (w = v_weights E v) as ->.
      { destruct Hw as [Hw|Hw]; [exact Hw|]. exfalso. rewrite (proj2 (params_rsig _ _ _ _ _ Hp)) in Eo. apply andb_prop in Eo. destruct Eo as [_ Eo]. unfold agent_init in Hd. bnd Hd bs Hbs. apply Ok_inj in Hd. subst d. cbn [td_outputs] in Eo. apply Z.ltb_lt in Eo. unfold zlen in Eo. lia. }
      exists (map (fun b => commitments (real_ops E v) (snd (fst b)) (fst (fst b))) B). split; [rewrite (groups_concat B Heq), B1; symmetry; exact B2|].
      clear -B5 Heq L. induction B5 as [|b bs B l [Hpp Hv] _ IH]; inversion Heq as [|? ? Q1 Q2]; subst; cbn [map]; constructor; [exact (checked_in_range _ _ _ _ Hpp Hv Q1)|exact (IH Q2)].
    + (* made by the device: at most two outputs *)
      specialize (B4 eq_refl). clear B5 Hw.
      assert (Hn : (length (tc_dsts x) <= 2)%nat).
      { rewrite (proj2 (params_rsig _ _ _ _ _ Hp)) in Eo. unfold agent_init in Hd. bnd Hd bs Hbs. apply Ok_inj in Hd. subst d. cbn [td_outputs td_rsig_type] in Eo. rewrite Hbp in Eo.
        assert (0 <? get_rsig_type true (zlen (tc_dsts x)) = true) as Et by (unfold get_rsig_type; cbn [negb]; destruct (16 <? zlen (tc_dsts x)); reflexivity). rewrite Et in Eo. cbn [andb] in Eo. apply Z.ltb_ge in Eo. unfold zlen in Eo. lia. }
      assert (HnB : Forall (fun b => Forall u64 (fst (fst b)) /\ (length (fst (fst b)) <= 32)%nat) B).
      { assert (Hc : (length (concat (map (fun b => fst (fst b)) B)) <= 2)%nat) by (rewrite B1, map_length; exact Hn). clear -HuB Hc. induction B as [|b B IH]; constructor.
        - cbn [map concat] in HuB, Hc. rewrite app_length in Hc. apply Forall_app in HuB. split; [apply HuB|lia].
        - cbn [map concat] in HuB, Hc. rewrite app_length in Hc. apply Forall_app in HuB. apply IH; [apply HuB|lia]. }
      assert (HH : Forall2 (fun b bs => length (snd (fst b)) = length (fst (fst b)) /\ in_range E w (commitments (real_ops E v) (snd (fst b)) (fst (fst b))) bs) B (sg_rsigs sg)).
      { clear -B4 HnB Hrd L Hlen. induction B4 as [|b bs B l ((sd & Hpv) & Hd) _ IH]; inversion HnB as [|? ? [U1 U2] U3]; subst; constructor; [exact (made_in_range _ _ sd _ _ w Hrd U1 U2 Hpv Hd)|exact (IH U3)]. }
      assert (Heq : Forall (fun b => length (snd (fst b)) = length (fst (fst b))) B) by (clear -HH; induction HH as [|b bs B l [X _] _ IH]; constructor; assumption).
      exists (map (fun b => commitments (real_ops E v) (snd (fst b)) (fst (fst b))) B). split; [rewrite (groups_concat B Heq), B1; symmetry; exact B2|].
      clear -HH. induction HH as [|b bs B l [_ X] _ IH]; cbn [map]; constructor; assumption.
Qed.
End Node.
