(** C50: the lite protocol.  C66: nonces of the lite protocol. *)
From Verif Require Import Sigs_proof Bp_model Bp_proof1 Py PyLemmas Digits Ints_model Primes Ec_model Ec_spec Ec_proof Ec_toy Mlsag_model Mlsag_spec Rsig_model Rsig_proof Sigs_model Wallet_model Container_model Container_proof Clsag_proof Lite_model Lite_spec KeySep_proof KeyImageSync_proof Lite_proof.
Ltac Zify.zify_post_hook ::= idtac.

Definition is_ok {A} (r : res A) : Prop := exists x, r = Ok x.
Section Run.
Context (E : ecops) (L : ec_laws E) (K : lite_prims).
Local Notation lst := (lst E).
Lemma lrun_app a b : forall (s : lst), lrun E K (a ++ b) s = (fst (lrun E K b (fst (lrun E K a s))), snd (lrun E K a s) ++ snd (lrun E K b (fst (lrun E K a s)))).
Proof.
  induction a as [|c a IH]; intros s; [cbn [app lrun fst snd]; apply surjective_pairing|]. cbn [app lrun]. destruct (dispatch E K c s) as [s1 o]. rewrite IH. destruct (lrun E K a s1) as [s2 os]. reflexivity.
Qed.
Lemma lrun_cons c cs (s s' : lst) os : lrun E K (c :: cs) s = (s', os) -> Forall is_ok os -> exists o s1 os', os = Ok o :: os' /\ dispatch E K c s = (s1, Ok o) /\ lrun E K cs s1 = (s', os') /\ Forall is_ok os'.
Proof.
  cbn [lrun]. destruct (dispatch E K c s) as [s1 o] eqn:D. destruct (lrun E K cs s1) as [s2 os'] eqn:R. intros Q F. apply pair_equal_spec in Q. destruct Q as [<- <-].
  inversion F as [|? ? [x ->] F']; subst. exists x, s1, os'. auto.
Qed.
Lemma lrun_split a b (s s' : lst) os : lrun E K (a ++ b) s = (s', os) -> Forall is_ok os -> exists s1 o1 o2, os = o1 ++ o2 /\ lrun E K a s = (s1, o1) /\ lrun E K b s1 = (s', o2) /\ Forall is_ok o1 /\ Forall is_ok o2.
Proof.
  intros H F. rewrite lrun_app in H. apply pair_equal_spec in H. destruct H as [H1 H2]. exists (fst (lrun E K a s)), (snd (lrun E K a s)), (snd (lrun E K b (fst (lrun E K a s)))).
  subst os. apply Forall_app in F. destruct F. rewrite <- surjective_pairing. split; [reflexivity|]. split; [reflexivity|]. split; [rewrite <- H1; apply surjective_pairing|auto].
Qed.
Lemma same_refl (s : lst) : same E s s. Proof. unfold same. auto 10. Qed.
Lemma same_trans (a b c : lst) : same E a b -> same E b c -> same E a c. Proof. unfold same. intuition congruence. Qed.
Lemma inits_run cs : forall (s s' : lst) os, Forall (fun c => validate 1 c /\ c_p2 c <> 1) cs -> lrun E K cs s = (s', os) -> Forall is_ok os ->
  same E s s' /\ l_C E s' = l_C E s /\ l_shown E s' = l_shown E s /\ l_KV E s' = l_KV E s /\ l_amount E s' = l_amount E s /\ l_commitment E s' = l_commitment E s /\
  l_ctx_h E s' = l_ctx_h E s ++ concat (map (fun c => skipn 1 (c_input c)) cs).
Proof.
  induction cs as [|c cs IH]; intros s s' os F R O.
  - cbn [lrun] in R. apply pair_equal_spec in R. destruct R as [<- _]. cbn [map concat]. rewrite app_nil_r. split; [apply same_refl|auto 10].
  - inversion F as [|? ? [V P] F']; subst. apply lrun_cons in R; [|exact O]. destruct R as (o & s1 & os' & -> & D & R & O').
    destruct (init_inv E K c s s1 o V D) as (S1 & C1 & W1 & _ & X). destruct (X P) as (X1 & X2 & X3 & X4). destruct (IH s1 s' os' F' R O') as (S2 & C2 & W2 & Y1 & Y2 & Y3 & Y4).
    split; [eapply same_trans; eassumption|]. cbn [map concat]. rewrite app_assoc, <- X4. repeat split; congruence.
Qed.
Lemma outs_run cs : forall (s s' : lst) os, Forall (fun c => validate 2 c /\ more c = true) cs -> lrun E K cs s = (s', os) -> Forall is_ok os ->
  same E s s' /\ l_C E s' = l_C E s /\ l_KV E s' = l_KV E s /\ l_commitment E s' = l_commitment E s ++ concat (map out_commitment cs) /\ Forall (fun c => 194 <= length (c_input c))%nat cs /\
  l_ctx_h E s' = l_ctx_h E s ++ concat (map (fun c => out_mask c ++ out_amount c) cs) /\
  exists ds shs, Forall2 (fun c d => opened E K (l_key E s) c (fst (fst d)) (snd (fst d)) (snd d)) cs ds /\
    l_amount E s' = l_amount E s ++ concat (map (fun d => fst (fst d) ++ enc_sc (snd (fst d)) ++ enc_sc (snd d)) ds) /\
    l_shown E s' = l_shown E s ++ concat shs /\ length shs = length cs /\
    (l_mode E s = REAL -> Forall2 (fun cd sh => asked E (l_A E s) (l_B E s) (fst cd) (snd (snd cd)) sh) (combine cs ds) shs) /\ (l_mode E s <> REAL -> concat shs = []).
Proof.
  induction cs as [|c cs IH]; intros s s' os F R O.
  - cbn [lrun] in R. apply pair_equal_spec in R. destruct R as [<- _]. cbn [map concat]. rewrite !app_nil_r. split; [apply same_refl|]. do 5 (split; [auto|]). exists [], []. cbn [map concat combine]. rewrite !app_nil_r. repeat split; auto; intros; constructor.
  - inversion F as [|? ? [V P] F']; subst. apply lrun_cons in R; [|exact O]. destruct R as (o & s1 & os' & -> & D & R & O').
    destruct (update_inv E L K c s s1 o V D) as (S1 & KV1 & AK & k & v & sh & OP & LN & X1 & X2 & X3 & X4 & X5 & X6 & _). destruct (X6 P) as [C1 CM1].
    destruct (IH s1 s' os' F' R O') as (S2 & C2 & KV2 & CM2 & LN2 & H2 & ds & shs & OPs & AM & SH & LS & AS & NS).
    assert (SS := S1). destruct S1 as (_ & _ & A1 & A2 & A3 & A4). rewrite A1, A2, A3, A4 in *.
    split; [eapply same_trans; eassumption|]. split; [congruence|]. split; [congruence|]. cbn [map concat]. split; [rewrite CM2, CM1, app_assoc; reflexivity|]. split; [constructor; assumption|]. split; [rewrite H2, X1, <- !app_assoc; reflexivity|].
    exists ((AK, k, v) :: ds), (sh :: shs). cbn [map concat combine fst snd length]. split; [constructor; assumption|]. split; [rewrite AM, X2, <- !app_assoc; reflexivity|]. split; [rewrite SH, X3, app_assoc; reflexivity|].
    split; [rewrite LS; reflexivity|]. split; [intros M; constructor; auto|]. intros M. rewrite (X5 M), (NS M). reflexivity.
Qed.
Lemma keys_run cs : forall (s s' : lst) os, Forall (fun c => validate 3 c /\ more c = true) cs -> lrun E K cs s = (s', os) -> Forall is_ok os ->
  same E s s' /\ l_shown E s' = l_shown E s /\ l_C E s' = l_C E s /\ l_commitment E s' = l_commitment E s ++ concat (map (key_at 1) cs) /\ Forall (fun c => 33 <= length (c_input c))%nat cs /\
  l_ctx_h E s' = l_ctx_h E s ++ concat (map (key_at 1) cs).
Proof.
  induction cs as [|c cs IH]; intros s s' os F R O.
  - cbn [lrun] in R. apply pair_equal_spec in R. destruct R as [<- _]. cbn [map concat]. rewrite !app_nil_r. split; [apply same_refl|auto 10].
  - inversion F as [|? ? [V P] F']; subst. apply lrun_cons in R; [|exact O]. destruct R as (o & s1 & os' & -> & D & R & O').
    destruct (fin_more_inv E K c s s1 o V P D) as (S1 & W1 & C1 & _ & _ & LN & X1 & X2). destruct (IH s1 s' os' F' R O') as (S2 & W2 & C2 & Y1 & Y2 & Y3).
    split; [eapply same_trans; eassumption|]. split; [congruence|]. split; [congruence|]. cbn [map concat]. split; [rewrite Y1, X2, app_assoc; reflexivity|]. split; [constructor; assumption|]. rewrite Y3, X1, app_assoc. reflexivity.
Qed.
End Run.

Lemma key_at_len n c : (32 + n <= length (c_input c))%nat -> length (key_at n c) = 32%nat.
Proof. intros H. unfold key_at. rewrite firstn_length, skipn_length. lia. Qed.
Lemma all32 (cs : list lcmd) n : Forall (fun c => 32 + n <= length (c_input c))%nat cs -> Forall (fun k => length k = 32%nat) (map (key_at n) cs).
Proof. induction 1 as [|c cs H F IH]; constructor; [apply key_at_len, H|exact IH]. Qed.

(** ** Blinding *)
Definition shape (ins : Z) (c : lcmd) : Prop := c_ins c = ins /\ (97 <= length (c_input c))%nat.
Lemma decodeint_ok b : length b = 32%nat -> decodeint b = Ok (le_val 256 b mod l).
Proof. intros H. unfold decodeint, zlen. rewrite H. change (Z.of_nat 32 <? 32) with false. cbv iota. unfold dec_sc. rewrite firstn_all2 by lia. reflexivity. Qed.
Lemma fetch_ok E n (s : lst E) : (n <= length (l_in E s))%nat -> fetch E n s = (set_in E (skipn n (l_in E s)) s, Ok (firstn n (l_in E s))).
Proof. intros H. unfold fetch. rewrite (proj2 (Nat.ltb_ge _ _)) by exact H. reflexivity. Qed.
Lemma u8_ok E (s : lst E) : (1 <= length (l_in E s))%nat -> fetch_u8 E s = (set_in E (skipn 1 (l_in E s)) s, Ok (Z.land (nth 0 (l_in E s) 0) 255)).
Proof. intros H. unfold fetch_u8, mbind. rewrite fetch_ok by exact H. unfold ret. f_equal. f_equal. destruct (l_in E s) as [|b r]; [cbn in H; lia|reflexivity]. Qed.
Lemma decrypt_ok E K (s : lst E) p : (32 <= length (l_in E s))%nat -> aes_dec K (l_key E s) (firstn 32 (l_in E s)) iv0 = Ok p -> fetch_decrypt E K s = (set_in E (skipn 32 (l_in E s)) s, Ok p).
Proof. intros H D. unfold fetch_decrypt, mbind, get, lift. rewrite fetch_ok by exact H. sred. rewrite D. reflexivity. Qed.
Lemma dispatch_eq E K c (s : lst E) : (1 <= length (c_input c))%nat -> dispatch E K c s =
  match command E K (c_tape c) (c_ins c) (c_p1 c) (c_p2 c) (length (c_input c)) (set_options E (Z.land (nth 0 (c_input c) 0) 255) (set_in E (skipn 1 (c_input c)) (set_out E [] s))) with
  | (s, Ok sw) => (s, Ok (sw, l_out E s)) | (s, Err e) => (s, Err e) end.
Proof. intros H. unfold dispatch, sub_dispatch. unfold mbind at 1. rewrite u8_ok by (sred; lia). unfold mbind at 1, upd at 1. sred. reflexivity. Qed.
Lemma blind_run E K c (s : lst E) AK : shape INS_BLIND c -> aes_dec K (l_key E s) (key_at 1 c) iv0 = Ok AK -> exists s', l_key E s' = l_key E s /\ dispatch E K c s =
  (s', Ok (SW_OK, enc_sc (sc_add (le_val 256 (key_at 65 c) mod l) (hash_to_scalar E (enc_sc (hash_to_scalar E AK)))) ++ enc_sc (sc_add (le_val 256 (key_at 33 c) mod l) (hash_to_scalar E AK)))) /\
  l_amount E s' = l_amount E s ++ AK ++ key_at 33 c ++ key_at 65 c.
Proof.
  intros [SI SL] D. rewrite dispatch_eq by lia. rewrite SI. change (command E K (c_tape c) INS_BLIND (c_p1 c) (c_p2 c) (length (c_input c))) with (blind E K).
  unfold blind. unfold mbind at 1. rewrite (decrypt_ok E K _ AK); [|sred; rewrite skipn_length; lia|exact D]. sred. unfold mbind at 1. rewrite fetch_ok by (sred; rewrite !skipn_length; lia). sred.
  unfold mbind at 1. rewrite fetch_ok by (sred; rewrite !skipn_length; lia). sred. unfold mbind, upd, lift, insert_sc, insert, ret, upd. sred. rewrite !skip_skip. cbn [Nat.add].
  change (firstn 32 (skipn 33 (c_input c))) with (key_at 33 c). change (firstn 32 (skipn 65 (c_input c))) with (key_at 65 c).
  rewrite !decodeint_ok by (apply key_at_len; lia). sred. cbn [app]. eexists. split; [|split; [reflexivity|]]; sred; reflexivity.
Qed.
Lemma unblind_run E K c (s : lst E) AK : shape INS_UNBLIND c -> aes_dec K (l_key E s) (key_at 1 c) iv0 = Ok AK -> exists s', dispatch E K c s =
  (s', Ok (SW_OK, enc_sc (sc_sub (le_val 256 (key_at 65 c) mod l) (hash_to_scalar E (enc_sc (hash_to_scalar E AK)))) ++ enc_sc (sc_sub (le_val 256 (key_at 33 c) mod l) (hash_to_scalar E AK)))).
Proof.
  intros [SI SL] D. rewrite dispatch_eq by lia. rewrite SI. change (command E K (c_tape c) INS_UNBLIND (c_p1 c) (c_p2 c) (length (c_input c))) with (unblind E K).
  unfold unblind. unfold mbind at 1. rewrite (decrypt_ok E K _ AK); [|sred; rewrite skipn_length; lia|exact D]. sred. unfold mbind at 1. rewrite fetch_ok by (sred; rewrite !skipn_length; lia). sred.
  unfold mbind at 1. rewrite fetch_ok by (sred; rewrite !skipn_length; lia). sred. unfold mbind, lift, insert_sc, insert, ret, upd, unblind_int. sred. rewrite !skip_skip. cbn [Nat.add].
  change (firstn 32 (skipn 33 (c_input c))) with (key_at 33 c). change (firstn 32 (skipn 65 (c_input c))) with (key_at 65 c).
  rewrite !decodeint_ok by (apply key_at_len; lia). cbn [bind]. sred. cbn [app]. eexists. sred. reflexivity.
Qed.
Lemma enc_len v : length (enc_sc v) = 32%nat. Proof. apply le_digits_length. Qed.
Lemma first32 v b : firstn 32 (enc_sc v ++ b) = enc_sc v.
Proof. rewrite firstn_app, enc_len, Nat.sub_diag. rewrite (firstn_all2 (n := 32) (enc_sc v)) by (rewrite enc_len; lia). apply app_nil_r. Qed.
Lemma skip32 v b : skipn 32 (enc_sc v ++ b) = b.
Proof. rewrite skipn_app, enc_len, Nat.sub_diag. rewrite (skipn_all2 (n := 32) (enc_sc v)) by (rewrite enc_len; lia). reflexivity. Qed.
Lemma add_sub_sc x h : scalar x -> sc_sub (sc_add x h mod l) h = x.
Proof. intros H. unfold sc_sub, sc_add. rewrite Zmod_mod, Zminus_mod_idemp_l. replace (x + h - h) with x by ring. apply Z.mod_small, H. Qed.
(** A blinded pair, handed back to [unblind] with the halves of the answer exchanged, is returned: amount and mask reduced modulo l *)
Theorem C50_unblind_blind : forall E K (s s1 s2 : lst E) c c' out,
  shape 0x78 c -> shape 0x7A c' -> dispatch E K c s = (s1, Ok (0x9000, out)) -> l_key E s2 = l_key E s ->
  key_at 1 c' = key_at 1 c -> key_at 33 c' = skipn 32 out -> key_at 65 c' = firstn 32 out ->
  exists s3, dispatch E K c' s2 = (s3, Ok (0x9000, enc_sc (le_val 256 (key_at 65 c) mod l) ++ enc_sc (le_val 256 (key_at 33 c) mod l))).
Proof.
  intros E K s s1 s2 c c' out SH SH' D KK E1 E2 E3.
  destruct (aes_dec K (l_key E s) (key_at 1 c) iv0) as [AK|e] eqn:DA.
  - destruct (blind_run E K c s AK SH DA) as (s' & _ & D' & _). rewrite D in D'. apply pair_equal_spec in D'. destruct D' as [_ D']. apply ok_inj in D'. apply pair_equal_spec in D'. destruct D' as [_ ->].
    rewrite <- KK, <- E1 in DA. destruct (unblind_run E K c' s2 AK SH' DA) as (s3 & D3). exists s3. rewrite D3, E2, E3. rewrite first32, skip32.
    rewrite !enc_sc_val by apply mod_scalar. f_equal. f_equal. f_equal. f_equal.
    + f_equal. apply add_sub_sc, mod_scalar.
    + f_equal. apply add_sub_sc, mod_scalar.
  - exfalso. destruct SH as [SI SL]. rewrite dispatch_eq in D by lia. rewrite SI in D. change (command E K (c_tape c) 0x78 (c_p1 c) (c_p2 c) (length (c_input c))) with (blind E K) in D.
    unfold blind in D. unfold mbind at 1 in D. unfold fetch_decrypt in D. unfold mbind at 1 in D. rewrite fetch_ok in D by (sred; rewrite skipn_length; lia). unfold mbind at 1, get, lift in D. sred. change (firstn 32 (skipn 1 (c_input c))) with (key_at 1 c) in D. rewrite DA in D.
    apply pair_equal_spec in D. destruct D; discriminate.
Qed.
Print Assumptions C50_unblind_blind.

(** A prehash: the command with the transaction prefix, further data, the outputs, the output keys, the end.
    If every command is accepted, the commitments hashed at the end are those of the announced outputs and each of these opens to
    the announced mask and amount, the announced masks and amounts are those blinded before, and in real mode the user was asked about
    every output not going to the wallet itself; or two strings with the same SHA-256 are exhibited. *)
Theorem C50_commitments_partial : forall E, ec_laws E -> forall K s s' first inits outs last_out keys final answers,
  validate 1 first -> c_p2 first = 1 -> Forall (fun c => validate 1 c /\ c_p2 c <> 1) inits ->
  Forall (fun c => validate 2 c /\ more c = true) outs -> validate 2 last_out -> more last_out = false ->
  Forall (fun c => validate 3 c /\ more c = true) keys -> validate 3 final -> more final = false ->
  lrun E K (first :: inits ++ outs ++ last_out :: keys ++ [final]) s = (s', answers) -> Forall is_ok answers ->
  let announced := outs ++ [last_out] in
  let keyed := concat (map (key_at 1) keys) in let committed := concat (map out_commitment announced) in
  (map (key_at 1) keys = map out_commitment announced \/ keyed <> committed /\ sha K keyed = sha K committed) /\
  (exists opening shown,
    Forall2 (fun c d => opened E K (l_key E s) c (fst (fst d)) (snd (fst d)) (snd d)) announced opening /\
    (let chain := concat (map (fun d => fst (fst d) ++ enc_sc (snd (fst d)) ++ enc_sc (snd d)) opening) in
     l_amount E s = chain \/ l_amount E s <> chain /\ sha K (l_amount E s) = sha K chain) /\
    l_shown E s' = l_shown E s ++ concat shown /\
    (l_mode E s = 1 -> Forall2 (fun cd sh => asked E (l_A E s) (l_B E s) (fst cd) (snd (snd cd)) sh) (combine announced opening) shown)) /\
  (let hashed := concat (map (fun c => skipn 1 (c_input c)) (first :: inits)) ++ concat (map (fun c => out_mask c ++ out_amount c) announced) ++ keyed in
   last answers (Err OutOfFuel) = Ok (0x9000, hash E (key_at 1 final ++ hash E hashed ++ key_at 33 final))).
Proof.
  intros E L K s s' first inits outs last_out keys final answers V1 P1 FI FO VL ML FK VF MF R O announced keyed committed.
  apply lrun_cons in R; [|exact O]. destruct R as (o1 & s1 & a1 & -> & D1 & R & O1).
  apply lrun_split in R; [|exact O1]. destruct R as (s2 & a2 & a3 & -> & R2 & R & O2 & O3).
  apply lrun_split in R; [|exact O3]. destruct R as (s3 & a4 & a5 & -> & R3 & R & O4 & O5).
  apply lrun_cons in R; [|exact O5]. destruct R as (o4 & s4 & a6 & -> & D4 & R & O6).
  apply lrun_split in R; [|exact O6]. destruct R as (s5 & a7 & a8 & -> & R5 & R & O7 & O8).
  apply lrun_cons in R; [|exact O8]. destruct R as (o6 & s6 & a9 & -> & D6 & R & _). cbn [lrun] in R. apply pair_equal_spec in R. destruct R as [<- <-].
  destruct (init_inv E K _ _ _ _ V1 D1) as (S1 & C1 & W1 & X1 & _). destruct (X1 P1) as (KV1 & AM1 & CM1 & H1). clear X1.
  destruct (inits_run E K _ _ _ _ FI R2 O2) as (S2 & C2 & W2 & KV2 & AM2 & CM2 & H2).
  destruct (outs_run E L K _ _ _ _ FO R3 O4) as (S3 & C3 & KV3 & CM3 & LN3 & H3 & ds & shs & OP3 & AM3 & W3 & LS3 & AS3 & NS3).
  destruct (update_inv E L K _ _ _ _ VL D4) as (S4 & KV4 & AK & k & v & sh & OP4 & LN4 & H4 & AM4 & W4 & AS4 & NS4 & _ & X4). destruct (X4 ML) as (KV4' & CM4 & C4). clear X4.
  destruct (keys_run E K _ _ _ _ FK R5 O7) as (S5 & W5 & C5 & CM5 & LN5 & H5).
  destruct (fin_last_inv E K _ _ _ _ VF MF D6) as (S6 & W6 & C6 & OU & _).
  assert (SH : same E s s2) by (eapply same_trans; eassumption). assert (SH3 : same E s s3) by (eapply same_trans; eassumption).
  destruct SH as (_ & _ & B1 & B2 & B3 & B4). destruct SH3 as (_ & _ & B5 & B6 & B7 & B8).
  assert (CQ : sha K keyed = sha K committed).
  { assert (Q : l_commitment E s5 = keyed) by (rewrite CM5, CM4; reflexivity). assert (Q2 : l_commitment E s3 ++ out_commitment last_out = committed).
    { unfold committed, announced. rewrite CM3, CM2, CM1, map_app, concat_app. cbn [map concat]. rewrite app_nil_r. reflexivity. }
    rewrite <- Q, <- Q2. rewrite C5, C4 in C6. congruence. }
  split.
  { destruct (list_eq_dec Z.eq_dec keyed committed) as [Q|Q]; [left|right; split; [exact Q|exact CQ]].
    assert (F98 : Forall (fun k => length k = 32%nat) (map out_commitment announced)).
    { unfold out_commitment. apply (all32 announced 98). apply Forall_app. split; [eapply Forall_impl; [|exact LN3]; cbn beta; intros; lia|constructor; [lia|constructor]]. }
    destruct (concat32_inj (map (key_at 1) keys) (map out_commitment announced) [] []) as [Z0 _]; [apply all32; exact LN5|exact F98|cbn; lia|cbn; lia|rewrite !app_nil_r; exact Q|exact Z0]. }
  split.
  { exists (ds ++ [(AK, k, v)]), (shs ++ [sh]). split.
    { apply Forall2_app; [rewrite <- B3; exact OP3|]. constructor; [cbn [fst snd]; rewrite <- B7; exact OP4|constructor]. }
    split.
    { rewrite KV3, KV2, KV1 in KV4'. rewrite AM4, AM3, AM2, AM1 in KV4'. cbn [app] in KV4'. cbv zeta. rewrite map_app, concat_app. cbn [map concat fst snd]. rewrite app_nil_r.
      set (ch := concat _ ++ _) in *. destruct (list_eq_dec Z.eq_dec (l_amount E s) ch) as [Q|Q]; [left; exact Q|right; split; [exact Q|congruence]]. }
    split; [rewrite W6, W5, W4, W3, W2, W1, concat_app; cbn [concat]; rewrite app_nil_r, app_assoc; reflexivity|].
    intros M. change 1 with REAL in M. rewrite B4 in AS3. rewrite B1, B2 in AS3. rewrite B8, B5, B6 in AS4. unfold announced.
    assert (LD : length outs = length ds) by (clear - OP3; induction OP3; [reflexivity|cbn [length]; congruence]).
    assert (CC : forall (a : list lcmd) (b : list (list Z * Z * Z)) x y, length a = length b -> combine (a ++ [x]) (b ++ [y]) = combine a b ++ [(x, y)]).
    { clear. induction a as [|x a IH]; intros [|y b] u w H; try discriminate; [reflexivity|]. cbn [app combine]. rewrite IH by (cbn in H; lia). reflexivity. }
    rewrite CC by exact LD. apply Forall2_app; [apply AS3, M|]. constructor; [apply AS4, M|constructor]. }
  cbv zeta. replace (Ok o1 :: a2 ++ a4 ++ Ok o4 :: a7 ++ [Ok o6]) with ((Ok o1 :: a2 ++ a4 ++ Ok o4 :: a7) ++ [Ok o6]) by (cbn [app]; rewrite <- !app_assoc; reflexivity). rewrite last_last, OU. f_equal. f_equal. f_equal. f_equal. f_equal. f_equal.
  rewrite H5, H4, H3, H2, H1. cbn [map concat]. unfold announced. rewrite map_app, concat_app. cbn [map concat]. rewrite app_nil_r, <- !app_assoc. reflexivity.
Qed.
Print Assumptions C50_commitments_partial.

(** ** Arbitrary sequences *)
(** a device with the identity as SHA-256 (no collisions) and as cipher *)
Definition K0 : lite_prims := {| aes_enc := fun _ d _ => Ok d; aes_dec := fun _ d _ => Ok d; sha := fun x => x; read_uvarint := fun _ => Ok 0 |}.
Definition dev0 : lst toy := lite_new toy 11 22 [] (repeat 1 32).
Definition tp : ltape := {| t_scalar := 33; t_answer := true |}.
Definition cm (ins p1 p2 : Z) (input : list Z) : lcmd := {| c_tape := tp; c_ins := ins; c_p1 := p1; c_p2 := p2; c_input := input |}.
Definition sec0 : list Z := repeat 9 32.
Definition blinded_mask : list Z := enc_sc (sc_add 5 (hash_to_scalar toy sec0)).
Definition blinded_amount : list Z := enc_sc (sc_add 6 (hash_to_scalar toy (enc_sc (hash_to_scalar toy sec0)))).
Definition com0 : list Z := encp toy (commit toy 5 6).
Definition to_other : list Z := encp toy (scalarmult_base toy 100) ++ encp toy (scalarmult_base toy 200).
Definition blind_cmd := cm 0x78 0 0 (0 :: sec0 ++ enc_sc 5 ++ enc_sc 6).
Definition out_cmd := cm 0x7C 2 0 ([0; 0] ++ to_other ++ sec0 ++ com0 ++ blinded_mask ++ blinded_amount).
Definition init_cmd := cm 0x7C 1 1 [0; 1; 2; 3].
Definition key_cmd (k : list Z) := cm 0x7C 3 0 (128 :: k).
Definition end_cmd := cm 0x7C 3 0 (0 :: repeat 3 32 ++ repeat 4 32).
Definition okb {A} (r : res A) : bool := match r with Ok _ => true | Err _ => false end.
Lemma okb_all {A} (rs : list (res A)) : forallb okb rs = true -> Forall is_ok rs.
Proof. intros H. apply Forall_forall. intros r I. rewrite forallb_forall in H. specialize (H r I). destruct r as [x|e]; [exists x; reflexivity|discriminate]. Qed.

(** the hypotheses of the theorem are met by a session, in real mode *)
Definition session0 := [cm 0x72 0 0 [0; 1]; blind_cmd; init_cmd; out_cmd; key_cmd com0; end_cmd].
Example C50_session : Forall is_ok (snd (lrun toy K0 session0 dev0)) /\ validate 1 init_cmd /\ c_p2 init_cmd = 1 /\ validate 2 out_cmd /\ more out_cmd = false /\
  validate 3 (key_cmd com0) /\ more (key_cmd com0) = true /\ validate 3 end_cmd /\ more end_cmd = false /\ length (l_shown toy (fst (lrun toy K0 session0 dev0))) = 1%nat.
Proof.
  assert (V : forall c k, c_ins c = 0x7C -> c_p1 c = k -> validate k c) by (intros c k A B; split; assumption).
  split; [apply okb_all; vm_compute; reflexivity|]. split; [apply V; reflexivity|]. split; [reflexivity|]. split; [apply V; reflexivity|]. split; [reflexivity|]. split; [apply V; reflexivity|]. split; [reflexivity|]. split; [apply V; reflexivity|]. split; [reflexivity|].
  vm_compute. reflexivity.
Qed.

(** In other orders the device hashes commitments it never opened: a key sent before the outputs. *)
Theorem C50_unopened_refuted : exists cs, (forall a b, sha K0 a = sha K0 b -> a = b) /\ Forall is_ok (snd (lrun toy K0 cs dev0)) /\
  l_H toy (fst (lrun toy K0 cs dev0)) <> None /\
  exists c, In c cs /\ validate 3 c /\ more c = true /\ forall c', In c' cs -> validate 2 c' -> out_commitment c' <> key_at 1 c.
Proof.
  exists [blind_cmd; init_cmd; key_cmd (repeat 77 32); out_cmd; key_cmd (repeat 77 32); key_cmd com0; end_cmd]. split; [intros a b H; exact H|].
  split; [apply okb_all; vm_compute; reflexivity|]. split.
  - assert (H : match l_H toy (fst (lrun toy K0 [blind_cmd; init_cmd; key_cmd (repeat 77 32); out_cmd; key_cmd (repeat 77 32); key_cmd com0; end_cmd] dev0)) with None => false | _ => true end = true) by (vm_compute; reflexivity).
    intros Q. apply (f_equal (fun h => match h with None => false | _ => true end)) in Q. rewrite H in Q. discriminate.
  - exists (key_cmd (repeat 77 32)). split; [right; right; left; reflexivity|]. split; [split; reflexivity|]. split; [reflexivity|].
    intros c' I [V1 V2]. cbn [In] in I. destruct I as [<-|[<-|[<-|[<-|[<-|[<-|[<-|[]]]]]]]]; try discriminate V1; try discriminate V2. intros Q. apply (f_equal (fun k => zlist_eqb k (repeat 77 32))) in Q. vm_compute in Q. discriminate.
Qed.
Print Assumptions C50_unopened_refuted.

(** The prehash may be made in fake mode and signed in real mode: the user is never asked. *)
Theorem C50_unconfirmed_refuted : exists cs sign, Forall is_ok (snd (lrun toy K0 (cs ++ [sign]) dev0)) /\
  c_ins sign = 0x7E /\ c_p1 sign = 3 /\ l_mode toy (fst (lrun toy K0 cs dev0)) = 1 /\ l_shown toy (fst (lrun toy K0 (cs ++ [sign]) dev0)) = [] /\
  exists c P, In c cs /\ validate 2 c /\ decp toy (out_view c) = Ok P /\ P <> l_A toy dev0.
Proof.
  exists [cm 0x72 0 0 [0; 2]; blind_cmd; init_cmd; out_cmd; key_cmd com0; end_cmd; cm 0x72 0 0 [0; 1]; cm 0x7E 2 1 [0]], (cm 0x7E 3 0 (0 :: enc_sc 44 ++ enc_sc 55)).
  split; [apply okb_all; vm_compute; reflexivity|]. do 2 (split; [reflexivity|]). split; [vm_compute; reflexivity|]. split; [apply length_zero_iff_nil; vm_compute; reflexivity|].
  exists out_cmd, (scalarmult_base toy 100). split; [right; right; right; left; reflexivity|]. split; [split; reflexivity|]. split.
  - assert (Q : out_view out_cmd = encp toy (scalarmult_base toy 100)) by (vm_compute; reflexivity). rewrite Q. exact (law_dec toy toy_laws _).
  - intros Q. assert (Q2 : (v (scalarmult_base toy 100) =? v (l_A toy dev0)) = true) by (rewrite Q; apply Z.eqb_refl). vm_compute in Q2. discriminate.
Qed.
Print Assumptions C50_unconfirmed_refuted.

(** ** C66 *)
(** what the host computes from the answers to: hash, sign, hash, sign *)
Definition recover_secret (answers : list (res (Z * list Z))) : option Z :=
  match answers with
  | [Ok (_, c1); Ok (_, s1); Ok (_, c2); Ok (_, s2)] =>
      let n k := le_val 256 (firstn 32 k) in
      Some (sc_mul (sc_sub (n s1) (n s2)) (sc_inv (sc_sub (n c2) (n c1))))
  | _ => None
  end.
Lemma mlsag_hash_ok E (s0 : lst E) : Z.land (l_options E s0) 128 = 0 -> (32 <= length (l_in E s0))%nat ->
  exists s1 c, scalar c /\ mlsag_hash E 0 s0 = (s1, Ok SW_OK) /\ l_out E s1 = l_out E s0 ++ enc_sc c /\ l_mode E s1 = l_mode E s0 /\ l_key E s1 = l_key E s0 /\ l_c E s1 = Some c.
Proof.
  intros HO HI. unfold mlsag_hash. change (0 =? 1) with false. cbv iota. unfold mbind at 1. rewrite fetch_ok by exact HI.
  unfold mbind, upd, get, insert_sc, insert, upd, ret. sred. rewrite HO, Z.eqb_refl. eexists. exists (hash_to_scalar E (l_ctx_h E s0 ++ firstn 32 (l_in E s0))). split; [apply mod_scalar|]. split; [reflexivity|]. sred. auto 8.
Qed.
(** A secret kept under the session key is read off two signatures with the same encrypted nonce, for any two messages with different challenges. *)
Theorem C66_secret_refuted : forall E K (s : lst E) enc_x enc_alpha x alpha m1 m2 t,
  l_mode E s = 1 -> scalar x -> scalar alpha -> length enc_x = 32%nat -> length enc_alpha = 32%nat -> length m1 = 32%nat -> length m2 = 32%nat ->
  aes_dec K (l_key E s) enc_x (repeat 0 16) = Ok (enc_sc x) -> aes_dec K (l_key E s) enc_alpha (repeat 0 16) = Ok (enc_sc alpha) ->
  let hash_cmd m := {| c_tape := t; c_ins := 0x7E; c_p1 := 2; c_p2 := 0; c_input := 0 :: m |} in
  let sign_cmd := {| c_tape := t; c_ins := 0x7E; c_p1 := 3; c_p2 := 0; c_input := 0 :: enc_x ++ enc_alpha |} in
  let answers := snd (lrun E K [hash_cmd m1; sign_cmd; hash_cmd m2; sign_cmd] s) in
  recover_secret answers = Some x \/ nth 0 answers (Err OutOfFuel) = nth 2 answers (Err OutOfFuel).
Proof.
  intros E K s ex ea x alpha m1 m2 t HM HX HA Lx La L1 L2 Dx Da hash_cmd sign_cmd answers.
  assert (HC : forall m (s0 : lst E), length m = 32%nat -> exists s1 c, scalar c /\ dispatch E K (hash_cmd m) s0 = (s1, Ok (SW_OK, enc_sc c)) /\ l_mode E s1 = l_mode E s0 /\ l_key E s1 = l_key E s0 /\ l_c E s1 = Some c).
  { intros m s0 Lm. rewrite dispatch_eq by (cbn; lia). cbn [hash_cmd c_ins c_p1 c_p2 c_input c_tape nth skipn]. change (Z.land 0 255) with 0.
    match goal with |- context[command E K ?t 0x7E 2 0 ?n] => change (command E K t 0x7E 2 0 n) with (mlsag_hash E 0) end. match goal with |- context[mlsag_hash E 0 ?st] => destruct (mlsag_hash_ok E st) as (s1 & c & Hc & Hr & Ho & Hm & Hk & Hl); [reflexivity|sred; lia|] end.
    rewrite Hr. sred. rewrite Ho. cbn [app]. exists s1, c. auto 8. }
  assert (SC : forall (s0 : lst E) c, l_mode E s0 = 1 -> l_key E s0 = l_key E s -> l_c E s0 = Some c -> exists s1 u, dispatch E K sign_cmd s0 = (s1, Ok (SW_OK, enc_sc (sc_mulsub c x alpha) ++ u)) /\ l_mode E s1 = l_mode E s0 /\ l_key E s1 = l_key E s0).
  { intros s0 c M0 K1 C0. rewrite dispatch_eq by (cbn; lia). cbn [sign_cmd c_ins c_p1 c_p2 c_input c_tape nth skipn]. change (Z.land 0 255) with 0.
    match goal with |- context[command E K ?t 0x7E 3 0 ?n] => change (command E K t 0x7E 3 0 n) with (mlsag_sign E K) end. unfold mlsag_sign. unfold mbind at 1, get at 1. sred. rewrite M0. change (1 =? FAKE) with false. change (1 =? REAL) with true. cbv iota.
    unfold fetch_decrypt_sc. unfold mbind at 1. unfold mbind at 1. unfold mbind at 1.
    rewrite (decrypt_ok E K _ (enc_sc x)); [|sred; rewrite app_length; lia|sred; rewrite firstn_app, Lx, Nat.sub_diag, (firstn_all2 (n := 32) ex), app_nil_r by lia; rewrite K1; exact Dx].
    sred. unfold lift at 1. rewrite decodeint_enc0 by exact HX. unfold mbind at 1. unfold mbind at 1.
    rewrite (decrypt_ok E K _ (enc_sc alpha)); [|sred; rewrite skipn_length, app_length; lia|sred; rewrite skipn_app, Lx, Nat.sub_diag, (skipn_all2 (n := 32) ex) by lia; cbn [skipn app]; rewrite firstn_all2 by lia; rewrite K1; exact Da].
    sred. unfold lift at 1. rewrite decodeint_enc0 by exact HA. unfold ret at 1. unfold mbind at 1, get at 1. sred. rewrite C0. unfold mbind, insert_sc, insert_u32, insert, upd, ret. sred. cbn [app]. eexists. eexists. split; [reflexivity|]. sred. auto. }
  destruct (HC m1 s L1) as (s1 & c1 & N1 & D1 & M1 & K1 & C1). destruct (SC s1 c1) as (s2 & u1 & D2 & M2 & K2); [congruence|exact K1|exact C1|].
  destruct (HC m2 s2 L2) as (s3 & c2 & N2 & D3 & M3 & K3 & C2). destruct (SC s3 c2) as (s4 & u2 & D4 & M4 & K4); [congruence|congruence|exact C2|].
  unfold answers. cbn [lrun]. rewrite D1, D2, D3, D4. cbn [snd nth recover_secret]. rewrite !first32. cbn [fst snd].
  destruct (Z.eq_dec c1 c2) as [->|NE]; [right; reflexivity|left]. f_equal.
  rewrite (firstn_all2 (n := 32) (enc_sc c1)), (firstn_all2 (n := 32) (enc_sc c2)) by (rewrite enc_len; lia). rewrite !enc_sc_val by first [assumption|apply mod_scalar].
  set (dv := sc_sub c2 c1). assert (DV : dv * sc_inv dv == 1).
  { apply c_inv. unfold dv, sc_sub. rewrite Zmod_mod. intros Z0. apply Z.mod_divide in Z0; [|discriminate]. destruct Z0 as [q Hq]. unfold scalar in N1, N2. assert (q = 0) by nia. lia. }
  assert (Q : sc_mul (sc_sub (sc_mulsub c1 x alpha) (sc_mulsub c2 x alpha)) (sc_inv dv) == x).
  { set (iv := sc_inv dv) in *. clearbody iv. etransitivity; [apply c_mul|]. rewrite c_sub, !c_mulsub. transitivity (x * (dv * iv)); [|rewrite DV; apply cg_eq; ring]. unfold dv. rewrite c_sub. apply cg_eq. ring. }
  unfold cg in Q. rewrite !Z.mod_small in Q; [exact Q|exact HX|apply mod_scalar].
Qed.
Print Assumptions C66_secret_refuted.
Example C66_case : let sign := cm 0x7E 3 0 (0 :: enc_sc 44 ++ enc_sc 55) in
  recover_secret (snd (lrun toy K0 [cm 0x7E 2 0 (0 :: repeat 1 32); sign; cm 0x7E 2 0 (0 :: repeat 2 32); sign] (fst (lrun toy K0 [cm 0x72 0 0 [0; 1]] dev0)))) = Some 44.
Proof. vm_compute. reflexivity. Qed.
