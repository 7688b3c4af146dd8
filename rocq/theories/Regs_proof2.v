(** Rounds of the inner product argument at the register level. *)
From Verif Require Import Py PyLemmas Digits Ints_model Primes KeySep_proof Clsag_proof Ec_model Ec_spec Ec_proof Mlsag_model Bp_model Bp_proof1 Keyv_model Keyv_spec Keyv_proof Keyv_proof2 Regs_model Regs_proof.
Ltac Zify.zify_post_hook ::= idtac.

Lemma pow2_blocks k : (2 ^ k <= 32 \/ (2 ^ k) mod 32 = 0)%nat.
Proof.
  destruct (Nat.leb_spec k 5) as [H|H].
  - left. change 32%nat with (2 ^ 5)%nat. apply Nat.pow_le_mono_r; [discriminate|exact H].
  - right. replace k with (5 + (k - 5))%nat by lia. rewrite Nat.pow_add_r, Nat.mul_comm. change (2 ^ 5)%nat with 32%nat. apply Nat.mod_mul. discriminate.
Qed.
Lemma pow2_pos k : (0 < 2 ^ k)%nat.
Proof. induction k as [|k IH]; cbn [Nat.pow]; lia. Qed.
Lemma two_pow k : 2 ^ Z.of_nat k = Z.of_nat (2 ^ k).
Proof. rewrite Nat2Z.inj_pow. reflexivity. Qed.
Lemma fold_scalars : forall xs ys a b, Forall scalar (scalar_fold xs ys a b).
Proof. unfold scalar_fold. induction xs as [|x xs IH]; intros [|y ys] a b; cbn [map2]; constructor; [apply n_add|apply IH]. Qed.
Lemma fold_length h xs a b : length xs = (2 * h)%nat -> length (scalar_fold (firstn h xs) (skipn h xs) a b) = h.
Proof. intros H. unfold scalar_fold. rewrite map2_length, firstn_length, skipn_length. lia. Qed.

Section Loop.
Context (E : ecops) (L : ec_laws E) (enc32 : forall P, length (encp E P) = 32%nat) (gs : gens E) (y : Z) (SY : scalar y).
Local Notation stands := (stands E gs y).
Local Notation ready := (ready y).

(** the state of the prover's buffers after [round] rounds, [k] still to come *)
Record rel (round k : nat) (m : mach E) (s : lstate E) : Prop := {
  r_a : holds (m_a E m) (map enc_sc (s_a E s)); r_b : holds (m_b E m) (map enc_sc (s_b E s));
  r_sa : Forall scalar (s_a E s); r_sb : Forall scalar (s_b E s);
  r_la : length (s_a E s) = (2 ^ k)%nat; r_lb : length (s_b E s) = (2 ^ k)%nat; r_lG : length (s_G E s) = (2 ^ k)%nat; r_lH : length (s_H E s) = (2 ^ k)%nat;
  r_G : stands (m_G E m) (s_G E s); r_H : stands (m_H E m) (s_H E s);
  r_hc : m_hc E m = enc_sc (s_hc E s);
  r_L : exists rest, holds (m_L E m) (s_L E s ++ rest) /\ length (s_L E s) = round /\ length rest = k;
  r_R : exists rest, holds (m_R E m) (s_R E s ++ rest) /\ length (s_R E s) = round /\ length rest = k;
  r_HR : match m_HR E m with
         | Some w => steady (m_G E m) = true /\ steady (m_H E m) = false /\ exists n pw, w = Scaled n pw true /\ stands w (s_H E s)
         | None => exists kG kH, m_G E m = Stored kG /\ m_H E m = Stored kH
         end }.

Lemma ready0 v : ready v 0.
Proof. destruct v; [exact I|exact I|left; reflexivity]. Qed.
Lemma stored_ready v n : steady v = true -> ready v n.
Proof. destruct v; [intros _; exact I|intros _; exact I|discriminate]. Qed.
Lemma inv8_key P : key (inv8 E P).
Proof. unfold key, inv8. apply enc32. Qed.

Lemma body_ok x round k m s : scalar x -> rel round (S k) m s ->
  match loop_body E x (2 ^ k) s with
  | Ok s' => exists m', body_code E gs (enc_sc x) (Z.of_nat round) (2 ^ Z.of_nat k) m = Ok m' /\ rel (S round) k m' s'
  | Err e => body_code E gs (enc_sc x) (Z.of_nat round) (2 ^ Z.of_nat k) m = Err e
  end.
Proof.
  intros SX [RA RB RSA RSB LA LB LG LH RG RH RHC (restL & HL & LL & LrL) (restR & HR & LR & LrR) RHR]. rewrite two_pow. set (h := (2 ^ k)%nat). assert (H0 : (0 < h)%nat) by apply pow2_pos.
  cbn [Nat.pow] in LA, LB, LG, LH. fold h in LA, LB, LG, LH. replace (h + (h + 0))%nat with (2 * h)%nat in * by lia. pose proof (pow2_blocks k) as H32. fold h in H32.
  unfold body_code. cbv zeta. replace (Z.of_nat h * 2) with (Z.of_nat (h + h)) by lia.
  set (a1 := firstn h (s_a E s)). set (a2 := skipn h (s_a E s)). set (e1 := firstn h (s_b E s)). set (e2 := skipn h (s_b E s)).
  set (G1 := firstn h (s_G E s)). set (G2 := skipn h (s_G E s)). set (H1 := firstn h (s_H E s)). set (H2 := skipn h (s_H E s)).
  assert (FA : firstn h a2 = a2) by (apply firstn_all2; unfold a2; rewrite skipn_length; lia). assert (FB : firstn h e2 = e2) by (apply firstn_all2; unfold e2; rewrite skipn_length; lia).
  assert (FG : firstn h G2 = G2) by (apply firstn_all2; unfold G2; rewrite skipn_length; lia). assert (FH : firstn h H2 = H2) by (apply firstn_all2; unfold H2; rewrite skipn_length; lia).
  unfold loop_body. fold a1 a2 e1 e2 G1 G2 H1 H2. cbv zeta. set (cL := inner_product 0 a1 e2). set (cR := inner_product 0 a2 e1).
  assert (SCL : scalar cL) by (apply n_ip, scalar_0). assert (SCR : scalar cR) by (apply n_ip, scalar_0).
  set (PL := vector_exponent E (pid E) G2 H1 a1 e2). set (PR := vector_exponent E (pid E) G1 H2 a2 e1).
  set (KL := inv8 E (point_add E PL (scalarmult E (Hb E) (sc_mul cL x)))). set (KR := inv8 E (point_add E PR (scalarmult E (Hb E) (sc_mul cR x)))).
  (* the two inner products *)
  destruct (ip_code_ok E (m_a E m) (s_a E s) (m_b E m) (s_b E s) 0 h h (h + h) (m_r E m) RA RB RSA RSB ltac:(lia) ltac:(lia) ltac:(lia) ltac:(lia) ltac:(lia)) as (r1 & E1). change (Z.of_nat 0) with 0 in E1. rewrite E1. cbn [bind]. clear E1.
  rewrite Nat.sub_0_r. change (skipn 0 (s_a E s)) with (s_a E s). fold a1 e2. rewrite FB. fold cL.
  destruct (ip_code_ok E (m_a E m) (s_a E s) (m_b E m) (s_b E s) h (h + h) 0 h r1 RA RB RSA RSB ltac:(lia) ltac:(lia) ltac:(lia) ltac:(lia) ltac:(lia)) as (r2 & E1). change (Z.of_nat 0) with 0 in E1. rewrite E1. cbn [bind]. clear E1.
  replace (h + h - h)%nat with h by lia. change (skipn 0 (s_b E s)) with (s_b E s). fold e1 a2. rewrite FA. fold cR.
  (* L *)
  assert (GS : steady (m_G E m) = true) by (destruct (m_HR E m); [tauto|destruct RHR as (kG & kH & -> & _); reflexivity]).
  destruct (vexp_code_ok E L gs y SY (s_G E s) (s_H E s) (m_a E m) (s_a E s) (m_b E m) (s_b E s) h 0 0 h h (m_G E m) (m_H E m) r2 RA RB RSA RSB ltac:(lia) ltac:(lia) ltac:(lia) ltac:(lia) RG RH (stored_ready _ _ GS) (ready0 _))
    as (G' & H' & r3 & E1 & EB & SG & SH & RdH & ScH & TG & TH & TH'). change (0 + h)%nat with h in E1, RdH. change (Z.of_nat 0) with 0 in E1. rewrite E1. clear E1. specialize (TG GS). subst G'.
  change (skipn 0 (s_H E s)) with (s_H E s) in EB. change (skipn 0 (s_a E s)) with (s_a E s) in EB. fold a1 e2 G2 H1 in EB. rewrite FG, FB in EB. fold PL in EB.
  destruct (close_ok E L cL x r3 PL SCL SX EB) as (r4 & -> & EK). cbn [bind]. fold KL in EK. rewrite EK.
  destruct restL as [|zL restL]; [discriminate|]. cbn [length] in LrL. destruct (kwrite _ _ _ _ KL HL (inv8_key _)) as (L1 & EW & HL1). rewrite LL in EW. rewrite EW. clear EW.
  (* R *)
  destruct (vexp_code_ok E L gs y SY (s_G E s) (s_H E s) (m_a E m) (s_a E s) (m_b E m) (s_b E s) 0 h h 0 h (m_G E m) H' r4 RA RB RSA RSB ltac:(lia) ltac:(lia) ltac:(lia) ltac:(lia) SG SH (ready0 _) RdH)
    as (G'' & H'' & r5 & E1 & EB2 & SG2 & SH2 & _ & _ & TG2 & TH2 & TH2'). change (0 + h)%nat with h in E1. change (Z.of_nat 0) with 0 in E1. rewrite E1. clear E1. specialize (TG2 GS). subst G''.
  change (skipn 0 (s_G E s)) with (s_G E s) in EB2. change (skipn 0 (s_b E s)) with (s_b E s) in EB2. fold a2 e1 G1 H2 in EB2. rewrite FA, FH in EB2. fold PR in EB2.
  destruct (close_ok E L cR x r5 PR SCR SX EB2) as (r6 & -> & EK2). cbn [bind]. fold KR in EK2. rewrite EK2.
  destruct restR as [|zR restR]; [discriminate|]. cbn [length] in LrR. destruct (kwrite _ _ _ _ KR HR (inv8_key _)) as (R1 & EW & HR1). rewrite LR in EW. rewrite EW. clear EW.
  (* the challenge *)
  rewrite (kto L1 _ round HL1) by (rewrite app_length; cbn [length]; lia). rewrite (kto R1 _ round HR1) by (rewrite app_length; cbn [length]; lia). cbn [bind].
  rewrite !app_nth2 by lia. rewrite LL, LR, Nat.sub_diag. cbn [nth]. unfold mash_code. cbv zeta. cbn [c1 set_c1]. rewrite RHC. fold (hash_to_scalar E (enc_sc (s_hc E s) ++ concat [KL; KR])). fold (mash E (s_hc E s) [KL; KR]).
  assert (SW : scalar (mash E (s_hc E s) [KL; KR])) by apply sc_rng. set (w := mash E (s_hc E s) [KL; KR]) in *. clearbody w. rewrite enc_sc_val by exact SW.
  destruct (guard (negb (w =? 0)) AttributeError) as [[]|e]; [|reflexivity]. cbn [bind]. unfold invert_code. cbv zeta. cbn [c1 c2 set_c1 set_c2]. rewrite enc_sc_val by exact SW. assert (SV : scalar (sc_inv w)) by apply n_inv. set (v := sc_inv w) in *. clearbody v.
  (* scalars folded *)
  match goal with |- context [sfold_code E (m_a E m) _ _ _ ?r] => destruct (sfold_code_ok E (m_a E m) (s_a E s) h w v r RA LA RSA SW SV H32) as (ka & r8 & -> & HA') end. cbn [bind].
  destruct (sfold_code_ok E (m_b E m) (s_b E s) h v w r8 RB LB RSB SV SW H32) as (kb & r9 & -> & HB'). cbn [bind].
  (* points folded *)
  assert (NK : holds (keyv_new (Z.of_nat h)) (repeat zero_key h)) by (pose proof (new_holds (Z.of_nat h) ltac:(lia)) as Q; rewrite Nat2Z.id in Q; exact Q).
  assert (FOLD : exists kG kH rG rH, hfold_code E gs (m_G E m) None (if match hand_over H' (m_HR E m) with Some _ => true | None => false end then Some (keyv_new (Z.of_nat h)) else None) (enc_sc v) (enc_sc w) (Z.of_nat h) r9 = Ok (Stored kG, rG) /\
            holds kG (map (encp E) (hadamard_fold E G1 G2 v w)) /\
            hfold_code E gs H'' (hand_over H' (m_HR E m)) (if match hand_over H' (m_HR E m) with Some _ => true | None => false end then Some (keyv_new (Z.of_nat h)) else None) (enc_sc w) (enc_sc v) (Z.of_nat h) rG = Ok (Stored kH, rH) /\
            holds kH (map (encp E) (hadamard_fold E H1 H2 w v))).
  { destruct (m_HR E m) as [wv|].
    - destruct RHR as (_ & HS & n & pw & -> & SWv). rewrite <- TH' in HS. destruct H' as [k1|n1 g1|n1 pl o1]; [discriminate|discriminate|]. cbn [hand_over].
      destruct (hfold_code_ok E L enc32 gs y SY (m_G E m) None (Some (keyv_new (Z.of_nat h))) (s_G E s) h v w r9 LG RG (ready0 _) SV SW H32) as (kG & rG & EG & HG).
      { split; [exact GS|]. exists (repeat zero_key h). split; [exact NK|apply repeat_length]. }
      destruct (hfold_code_ok E L enc32 gs y SY H'' (Some (Scaled n (kpow_set_state pw (kp_last pl) (kp_cur pl)) true)) (Some (keyv_new (Z.of_nat h))) (s_H E s) h w v rG LH SH2 (ready0 _) SW SV H32) as (kH & rH & EH & HH).
      { split; [|exists (repeat zero_key h); split; [exact NK|apply repeat_length]]. split; [|split; [|reflexivity]].
        - exact SWv.
        - destruct RdH as [Q|Q]; [lia|]. right. exact Q. }
      exists kG, kH, rG, rH. split; [exact EG|]. split; [exact HG|]. split; [exact EH|exact HH].
    - destruct RHR as (kG0 & kH0 & EG0 & EH0). replace (hand_over H' None) with (@None vec) by (destruct H'; reflexivity).
      destruct (hfold_code_ok E L enc32 gs y SY (m_G E m) None None (s_G E s) h v w r9 LG RG (ready0 _) SV SW H32) as (kG & rG & EG & HG); [exists kG0; exact EG0|].
      destruct (hfold_code_ok E L enc32 gs y SY H'' None None (s_H E s) h w v rG LH SH2 (ready0 _) SW SV H32) as (kH & rH & EH & HH).
      { exists kH0. rewrite TH2 by (rewrite TH', EH0; reflexivity). rewrite TH by (rewrite EH0; reflexivity). exact EH0. }
      exists kG, kH, rG, rH. split; [exact EG|]. split; [exact HG|]. split; [exact EH|exact HH]. }
  destruct FOLD as (kG & kH & rG & rH & EG & HG & EH & HH). rewrite EG. cbn [bind]. rewrite EH. cbn [bind]. eexists. split; [reflexivity|].
  constructor; cbn [m_a m_b m_G m_H m_hc m_L m_R m_HR s_a s_b s_G s_H s_hc s_L s_R].
  - exact HA'.
  - exact HB'.
  - apply fold_scalars.
  - apply fold_scalars.
  - apply fold_length, LA.
  - apply fold_length, LB.
  - apply had_length, LG.
  - apply had_length, LH.
  - exact HG.
  - exact HH.
  - reflexivity.
  - exists restL. split; [rewrite <- app_assoc; exact HL1|]. split; [rewrite app_length; cbn [length]; lia|lia].
  - exists restR. split; [rewrite <- app_assoc; exact HR1|]. split; [rewrite app_length; cbn [length]; lia|lia].
  - exists kG, kH. split; reflexivity.
Qed.

Lemma rounds_ok x : scalar x -> forall k round m s, rel round k m s ->
  match prove_loop E k x s with
  | Ok s' => exists m', rounds_code E gs k (Z.of_nat round) (enc_sc x) m = Ok m' /\ rel (round + k) 0 m' s'
  | Err e => rounds_code E gs k (Z.of_nat round) (enc_sc x) m = Err e
  end.
Proof.
  intros SX. induction k as [|k IH]; intros round m s R; cbn [prove_loop rounds_code].
  { exists m. rewrite Nat.add_0_r. split; [reflexivity|exact R]. }
  pose proof (body_ok x round k m s SX R) as B. destruct (loop_body E x (2 ^ k) s) as [s1|e]; [|rewrite B; reflexivity]. destruct B as (m1 & -> & R1). cbn [bind].
  replace (Z.of_nat round + 1) with (Z.of_nat (S round)) by lia. replace (round + S k)%nat with (S round + k)%nat by lia. apply IH. exact R1.
Qed.
End Loop.
