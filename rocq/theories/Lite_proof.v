(** Effects of the commands of the lite protocol. *)
From Verif Require Import Py PyLemmas Digits Ints_model Ec_model Ec_spec Ec_proof Mlsag_model Mlsag_spec Rsig_model Rsig_proof Container_model Lite_model Lite_spec KeySep_proof.
Ltac Zify.zify_post_hook ::= idtac.

Section LP.
Context (E : ecops) (L : ec_laws E) (K : lite_prims).
Local Notation lst := (lst E).

Lemma mbind_inv {A B} (e : m E A) (k : A -> m E B) s s' x : mbind E e k s = (s', Ok x) -> exists s1 y, e s = (s1, Ok y) /\ k y s1 = (s', Ok x).
Proof. unfold mbind. destruct (e s) as [s1 [y|r]]; [|discriminate]. intros H. exists s1, y. split; [reflexivity|exact H]. Qed.
Lemma fetch_inv n (s s' : lst) b : fetch E n s = (s', Ok b) -> (n <= length (l_in E s))%nat /\ s' = set_in E (skipn n (l_in E s)) s /\ b = firstn n (l_in E s).
Proof. unfold fetch. destruct (Nat.ltb_spec (length (l_in E s)) n) as [H|H]; [discriminate|]. intros Q. apply pair_equal_spec in Q. destruct Q as [Q1 Q2]. apply ok_inj in Q2. auto. Qed.
Lemma lift_inv {A} (r : res A) (s s' : lst) x : lift E r s = (s', Ok x) -> r = Ok x /\ s' = s.
Proof. unfold lift. intros Q. apply pair_equal_spec in Q. destruct Q; auto. Qed.
Lemma get_inv {A} (f : lst -> A) (s s' : lst) x : get E f s = (s', Ok x) -> x = f s /\ s' = s.
Proof. unfold get. intros Q. apply pair_equal_spec in Q. destruct Q as [? Q]. apply ok_inj in Q. auto. Qed.
Lemma upd_inv f (s s' : lst) x : upd E f s = (s', Ok x) -> s' = f s.
Proof. unfold upd. intros Q. apply pair_equal_spec in Q. destruct Q; auto. Qed.
Lemma ret_inv {A} (a : A) (s s' : lst) x : ret E a s = (s', Ok x) -> x = a /\ s' = s.
Proof. unfold ret. intros Q. apply pair_equal_spec in Q. destruct Q as [? Q]. apply ok_inj in Q. auto. Qed.
Lemma fail_inv {A} e (s s' : lst) (x : A) : fail E e s = (s', Ok x) -> False.
Proof. unfold fail. intros Q. apply pair_equal_spec in Q. destruct Q; discriminate. Qed.
End LP.
(** one step of a successful command *)
Ltac mstep H :=
  lazymatch type of H with
  | mbind _ _ _ _ = (_, Ok _) => let s1 := fresh "s" in let y := fresh "y" in let H1 := fresh "H" in apply mbind_inv in H; destruct H as (s1 & y & H1 & H)
  | fetch _ _ _ = (_, Ok _) => let Q := fresh "LEN" in apply fetch_inv in H; destruct H as (Q & -> & ->)
  | lift _ _ _ = (_, Ok _) => apply lift_inv in H; destruct H as [H ->]
  | get _ _ _ = (_, Ok _) => apply get_inv in H; destruct H as [-> ->]
  | upd _ _ _ = (_, Ok _) => apply upd_inv in H; subst
  | ret _ _ _ = (_, Ok _) => apply ret_inv in H; destruct H as [-> ->]
  | fail _ _ _ = (_, Ok _) => destruct (fail_inv _ _ _ _ _ H)
  end.
Ltac sred := cbn [l_a l_b l_A l_B l_address l_key l_options l_mode l_account l_r l_ctx_h l_H l_c l_amount l_KV l_commitment l_C l_in l_out l_shown
  set_a set_b set_options set_mode set_account set_r set_ctx_h set_H set_c set_amount set_KV set_commitment set_C set_in set_out set_shown fst snd] in *.
Section LQ.
Context (E : ecops) (L : ec_laws E) (K : lite_prims).
Local Notation lst := (lst E).

Lemma decodeint_32 b x : length b = 32%nat -> decodeint b = Ok x -> x = le_val 256 b mod l.
Proof.
  intros Hb. unfold decodeint, zlen. rewrite Hb. change (Z.of_nat 32 <? 32) with false. intros H. apply ok_inj in H. subst x.
  unfold dec_sc. rewrite firstn_all2 by lia. reflexivity.
Qed.
Lemma more_land x : Z.land (Z.land x 255) 128 = Z.land x 128.
Proof. rewrite <- Z.land_assoc. reflexivity. Qed.
Lemma fetch_u8_inv (s s' : lst) x : fetch_u8 E s = (s', Ok x) -> (1 <= length (l_in E s))%nat /\ s' = set_in E (skipn 1 (l_in E s)) s /\ x = Z.land (nth 0 (l_in E s) 0) 255.
Proof.
  unfold fetch_u8. intros H. mstep H. mstep H0. mstep H. split; [exact LEN|]. split; [reflexivity|]. destruct (l_in E s) as [|b r]; [cbn in LEN; lia|]. reflexivity.
Qed.
Lemma fetch_pt_inv (s s' : lst) x : fetch_pt E s = (s', Ok x) -> (32 <= length (l_in E s))%nat /\ s' = set_in E (skipn 32 (l_in E s)) s /\ decp E (firstn 32 (l_in E s)) = Ok x.
Proof. unfold fetch_pt. intros H. mstep H. mstep H0. mstep H. auto. Qed.
Lemma fetch_decrypt_inv (s s' : lst) x : fetch_decrypt E K s = (s', Ok x) -> (32 <= length (l_in E s))%nat /\ s' = set_in E (skipn 32 (l_in E s)) s /\ aes_dec K (l_key E s) (firstn 32 (l_in E s)) iv0 = Ok x.
Proof. unfold fetch_decrypt. intros H. mstep H. mstep H0. mstep H. mstep H0. mstep H. auto. Qed.
Lemma fetch_sc_inv (s s' : lst) x : fetch_sc E s = (s', Ok x) -> (32 <= length (l_in E s))%nat /\ s' = set_in E (skipn 32 (l_in E s)) s /\ x = le_val 256 (firstn 32 (l_in E s)) mod l.
Proof. unfold fetch_sc. intros H. mstep H. mstep H0. mstep H. split; [exact LEN|]. split; [reflexivity|]. apply decodeint_32; [|exact H]. rewrite firstn_length. lia. Qed.
End LQ.
Ltac mstep2 H :=
  lazymatch type of H with
  | fetch_u8 _ _ = (_, Ok _) => let Q := fresh "LEN" in apply fetch_u8_inv in H; destruct H as (Q & -> & ->)
  | fetch_pt _ _ = (_, Ok _) => let Q := fresh "LEN" in apply fetch_pt_inv in H; destruct H as (Q & -> & H)
  | fetch_decrypt _ _ _ = (_, Ok _) => let Q := fresh "LEN" in apply fetch_decrypt_inv in H; destruct H as (Q & -> & H)
  | fetch_sc _ _ = (_, Ok _) => let Q := fresh "LEN" in apply fetch_sc_inv in H; destruct H as (Q & -> & ->)
  | _ => mstep H
  end.
Ltac bn H X y := let s1 := fresh "s" in apply mbind_inv in H; destruct H as (s1 & y & X & H); mstep2 X; sred.
Ltac bs H X := let y := fresh "y" in bn H X y; try clear y.
Section LR.
Context (E : ecops) (L : ec_laws E) (K : lite_prims).
Local Notation lst := (lst E).
Lemma dispatch_inv c (s s' : lst) o : dispatch E K c s = (s', Ok o) ->
  (1 <= length (c_input c))%nat /\ exists sw, o = (sw, l_out E s') /\
  let s1 := set_options E (Z.land (nth 0 (c_input c) 0) 255) (set_in E (skipn 1 (c_input c)) (set_out E [] s)) in
  (validate 1 c -> mlsag_prehash_init E K (c_p2 c) s1 = (s', Ok sw)) /\
  (validate 2 c -> mlsag_prehash_update E K (c_tape c) s1 = (s', Ok sw)) /\
  (validate 3 c -> mlsag_prehash_finalize E K s1 = (s', Ok sw)).
Proof.
  unfold dispatch. destruct (sub_dispatch _ _ _ _ _ _ _ _) as [s1 [sw|e]] eqn:D; [|intros Q; apply pair_equal_spec in Q; destruct Q; discriminate].
  intros Q. apply pair_equal_spec in Q. destruct Q as [<- Q]. apply ok_inj in Q. subst o.
  unfold sub_dispatch in D. mstep2 D. mstep2 H. mstep2 D. mstep2 H. sred. split; [exact LEN|]. exists sw. split; [reflexivity|].
  unfold validate. split; [|split]; intros [E1 E2]; rewrite E1, E2 in D; exact D.
Qed.
(** frame: what the three commands never touch *)
Definition same (s s' : lst) : Prop := l_a E s' = l_a E s /\ l_b E s' = l_b E s /\ l_A E s' = l_A E s /\ l_B E s' = l_B E s /\ l_key E s' = l_key E s /\ l_mode E s' = l_mode E s.
Lemma init_inv c (s s' : lst) o : validate 1 c -> dispatch E K c s = (s', Ok o) -> same s s' /\ l_C E s' = l_C E s /\ l_shown E s' = l_shown E s /\
  (c_p2 c = 1 -> l_KV E s' = Some (sha K (l_amount E s)) /\ l_amount E s' = [] /\ l_commitment E s' = [] /\ l_ctx_h E s' = skipn 1 (c_input c)) /\
  (c_p2 c <> 1 -> l_KV E s' = l_KV E s /\ l_amount E s' = l_amount E s /\ l_commitment E s' = l_commitment E s /\ l_ctx_h E s' = l_ctx_h E s ++ skipn 1 (c_input c)).
Proof.
  intros V D. apply dispatch_inv in D. destruct D as (LEN & sw & -> & D & _). specialize (D V). unfold mlsag_prehash_init in D. cbv zeta in D. mstep2 D.
  destruct (Z.eqb_spec (c_p2 c) 1) as [P|P].
  - mstep2 H. sred. mstep2 D. mstep2 H. mstep2 D. mstep2 H. sred. rewrite Bool.andb_true_r in D. destruct (l_mode E s =? REAL).
    + mstep2 D. mstep2 H. mstep2 D. mstep2 H. mstep2 D. mstep2 H. mstep2 D. sred. unfold same. sred. split; [auto 10|]; do 2 (split; [reflexivity|]); split; intros Q; try contradiction; auto.
    + mstep2 D. sred. unfold same. sred. split; [auto 10|]; do 2 (split; [reflexivity|]); split; intros Q; try contradiction; auto.
  - mstep2 H. sred. mstep2 D. mstep2 H. mstep2 D. mstep2 H. sred. rewrite Bool.andb_false_r in D. mstep2 D. sred. unfold same. sred. split; [auto 10|]; do 2 (split; [reflexivity|]); split; intros Q; try contradiction; auto.
Qed.
Lemma skip_skip a n (x : list Z) : skipn a (skipn n x) = skipn (a + n) x.
Proof. revert x. induction n as [|n IH]; intros x; [rewrite Nat.add_0_r; reflexivity|]. rewrite Nat.add_succ_r. destruct x as [|b x]; [destruct a; reflexivity|]. cbn [skipn]. apply IH. Qed.
Lemma skip_keys n (x : list Z) : skipn 32 (skipn n x) = skipn (32 + n) x.
Proof. apply skip_skip. Qed.
Lemma update_inv c (s s' : lst) o : validate 2 c -> dispatch E K c s = (s', Ok o) -> same s s' /\ l_KV E s' = l_KV E s /\
  exists AK k v shown, opened E K (l_key E s) c AK k v /\ (194 <= length (c_input c))%nat /\
  l_ctx_h E s' = l_ctx_h E s ++ out_mask c ++ out_amount c /\ l_amount E s' = l_amount E s ++ AK ++ enc_sc k ++ enc_sc v /\
  l_shown E s' = l_shown E s ++ shown /\ (l_mode E s = REAL -> asked E (l_A E s) (l_B E s) c v shown) /\ (l_mode E s <> REAL -> shown = []) /\
  (more c = true -> l_C E s' = l_C E s /\ l_commitment E s' = l_commitment E s ++ out_commitment c) /\
  (more c = false -> l_KV E s = Some (sha K (l_amount E s')) /\ l_commitment E s' = [] /\ l_C E s' = Some (sha K (l_commitment E s ++ out_commitment c))).
Proof.
  intros V D. apply dispatch_inv in D. destruct D as (LEN & sw & -> & _ & D & _). specialize (D V). unfold mlsag_prehash_update in D. cbv zeta in D.
  bs D X1. bn D X2 Aout. bn D X3 Bout. bs D X4. bs D X5. bs D X6. bn D X7 AK. bs D X8. bs D X9. bs D X10. bs D X11. bs D X12. bn D X13 vk. destruct vk as [v k]. bs D X14. bn D X15 Cp.
  rewrite !skip_skip in *. cbn [Nat.add] in *. rewrite !skipn_length in *.
  apply mbind_inv in D. destruct D as (s1 & u1 & X16 & D). destruct (pt_eqb E _ Cp) eqn:PE; [|mstep2 X16]. mstep2 X16. apply (law_eqb E L) in PE.
  bs D X17. bs D X18. rewrite more_land in D. apply mbind_inv in D. destruct D as (s1 & u2 & X19 & D).
  assert (O : opened E K (l_key E s) c AK k v).
  { unfold unblind_int in X13. cbv zeta in X13. apply bind_ok_inv in X13. destruct X13 as (ks & Ek & X13). apply bind_ok_inv in X13. destruct X13 as (vs & Ev & X13). apply ok_inj in X13.
    apply pair_equal_spec in X13. destruct X13 as [Qv Qk]. apply decodeint_32 in Ek; [|rewrite firstn_length, skipn_length; lia]. apply decodeint_32 in Ev; [|rewrite firstn_length, skipn_length; lia].
    subst ks vs. split; [exact X7|]. split; [symmetry; exact Qk|]. split; [symmetry; exact Qv|]. unfold out_commitment, key_at. rewrite X15. f_equal. unfold commit, point_add, scalarmult_base, scalarmult_h.
    f_equal. f_equal. rewrite <- Qv. unfold sc_sub. apply Zmod_mod. }
  set (shown := if (l_mode E s =? REAL) && negb ((l_mode E s =? REAL) && pt_eqb E Aout (l_A E s) && pt_eqb E Bout (l_B E s)) then [(Aout, Bout, v, negb (Z.land (nth 1 (c_input c) 0) 255 =? 0))] else []).
  assert (N1 : nth 0 (skipn 1 (c_input c)) 0 = nth 1 (c_input c) 0) by (destruct (c_input c); reflexivity). rewrite N1 in D.
  assert (D' : exists sh, s' = set_shown E (l_shown E s1 ++ shown) s1 /\ sh = l_shown E s1).
  { unfold shown. clearbody shown. destruct ((l_mode E s =? REAL) && negb _) eqn:Q.
    - bs D X20. destruct (t_answer (c_tape c)); mstep2 D. exists (l_shown E s1). split; reflexivity.
    - mstep2 D. exists (l_shown E s1). split; [|reflexivity]. rewrite app_nil_r. destruct s1; reflexivity. }
  destruct D' as (_ & -> & _). clear D N1.
  assert (AS : l_mode E s = REAL -> asked E (l_A E s) (l_B E s) c v shown).
  { intros M. exists Aout, Bout. split; [exact X2|]. split; [exact X3|]. unfold shown. rewrite M. cbn [andb]. change (REAL =? REAL) with true. cbn [andb].
    destruct (pt_eqb E Aout (l_A E s)) eqn:Q1; [apply (law_eqb E L) in Q1|assert (N : Aout <> l_A E s) by (intros W; apply (law_eqb E L) in W; congruence)]; (destruct (pt_eqb E Bout (l_B E s)) eqn:Q2; [apply (law_eqb E L) in Q2|assert (N2 : Bout <> l_B E s) by (intros W; apply (law_eqb E L) in W; congruence)]); cbn [andb negb]; [left; auto|right|right|right]; (split; [tauto|reflexivity]). }
  assert (NS : l_mode E s <> REAL -> shown = []) by (intros M; unfold shown; rewrite (proj2 (Z.eqb_neq _ _) M); reflexivity). clearbody shown.
  assert (MC : more c = negb (Z.land (nth 0 (c_input c) 0) 128 =? 0)) by reflexivity.
  change MORE with 128 in X19. destruct (Z.land (nth 0 (c_input c) 0) 128 =? 0); cbn [negb] in MC.
  - bs X19 Y1. bs X19 Y2. destruct (l_KV E s) as [KV|] eqn:EKV; [|mstep2 X19]. destruct (zlist_eqb _ KV) eqn:ZE; [|mstep2 X19]. apply zlist_eqb_spec in ZE. mstep2 X19. sred. split; [unfold same; sred; auto 10|]. split; [exact EKV|].
    exists AK, k, v, shown. split; [exact O|]. split; [lia|]. rewrite <- !app_assoc. do 2 (split; [reflexivity|]). split; [reflexivity|]. split; [exact AS|]. split; [exact NS|]. split; [congruence|]. intros _. split; [rewrite <- ?app_assoc; reflexivity|]. split; reflexivity.
  - mstep2 X19. sred. split; [unfold same; sred; auto 10|]. split; [reflexivity|].
    exists AK, k, v, shown. split; [exact O|]. split; [lia|]. rewrite <- !app_assoc. do 2 (split; [reflexivity|]). split; [reflexivity|]. split; [exact AS|]. split; [exact NS|]. split; [auto|congruence].
Qed.
Lemma fin_more_inv c (s s' : lst) o : validate 3 c -> more c = true -> dispatch E K c s = (s', Ok o) -> same s s' /\ l_shown E s' = l_shown E s /\ l_C E s' = l_C E s /\ l_KV E s' = l_KV E s /\ l_amount E s' = l_amount E s /\
  (33 <= length (c_input c))%nat /\ l_ctx_h E s' = l_ctx_h E s ++ key_at 1 c /\ l_commitment E s' = l_commitment E s ++ key_at 1 c.
Proof.
  intros V M D. apply dispatch_inv in D. destruct D as (LEN & sw & -> & _ & _ & D). specialize (D V). unfold mlsag_prehash_finalize in D. cbv zeta in D. bs D X1. rewrite more_land in D. unfold more in M. rewrite M in D.
  bs D X2. bs D X3. bs D X4. mstep2 D. sred. rewrite skipn_length in *. unfold same. sred. split; [auto 10|]. do 4 (split; [reflexivity|]). split; [lia|]. split; reflexivity.
Qed.
Lemma fin_last_inv c (s s' : lst) o : validate 3 c -> more c = false -> dispatch E K c s = (s', Ok o) -> same s s' /\ l_shown E s' = l_shown E s /\
  l_C E s = Some (sha K (l_commitment E s)) /\ o = (SW_OK, hash E (key_at 1 c ++ hash E (l_ctx_h E s) ++ key_at 33 c)) /\ l_H E s' = Some (snd o).
Proof.
  intros V M D. apply dispatch_inv in D. destruct D as (LEN & sw & -> & _ & _ & D). specialize (D V). unfold mlsag_prehash_finalize in D. cbv zeta in D. bs D X1. rewrite more_land in D. unfold more in M. rewrite M in D.
  bs D X2. bs D X3. destruct (l_C E s) as [C|]; [|mstep2 D]. destruct (zlist_eqb _ C) eqn:ZE; [|mstep2 D]. apply zlist_eqb_spec in ZE. subst C.
  bs D X4. bs D X5. bs D X6. bs D X7. bs D X8. bs D X9. unfold insert in D. bs D X10. mstep2 D. sred. rewrite skip_skip. unfold same. sred. cbn [app]. split; [auto 10|]. split; [reflexivity|]. split; [reflexivity|]. split; reflexivity.
Qed.
End LR.
