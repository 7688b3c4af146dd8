(** Invariants of a session: the prefix hash context and the signatures. *)
From Verif Require Import Py PyLemmas Addr_model Lists_model Lists_spec Signer_model Signer_spec Signer_base Signer_inv Signer_step Signer_inv2.

Section Inv3.
  Context {C : ops}.

  (** ** Transaction prefix *)
  Definition inv_prefix (d : tsx_data) (c : cfg C) (extra : list Z) (tr : list event) (b : builder C) : Prop :=
    allouts tr = [] -> exists v u n m, uvarint 2 = Ok v /\ uvarint (td_unlock_time d) = Ok u /\ uvarint (c_input_count C c) = Ok n /\
      (outputs tr <> [] -> uvarint (c_output_count C c) = Ok m) /\
      b_prefix C b = Some (v ++ u ++ n ++ concat (map (fun x => snd (fst x)) (vinis tr)) ++
                           (match outputs tr with [] => [] | _ => m end) ++ concat (map oa_tx_out (outputs tr))).

  Lemma inv_prefix_frame d c extra tr e (b b' : builder C) : inv_prefix d c extra tr b -> outputs [e] = [] -> allouts [e] = [] -> vinis [e] = [] ->
    b_prefix C b' = b_prefix C b -> inv_prefix d c extra (tr ++ [e]) b'.
  Proof. intros H E1 E2 E3 E4. unfold inv_prefix. rewrite outputs_app, allouts_app, vinis_app, E1, E2, E3, !app_nil_r, E4. exact H. Qed.

  Lemma sess_prefix cr t0 d r0 tr b : sess cr t0 d r0 tr b -> exists c extra, init_params C t0 cr d = Ok (c, extra) /\ b_cfg C b = c /\ b_extra C b = extra /\
      phase (c_input_count C c) (c_output_count C c) tr b /\ inv_prefix d c extra tr b.
  Proof.
    revert tr b. apply sess_invariant.
    - intros c extra v u n rv h h' tags sb Ha Hp Hv Hu Hn Hrv Hh Hh' Ht Hr _. exists v, u, n, []. split; [exact Hv|]. split; [exact Hu|]. split; [exact Hn|].
      split; [intros X; now destruct X|]. cbn [vinis outputs flat_map map concat]. rewrite !app_nil_r. reflexivity.
    - intros c extra tr b t m r b' Hp Hs Hc He Hph H Hst.
      destruct Hst as [? ? ? ? ? ? ? ? ? ? ? ? ? ? ? ? S1 S2 S3 S4 S5 S6 S7 S8 S9 S10 S11 S12 S13 S14 Eb|? ? S1|? src vini tag idx p S1 S2 S3 S4 S5 S6|? ? ? S1 S2 S3
        |? dst tag rsig offl am' ms' fu out pr S1 S2 S3 S4 S5
        |? e tag rsig n am ms p1 key akey mask add der B lm ap aq ro mo vtag h4 h4' h5 am' ms' pr b1 b2 b3 b' S1 S2 S3 S4 S5 S6 S7 S8 S9 S10 S11 S12 S13 S14 S15 S16 S17 S18 S19 S20 S21 S22 Eb
        |? ? ? ? ? ? h0 ? ? S1 S2 S3 S4 S5 S6 S7 S8 S9 S10 S11 S12
        |? ? ? ? ? ? ? ? ? ? ? ? ? ? ? ? ? ? ? ? ? b' S1 S2 S3 S4 S5 S6 S7 S8 S9 S10 S11 S12 S13 S14 S15 S16 Eb|? ? ? ? S1]; cbv zeta in *.
      + destruct (b_inp_idx C b + 1 + 1 =? c_input_count C c); subst b'; (eapply inv_prefix_frame; [exact H|try reflexivity ..]).
      + (eapply inv_prefix_frame; [exact H|try reflexivity ..]).
      + destruct (phase_vinis _ _ _ _ Hph S2) as (_ & _ & Ho & Ha). unfold inv_prefix in *. hist. intros _. destruct (H Ha) as (v & u & n & m & F1 & F2 & F3 & F4 & F5).
        exists v, u, n, m. split; [exact F1|]. split; [exact F2|]. split; [exact F3|]. split; [exact F4|]. bsr.
        rewrite S5 in F5. apply Some_inj in F5. f_equal. rewrite F5, Ho. cbn [map concat app fst snd]. rewrite map_app, concat_app. cbn [map concat fst snd].
        rewrite !app_nil_r, <- !app_assoc. reflexivity.
      + (eapply inv_prefix_frame; [exact H|try reflexivity ..]).
      + (eapply inv_prefix_frame; [exact H|try reflexivity ..]). destruct dst; reflexivity.
      + destruct (phase_outputs _ _ _ _ Hph S2) as (Hl & _ & Ha & _). unfold inv_prefix in *. destruct (H Ha) as (v & u & n' & m & F1 & F2 & F3 & F4 & F5).
        hist. intros _. exists v, u, n', n. split; [exact F1|]. split; [exact F2|]. split; [exact F3|]. split; [intros _; exact S6|].
        assert (Ep : b_prefix C b' = Some (p1 ++ [0; 2] ++ enc_pt C key)) by (rewrite Eb; reflexivity). rewrite Ep. f_equal. clear Eb Ep S22 S21 S10.
        assert (p1 = v ++ u ++ n' ++ concat (map (fun x => snd (fst x)) (vinis tr)) ++ n ++ concat (map oa_tx_out (outputs tr))) as ->.
        { destruct (b_out_idx C b + 1 =? 0) eqn:E0.
          - destruct S9 as (p0 & Hp0 & ->). assert (outputs tr = []) as Eo by (apply length_zero_iff_nil; lia).
            rewrite Hp0, Eo in F5. apply Some_inj in F5. rewrite F5, Eo. cbn [map concat app]. now rewrite !app_nil_r, <- !app_assoc.
          - rewrite S9 in F5. apply Some_inj in F5. rewrite F5. destruct (outputs tr) as [|o os] eqn:Eo; [cbn in Hl; lia|]. rewrite S6 in F4. specialize (F4 ltac:(discriminate)).
            apply Ok_inj in F4. now subst. }
        rewrite map_app, concat_app. cbn [map concat oa_tx_out]. rewrite app_nil_r.
        replace (match outputs tr ++ _ with [] => [] | _ => n end) with n by (now destruct (outputs tr)). rewrite <- !app_assoc. reflexivity.
      + unfold inv_prefix. hist. intros X. now destruct (allouts tr).
      + destruct (b_inp_idx C b + 1 + 1 =? c_input_count C c); subst b'; (eapply inv_prefix_frame; [exact H|try reflexivity ..]).
      + (eapply inv_prefix_frame; [exact H|try reflexivity ..]).
  Qed.

  (** ** Signatures *)
  Definition sign_at (c : cfg C) (perm full : list Z) (last_amount i : Z) (s : sign_ack) (x : Z * Z * Z * pt C) : Prop :=
    let '(j, a0, a1, pc) := x in
    py_get perm i = Ok j /\ gen_hmac_vini C c (sa_src s) (sa_vini s) j = Ok (sa_tag s) /\
    (exists ka ab, build_key C (c_key_enc C c) d_txin_alpha (Some j) = Ok ka /\ aead_dec C ka (sa_alpha_ct s) = Ok ab /\ a0 = dec_int C ab) /\
    (if is_det_mask C c && (j + 1 =? c_input_count C c) then pc = gen_c C a1 last_amount
     else a1 = a0 /\ tag_of C (c_key_hmac C c) d_txin_comm j (sa_pseudo s) = Ok (sa_pseudo_tag s) /\ dec_pt C (sa_pseudo s) = Ok pc) /\
    sa_pseudo_out s = enc_pt C pc /\
    exists ks sb mask real P Q sd, build_key C (c_key_enc C c) d_txin_spend (Some j) = Ok ks /\ aead_dec C ks (sa_spend_ct s) = Ok sb /\
      se_mask (sa_src s) = Some mask /\ py_get (se_outputs (sa_src s)) (se_real_output (sa_src s)) = Ok real /\
      dec_pt C (re_dest real) = Ok P /\ point_eqb C P (smul_base C (dec_int C sb)) = true /\ dec_pt C (re_commitment real) = Ok Q /\
      point_eqb C Q (gen_c C (dec_int C mask) (se_amount (sa_src s))) = true /\
      mlsag_sign C full (se_outputs (sa_src s)) (dec_int C sb) (dec_int C mask) a1 pc (se_real_output (sa_src s)) sd = Ok (sa_sig s).

  Definition inv_sign (c : cfg C) (extra : list Z) (tr : list event) (b : builder C) : Prop :=
    exists S : list (Z * Z * Z * pt C),
      at_each2 (sign_at c (b_perm C b) (b_full_message C b) (b_input_last_amount C b)) (signs tr) S /\
      (zsum (map (fun x => snd (fst x)) S)) mod ell = (zsum (map (fun x => snd (fst (fst x))) S) + b_sumpouts C b - fold_left sc_add (alphas tr) 0) mod ell /\
      ((b_state C b = SIGNATURE_DONE \/ b_state C b = FINAL) -> b_sumpouts C b = b_sumout C b) /\
      (forall ex ph fee ty fm, allouts tr = [(ex, ph, fee, ty, fm)] -> b_full_message C b = fm).

  Lemma inv_sign_frame c extra tr e (b b' : builder C) : inv_sign c extra tr b -> signs [e] = [] -> allouts [e] = [] -> inputs [e] = [] ->
    (signs tr = [] \/ b_perm C b' = b_perm C b /\ b_full_message C b' = b_full_message C b /\ b_input_last_amount C b' = b_input_last_amount C b) ->
    b_sumpouts C b' = b_sumpouts C b -> (b_sumout C b' = b_sumout C b) \/ (b_state C b' <> SIGNATURE_DONE /\ b_state C b' <> FINAL) ->
    (b_state C b' = SIGNATURE_DONE \/ b_state C b' = FINAL -> b_state C b = SIGNATURE_DONE \/ b_state C b = FINAL) ->
    (allouts tr <> [] -> b_full_message C b' = b_full_message C b) ->
    inv_sign c extra (tr ++ [e]) b'.
  Proof.
    intros (S & A1 & A2 & A3 & A4) E1 E2 E3 E4 E5 E6 E7 E8. exists S. unfold alphas in *. rewrite signs_app, allouts_app, inputs_app, E1, E2, E3, !app_nil_r, E5.
    split. { destruct E4 as [E4|(-> & -> & ->)]; [|exact A1]. rewrite E4 in *. destruct A1 as [A1 _]. destruct S; [|discriminate]. apply at_each2_nil. }
    split; [exact A2|]. split. { intros X. destruct E6 as [->|[X1 X2]]; [|tauto]. auto. }
    intros ex ph fee ty fm X. rewrite E8 by (rewrite X; discriminate). eauto.
  Qed.

  Lemma mod_cong m a b : m <> 0 -> a mod m = b mod m -> exists k, a = b + k * m.
  Proof. intros Hm H. exists (a / m - b / m). pose proof (Z.div_mod a m Hm). pose proof (Z.div_mod b m Hm). nia. Qed.
  Lemma cong_mod m a b k : a = b + k * m -> a mod m = b mod m.
  Proof. intros ->. apply Z_mod_plus_full. Qed.
  Lemma mod_step X Y s F o a : X mod ell = (Y + s - F) mod ell ->
    (X + sc_add a (sc_sub o s)) mod ell = (Y + a + sc_add s (sc_sub o s) - F) mod ell.
  Proof.
    intros H. apply mod_cong in H; [|discriminate]. destruct H as [k ->]. unfold sc_add, sc_sub.
    rewrite (Z.mod_eq (o - s) ell) by discriminate. set (P := (o - s) / ell).
    rewrite (Z.mod_eq (a + _) ell), (Z.mod_eq (s + _) ell) by discriminate. set (Q := (a + _) / ell). set (R := (s + _) / ell). clearbody P Q R.
    apply (cong_mod _ _ _ (k - Q + R)). ring.
  Qed.
  Lemma sc_add_mod a b : sc_add a b mod ell = (a + b) mod ell.
  Proof. unfold sc_add. apply Z.mod_mod. discriminate. Qed.

  Lemma sess_sign cr t0 d r0 tr b : sess cr t0 d r0 tr b -> exists c extra, init_params C t0 cr d = Ok (c, extra) /\ b_cfg C b = c /\ b_extra C b = extra /\
      phase (c_input_count C c) (c_output_count C c) tr b /\ inv_sign c extra tr b.
  Proof.
    revert tr b. apply sess_invariant.
    - intros c extra v u n rv h h' tags sb Ha Hp Hv Hu Hn Hrv Hh Hh' Ht Hr. exists []. split; [apply at_each2_nil|]. split; [reflexivity|].
      split; [bsr; intros [X|X]; discriminate|]. discriminate.
    - intros c extra tr b t m r b' Hp Hs Hc He Hph H Hst.
      pose proof (sess_in _ _ _ _ _ _ Hs) as (c' & extra' & Hp' & Hc' & _ & _ & Hin).
      rewrite Hc in Hc'. rewrite <- Hc' in Hin. clear Hp' Hc'.
      destruct Hst as [? ? ? ? ? ? ? ? ? ? ? ? ? ? ? ? S1 S2 S3 S4 S5 S6 S7 S8 S9 S10 S11 S12 S13 S14 Eb|? ? S1|? src vini tag idx p S1 S2 S3 S4 S5 S6|? ? ? S1 S2 S3
        |? dst tag rsig offl am' ms' fu out pr S1 S2 S3 S4 S5
        |? e tag rsig n am ms p1 key akey mask add der B lm ap aq ro mo vtag h4 h4' h5 am' ms' pr b1 b2 b3 b' S1 S2 S3 S4 S5 S6 S7 S8 S9 S10 S11 S12 S13 S14 S15 S16 S17 S18 S19 S20 S21 S22 Eb
        |? ? ? ? ? ? h0 ? ? S1 S2 S3 S4 S5 S6 S7 S8 S9 S10 S11 S12
        |? src vini tag po ptag act sct j ka ab sp alpha' pc ks sb mask real P Q sg b' S1 S2 S3 S4 S5 S6 S7 S8 S9 S10 S11 S12 S13 S14 S15 S16 Eb|? ? ? ? S1]; cbv zeta in *.
      + destruct (phase_inputs _ _ _ _ Hph S1) as (_ & Hsg & _ & _ & Hal).
        destruct H as (S & A1 & A2 & A3 & A4). rewrite Hsg in A1. assert (S = []) as -> by (destruct A1 as [A1 _]; now destruct S).
        exists []. hist. rewrite Hsg, Hal. split; [apply at_each2_nil|].
        unfold alphas. hist. rewrite map_app, fold_left_app. cbn [map fold_left ia_tape zsum fold_right].
        destruct Hin as (_ & _ & Hso & _). rewrite (Hso Hsg) in Eb. 
        assert (Esp : b_sumpouts C b' = sc_add (fold_left sc_add (alphas tr) 0) (rnd t 0)) by (rewrite Eb; destruct (b_inp_idx C b + 1 + 1 =? c_input_count C c); reflexivity).
        assert (Est : b_state C b' <> SIGNATURE_DONE /\ b_state C b' <> FINAL) by (rewrite Eb; destruct (b_inp_idx C b + 1 + 1 =? c_input_count C c); split; discriminate).
        split; [rewrite Esp; f_equal; fold (alphas tr); lia|]. split; [tauto|]. discriminate.
      + eapply inv_sign_frame; [exact H|try reflexivity ..]; [|right; split; discriminate|bsr; intros [X|X]; discriminate].
        left. eapply phase_signs; [exact Hph|congruence ..].
      + eapply inv_sign_frame; [exact H|try reflexivity ..]; [|right; split; discriminate|bsr; intros [X|X]; discriminate].
        right. auto.
      + eapply inv_sign_frame; [exact H|try reflexivity ..]; [|right; split; discriminate|bsr; intros [X|X]; discriminate].
        right. auto.
      + eapply inv_sign_frame; [exact H|try reflexivity ..]; [|left; reflexivity|bsr; intros X; exact X]. right. auto.
      + assert (Ei : b_sumpouts C b' = b_sumpouts C b /\ b_state C b' = OUTPUT /\ b_perm C b' = b_perm C b /\ b_full_message C b' = b_full_message C b /\ b_input_last_amount C b' = b_input_last_amount C b).
        { rewrite Eb. bsr. rewrite S22. bsr. rewrite S21. bsr. rewrite S10. bsr. auto. }
        destruct Ei as (E1 & E2 & E3 & E4 & E5). clear Eb S22 S21 S10.
        eapply inv_sign_frame; [exact H|try reflexivity ..]; [right; auto|exact E1|right; rewrite E2; split; discriminate|rewrite E2; intros [X|X]; discriminate|intros _; exact E4].
      + destruct H as (S & A1 & A2 & A3 & A4). 
        assert (Hsg : signs tr = []) by (eapply phase_signs; [exact Hph|congruence ..]).
        rewrite Hsg in A1. assert (S = []) as -> by (destruct A1 as [A1 _]; now destruct S).
        exists []. unfold alphas in *. hist. rewrite Hsg. split; [apply at_each2_nil|]. bsr. split; [exact A2|]. split; [intros [X|X]; discriminate|].
        intros ex ph' fee ty fm' E. assert (Ha : allouts tr = []) by (unfold phase in Hph; rewrite S1 in Hph; destruct Hph as (? & Hph); tauto).
        rewrite Ha in E. cbn [app] in E. congruence.
      + destruct H as (S & A1 & A2 & A3 & A4).
        pose proof (phase_signing _ _ _ _ Hph S1) as Hl.
        assert (Ei : b_perm C b' = b_perm C b /\ b_full_message C b' = b_full_message C b /\ b_input_last_amount C b' = b_input_last_amount C b /\ b_sumpouts C b' = sp /\ b_sumout C b' = b_sumout C b /\
          (b_state C b' = SIGNATURE_DONE \/ b_state C b' = FINAL -> b_inp_idx C b + 1 + 1 = c_input_count C c)).
        { rewrite Eb. destruct (b_inp_idx C b + 1 + 1 =? c_input_count C c) eqn:En; bsr; repeat (split; [reflexivity|]); [|intros [X|X]; discriminate]. intros _. lia. }
        destruct Ei as (E1 & E2 & E3 & E4 & E5 & E6).
        exists (S ++ [(j, dec_int C ab, alpha', pc)]). unfold alphas in *. hist. rewrite E1, E2, E3, E4, E5.
        split. { apply at_each2_snoc; [exact A1|]. rewrite Hl. unfold sign_at. cbn [sa_src sa_vini sa_tag sa_pseudo sa_pseudo_tag sa_alpha_ct sa_spend_ct sa_sig sa_pseudo_out].
          split; [exact S3|]. split; [exact S4|]. split; [exists ka, ab; auto|]. split.
          { destruct (is_det_mask C c && (j + 1 =? c_input_count C c)); [tauto|]. tauto. }
          split; [reflexivity|]. exists ks, sb, mask, real, P, Q, (seed t). auto 12. }
        split. { rewrite !map_app. cbn [map fst snd]. rewrite !zsum_snoc.
          set (X := zsum (map (fun x : Z * Z * Z * pt C => snd (fst x)) S)) in *. set (Y := zsum (map (fun x : Z * Z * Z * pt C => snd (fst (fst x))) S)) in *.
          set (F := fold_left sc_add (map (fun a : input_ack => rnd (ia_tape a) 0) (inputs tr)) 0) in *. clearbody X Y F.
          destruct (is_det_mask C c && (j + 1 =? c_input_count C c)).
          - destruct S7 as (-> & -> & _ & _). now apply mod_step.
          - destruct S7 as (_ & _ & _ & -> & ->). rewrite Z.add_mod, A2, <- Z.add_mod by discriminate. f_equal. lia. }
        split. { intros X. specialize (E6 X). destruct (is_det_mask C c && (j + 1 =? c_input_count C c)); [tauto|].
          destruct S7 as (Y & _ & _ & _ & ->). auto. }
        exact A4.
      + eapply inv_sign_frame; [exact H|try reflexivity ..]; [right; auto|left; reflexivity|]. left. exact S1.
  Qed.
End Inv3.
