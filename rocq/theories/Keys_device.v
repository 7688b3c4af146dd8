(** Which purpose key the device uses where. *)
From Verif Require Import Py PyLemmas Addr_model Signer_model Signer_spec Signer_base Signer_inv Signer_step Signer_inv2 Signer_inv3 Signer_props Signer_props2 Complete_proof1 KeySep_model Keys_spec.

Lemma mapM_at {A B} (f : A -> res B) l r : mapM f l = Ok r -> forall i a x, nth_error l i = Some a -> nth_error r i = Some x -> f a = Ok x.
Proof.
  revert r. induction l as [|y l IH]; intros r H i a x Ha Hx; [destruct i; discriminate|]. cbn [mapM] in H. bnd H z Hz. bnd H r' Hr. apply Ok_inj in H. subst r.
  destruct i as [|i]; cbn [nth_error] in Ha, Hx; [congruence|eauto].
Qed.

Section Device.
  Context {C : ops}.
  Lemma tag_of_tagged kh ke disc p (c : cfg C) i m tag : tag_of C kh disc i m = Ok tag -> c_key_hmac C c = kh -> c_key_enc C c = ke ->
    purpose_args kh ke p = (kh, disc) -> tagged C c p i m tag.
  Proof.
    unfold tag_of, tagged, purpose_key. intros H E1 E2 E. bnd H k Hk. apply Ok_inj in H. exists k. rewrite E1, E2, E. auto.
  Qed.
  Definition in_keys (c : cfg C) (i : Z) (a : input_ack) : Prop :=
    (exists s, dump_src (ia_src a) = Ok s /\ tagged C c HmacTxin i (cn_hash C (s ++ ia_vini a)) (ia_tag a)) /\
    tagged C c HmacTxinComm i (ia_pseudo a) (ia_pseudo_tag a) /\
    sealed C c EncTxinAlpha i (rndb (ia_tape a) 0) (enc_int C (rnd (ia_tape a) 0)) (ia_alpha_ct a) /\
    exists x, sealed C c EncSpend i (rndb (ia_tape a) 1) (enc_int C x) (ia_spend_ct a).
  Lemma vini_tagged (c : cfg C) src vini i tag : gen_hmac_vini C c src vini i = Ok tag ->
    exists s, dump_src src = Ok s /\ tagged C c HmacTxin i (cn_hash C (s ++ vini)) tag.
  Proof. unfold gen_hmac_vini. intros H. bnd H s Hs. exists s. split; [exact Hs|]. eapply tag_of_tagged; [exact H|reflexivity ..]. Qed.
  Lemma dst_tagged (c : cfg C) e i tag : gen_hmac_tsxdest C c e i = Ok tag ->
    exists s, dump_dst e = Ok s /\ tagged C c HmacTxdst i (cn_hash C s) tag.
  Proof. unfold gen_hmac_tsxdest. intros H. bnd H s Hs. exists s. split; [exact Hs|]. eapply tag_of_tagged; [exact H|reflexivity ..]. Qed.
  Lemma vouti_tagged (c : cfg C) e o i tag : gen_hmac_vouti C c e o i = Ok tag ->
    exists s, dump_dst e = Ok s /\ tagged C c HmacTxout i (cn_hash C (s ++ o)) tag.
  Proof. unfold gen_hmac_vouti. intros H. bnd H s Hs. exists s. split; [exact Hs|]. eapply tag_of_tagged; [exact H|reflexivity ..]. Qed.

  Lemma device_inputs cr t0 d r0 tr : session C cr t0 d r0 tr -> exists c extra, init_params C t0 cr d = Ok (c, extra) /\
    forall i a, nth_error (inputs tr) i = Some a -> in_keys c (Z.of_nat i) a.
  Proof.
    intros H. apply session_sess in H. destruct H as (b & H). pose proof (sess_in _ _ _ _ _ _ H) as (c & extra & Hp & _ & _ & _ & (I1 & _)).
    exists c, extra. split; [exact Hp|]. intros i a Hi. destruct (I1 i a Hi) as (?&?&?&?&?&xi&?&?&ka&ks&_&_&_&_&_&_&_&V&_&T&A&S&EA&ES).
    split; [apply vini_tagged, V|]. split; [eapply tag_of_tagged; [exact T|reflexivity ..]|]. split; [exists ka; split; [exact A|exact EA]|].
    exists xi, ks. split; [exact S|exact ES].
  Qed.
  Lemma device_signs cr t0 d r0 tr : session C cr t0 d r0 tr -> exists c extra, init_params C t0 cr d = Ok (c, extra) /\
    forall i s, nth_error (signs tr) i = Some s -> exists p j, In p (perms tr) /\ py_get p (Z.of_nat i) = Ok j /\
      (exists x, dump_src (sa_src s) = Ok x /\ tagged C c HmacTxin j (cn_hash C (x ++ sa_vini s)) (sa_tag s)) /\
      (exists a, unsealed C c EncTxinAlpha j (sa_alpha_ct s) a) /\
      (exists x real P, unsealed C c EncSpend j (sa_spend_ct s) x /\ py_get (se_outputs (sa_src s)) (se_real_output (sa_src s)) = Ok real /\
         dec_pt C (re_dest real) = Ok P /\ point_eqb C P (smul_base C (dec_int C x)) = true) /\
      (tagged C c HmacTxinComm j (sa_pseudo s) (sa_pseudo_tag s) \/ is_det_mask C c = true /\ j + 1 = c_input_count C c).
  Proof.
    intros H. apply session_sess in H. destruct H as (b & H). pose proof (sess_sign _ _ _ _ _ _ H) as (c & extra & Hp & _ & _ & Hph & (S & I1 & _)).
    exists c, extra. split; [exact Hp|]. intros i s Hi. destruct I1 as [Hl I1].
    destruct (nth_error S i) as [[[[j a0] a1] pc]|] eqn:E; [|apply nth_error_None in E; assert (i < length (signs tr))%nat by (apply nth_error_Some; congruence); lia].
    pose proof (I1 i s _ Hi E) as (Q1 & Q2 & (ka & ab & Q3 & Q4 & Q5) & Q6 & Q7 & (ks & sb & mask & real & P & Q & sd & R1 & R2 & R3 & R4 & R5 & R6 & _)).
    assert (Hs : signs tr <> []) by (intros X; rewrite X in Hi; destruct i; discriminate).
    assert (Hpm : In (b_perm C b) (perms tr)).
    { assert (Hsl : (0 < length (signs tr))%nat) by (destruct (signs tr); [congruence|cbn; lia]).
      clear - Hph Hsl. unfold phase, lens in Hph. destruct (b_state C b); try contradiction;
        repeat match goal with H : exists _, _ |- _ => destruct H as [? H] | H : _ /\ _ |- _ => destruct H end; try lia;
        match goal with H : perms tr = _ |- _ => rewrite H; left; reflexivity end. }
    exists (b_perm C b), j. split; [exact Hpm|]. split; [exact Q1|]. split; [apply vini_tagged, Q2|]. split; [exists ab, ka; split; [exact Q3|exact Q4]|].
    split. { exists sb, real, P. split; [exists ks; split; [exact R1|exact R2]|auto]. }
    destruct (is_det_mask C c && (j + 1 =? c_input_count C c)) eqn:Ed.
    - right. apply andb_prop in Ed. destruct Ed. split; [assumption|lia].
    - left. destruct Q6 as (_ & T & _). eapply tag_of_tagged; [exact T|reflexivity ..].
  Qed.
  Lemma device_dsts cr t0 d tags ofl tr : session C cr t0 d (RInit tags ofl) tr -> exists c extra, init_params C t0 cr d = Ok (c, extra) /\
    length tags = length (td_outputs d) /\
    forall i e tag, nth_error (td_outputs d) i = Some e -> nth_error tags i = Some tag ->
      exists s, dump_dst e = Ok s /\ tagged C c HmacTxdst (Z.of_nat i) (cn_hash C s) tag.
  Proof.
    intros H. apply session_sess in H. destruct H as (b & H). 
    assert (exists b0, init_transaction C t0 d (new_builder C cr) = Ok (b0, Some (RInit tags ofl))) as (b0 & Hi).
    { remember (RInit tags ofl) as r0. clear Heqr0. induction H; eauto. }
    apply init_inv in Hi. destruct Hi as (c & extra & v & u & n & rv & h & h' & tags' & sb & _ & Hp & _ & _ & _ & _ & _ & _ & Ht & Er & _).
    injection Er as <- _. exists c, extra. split; [exact Hp|]. pose proof (params_counts _ _ _ _ _ Hp) as (_ & P2 & _).
    assert (Hz : length (zrange (c_output_count C c)) = length (td_outputs d)) by (rewrite P2; pose proof (zlen_zrange (zlen (td_outputs d)) (zlen_nonneg _)) as X; unfold zlen in *; lia).
    split; [rewrite (mapM_ok_length _ _ _ Ht), combine_length, Hz; apply Nat.min_id|].
    intros i e tag He Htg. apply dst_tagged. pose proof (mapM_at _ _ _ Ht i (Z.of_nat i, e) tag) as X. cbv beta iota in X. apply X; [|exact Htg].
    assert (i < length (td_outputs d))%nat by (apply nth_error_Some; congruence).
    apply nth_combine; [|exact He]. rewrite nth_zrange; [reflexivity|]. rewrite P2. unfold zlen. lia.
  Qed.
  Lemma device_vouts cr t0 d r0 tr1 t dst tg rs ofl vout vtag ro mo pk ec tr2 :
    session C cr t0 d r0 (tr1 ++ (t, MSetOutput dst tg rs ofl, RSetOutput vout vtag ro mo pk ec) :: tr2) ->
    exists c extra e, init_params C t0 cr d = Ok (c, extra) /\ dst = Some e /\
      (exists s, dump_dst e = Ok s /\ tagged C c HmacTxdst (Z.of_nat (length (outputs tr1))) (cn_hash C s) tg /\
                 tagged C c HmacTxout (Z.of_nat (length (outputs tr1))) (cn_hash C (s ++ vout)) vtag) /\
      (is_det_mask C c = false -> Z.of_nat (length (outputs tr1)) + 1 < c_output_count C c ->
        exists k P, purpose_key C (c_key_hmac C c) (c_key_enc C c) OutMask (Some (Z.of_nat (length (outputs tr1)))) = Ok k /\
          pk = enc_pt C P ++ enc_pt C (gen_c C (dec_int C k) (de_amount e))).
  Proof.
    intros H. apply session_sess in H. destruct H as (b & H).
    destruct (sess_split _ _ _ _ _ _ _ _ _ _ H) as (b1 & b2 & H1 & _ & _ & Hst).
    pose proof (sess_phase _ _ _ _ _ _ H1) as (c & extra & Hp & Hc & _ & Hph). rewrite Hc in Hst.
    assert (exists e lm key akey mask, dst = Some e /\ (b_state C b1 = INPUT_ALL_DONE \/ b_state C b1 = OUTPUT) /\
      gen_hmac_tsxdest C c e (b_out_idx C b1 + 1) = Ok tg /\ gen_hmac_vouti C c e vout (b_out_idx C b1 + 1) = Ok vtag /\
      out_mask c (b_out_idx C b1 + 1) lm akey mask /\ pk = enc_pt C key ++ enc_pt C (gen_c C mask (de_amount e)))
      as (e & lm & key & akey & mask & -> & Hs & T1 & T2 & Hm & Epk).
    { inversion Hst. subst. do 5 eexists. split; [reflexivity|]. split; [eassumption|]. split; [eassumption|]. split; [eassumption|]. split; [eassumption|]. reflexivity. }
    destruct (phase_outputs _ _ _ _ Hph Hs) as (Hl & _). rewrite <- Hl in *.
    exists c, extra, e. split; [exact Hp|]. split; [reflexivity|]. split.
    - destruct (dst_tagged _ _ _ _ T1) as (s & Hd & X1). destruct (vouti_tagged _ _ _ _ _ T2) as (s' & Hd' & X2). rewrite Hd in Hd'. apply Ok_inj in Hd'. subst s'. eauto.
    - intros Hdet Hlt. unfold out_mask in Hm. rewrite Hdet in Hm. replace (Z.of_nat (length (outputs tr1)) + 1 <? c_output_count C c) with true in Hm by lia.
      unfold det_comm_masks in Hm. bnd Hm k Hk. apply Ok_inj in Hm. exists k, key. split; [exact Hk|]. rewrite Hm. exact Epk.
  Qed.
End Device.
