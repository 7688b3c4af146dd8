(** Induction over sessions of the signing protocol, and what each message does to
    the builder. *)
From Verif Require Import Py PyLemmas Addr_model Lists_model Lists_spec Signer_model Signer_spec.

Lemma Ok_inj {A} (a b : A) : Ok a = Ok b -> a = b.
Proof. now intros [= ->]. Qed.
Lemma pair_inj {A B} (a c : A) (b d : B) : (a, b) = (c, d) -> a = c /\ b = d.
Proof. now intros [= -> ->]. Qed.
Lemma Some_inj {A} (a b : A) : Some a = Some b -> a = b.
Proof. now intros [= ->]. Qed.

(** take one bind of [H] apart *)
Ltac bnd H v E := apply bind_ok_inv in H; destruct H as (v & E & H).
Ltac bnd_guard H E := let u := fresh in apply bind_ok_inv in H; destruct H as (u & E & H); apply guard_ok_inv in E; clear u.

(** attributes after attribute assignments *)
Ltac bsr := cbn [b_cfg b_state b_inp_idx b_out_idx b_processing_offloaded b_input_last_amount b_sum_in b_sum_out b_output_pk b_amounts b_masks b_last_mask b_sumout b_sumpouts b_subs b_extra b_perm b_prefix b_prefix_hash b_full b_full_message b_add_priv b_add_pub set_cfg set_state set_inp_idx set_out_idx set_processing_offloaded set_input_last_amount set_sum_in set_sum_out set_output_pk set_amounts set_masks set_last_mask set_sumout set_sumpouts set_subs set_extra set_perm set_prefix set_prefix_hash set_full set_full_message set_add_priv set_add_pub].
Ltac bsr_in H := cbn [b_cfg b_state b_inp_idx b_out_idx b_processing_offloaded b_input_last_amount b_sum_in b_sum_out b_output_pk b_amounts b_masks b_last_mask b_sumout b_sumpouts b_subs b_extra b_perm b_prefix b_prefix_hash b_full b_full_message b_add_priv b_add_pub set_cfg set_state set_inp_idx set_out_idx set_processing_offloaded set_input_last_amount set_sum_in set_sum_out set_output_pk set_amounts set_masks set_last_mask set_sumout set_sumpouts set_subs set_extra set_perm set_prefix set_prefix_hash set_full set_full_message set_add_priv set_add_pub] in H.
Ltac bsr_all := cbn [b_cfg b_state b_inp_idx b_out_idx b_processing_offloaded b_input_last_amount b_sum_in b_sum_out b_output_pk b_amounts b_masks b_last_mask b_sumout b_sumpouts b_subs b_extra b_perm b_prefix b_prefix_hash b_full b_full_message b_add_priv b_add_pub set_cfg set_state set_inp_idx set_out_idx set_processing_offloaded set_input_last_amount set_sum_in set_sum_out set_output_pk set_amounts set_masks set_last_mask set_sumout set_sumpouts set_subs set_extra set_perm set_prefix set_prefix_hash set_full set_full_message set_add_priv set_add_pub] in *.

Section Base.
  Context {C : ops}.

  Lemma transition_inv from to (b b' : builder C) : transition C from to b = Ok b' ->
    In (b_state C b) from /\ b' = set_state C to b.
  Proof.
    unfold transition. destruct (existsb _ _) eqn:E; cbn [guard bind]; [|discriminate]. intros [= <-]. split; [|reflexivity].
    apply existsb_exists in E. destruct E as (x & Hx & Ex). apply internal_tstate_dec_bl in Ex. now subst.
  Qed.
  Lemma prefix_add_inv bs (b b' : builder C) : prefix_add C bs b = Ok b' ->
    exists p, b_prefix C b = Some p /\ b' = set_prefix C (Some (p ++ bs)) b.
  Proof. unfold prefix_add. destruct (b_prefix C b); [|discriminate]. intros [= <-]. eauto. Qed.
  Lemma full_do_inv f (b b' : builder C) : full_do C f b = Ok b' ->
    exists h h', b_full C b = Some h /\ f h = Ok h' /\ b' = set_full C (Some h') b.
  Proof. unfold full_do. destruct (b_full C b) as [h|]; [|discriminate]. destruct (f h) as [h'|] eqn:E; cbn [bind]; [|discriminate]. intros [= <-]. eauto. Qed.

  (** ** init_transaction *)
  Lemma init_inv t d cr b' r : init_transaction C t d (new_builder C cr) = Ok (b', Some r) ->
    exists c extra v u n rv h h' tags subs, answer t = true /\ init_params C t cr d = Ok (c, extra) /\
      uvarint 2 = Ok v /\ uvarint (td_unlock_time d) = Ok u /\ uvarint (c_input_count C c) = Ok n /\
      get_rct_type C c = Ok rv /\ fh_init (c_use_simple C c) fh_new = Ok h /\
      fh_set_type_fee rv (get_fee C c) h = Ok h' /\
      mapM (fun '(idx, e) => gen_hmac_tsxdest C c e idx) (combine (zrange (c_output_count C c)) (td_outputs d)) = Ok tags /\
      r = RInit tags (c_rsig_offload C c) /\
      b' = set_subs C subs (set_full C (Some h') (set_prefix C (Some (v ++ u ++ n)) (set_cfg C c (set_extra C extra (set_state C INP_CNT (new_builder C cr)))))).
  Proof.
    unfold init_transaction. intros H. bnd H b1 H1. apply transition_inv in H1. destruct H1 as [_ ->].
    destruct (answer t) eqn:Ea; cbn [negb] in H; [|discriminate]. bnd H b2 H2. apply transition_inv in H2. destruct H2 as [_ ->].
    bnd H p H3. destruct p as [c extra]. bnd H v Hv. bnd H u Hu. bnd H n Hn. bnd H b4 H4. bnd H b5 H5. bnd H rv H6. bnd H b7 H7. bnd H tags H8.
    apply prefix_add_inv in H4. destruct H4 as (p & Hp & ->). apply Some_inj in Hp; subst p.
    apply full_do_inv in H5. destruct H5 as (h0 & h & Hh0 & Hh & ->). apply Some_inj in Hh0; subst h0.
    apply full_do_inv in H7. destruct H7 as (h1 & h' & Hh1 & Hh' & ->). apply Some_inj in Hh1; subst h1.
    apply Ok_inj in H. apply pair_inj in H. destruct H as [Hb Hr]. apply Some_inj in Hr; subst r.
    cbn [c_creds new_cfg b_cfg new_builder] in *.
    exists c, extra, v, u, n, rv, h, h', tags.
    exists (match td_account d with
            | Some a => match td_minor_indices d with
                        | [] => Some (subs_empty C)
                        | _ => Some (compute_subs C (view_priv C cr) (spend_pub C cr) a (td_minor_indices d)) end
            | None => Some (subs_empty C) end).
    split; [reflexivity|]. split; [exact H3|]. split; [exact Hv|]. split; [exact Hu|]. split; [exact Hn|]. split; [exact H6|]. split; [exact Hh|]. split; [exact Hh'|]. split; [exact H8|]. split; [reflexivity|]. subst b'. destruct (td_account d), (td_minor_indices d); reflexivity.
  Qed.

  (** ** set_input *)
  Lemma tsx_inputs_done_inv b b' : tsx_inputs_done C b = Ok b' -> b' = set_subs C None (set_state C INPUT_DONE b).
  Proof.
    unfold tsx_inputs_done. intros H. bnd H b3 H16. apply transition_inv in H16. destruct H16 as [_ E]. subst b3.
    bnd_guard H G3. apply Ok_inj in H. symmetry. exact H.
  Qed.
  Lemma set_input_inv t src b b' r : set_input C t src b = Ok (b', r) ->
    let c := b_cfg C b in let i := b_inp_idx C b + 1 in
    exists real out_key tx_key additional subs xi ki offsets vini tag pseudo_tag ka ks,
      (b_state C b = INP_CNT \/ b_state C b = INPUT) /\ i < c_input_count C c /\
      py_get (se_outputs src) (se_real_output src) = Ok real /\ dec_pt C (re_dest real) = Ok out_key /\
      dec_pt C (se_real_out_tx_key src) = Ok tx_key /\ mapM (dec_pt C) (se_additional src) = Ok additional /\
      b_subs C b = Some subs /\
      key_image_helper C (view_priv C (c_creds C c)) (spend_priv C (c_creds C c)) subs out_key tx_key additional
        (se_real_output_in_tx_index src) = Ok (xi, ki) /\
      offsets_to_relative (map re_idx (se_outputs src)) = Ok offsets /\
      dump_vini (if truthy (se_rct src) then 0 else se_amount src) offsets (enc_pt C ki) = Ok vini /\
      gen_hmac_vini C c src vini i = Ok tag /\
      tag_of C (c_key_hmac C c) d_txin_comm i (enc_pt C (gen_c C (rnd t 0) (se_amount src))) = Ok pseudo_tag /\
      build_key C (c_key_enc C c) d_txin_alpha (Some i) = Ok ka /\
      build_key C (c_key_enc C c) d_txin_spend (Some i) = Ok ks /\
      r = RSetInput vini tag (enc_pt C (gen_c C (rnd t 0) (se_amount src))) pseudo_tag
            (aead_enc C ka (rndb t 0) (enc_int C (rnd t 0))) (aead_enc C ks (rndb t 1) (enc_int C xi)) /\
      let b1 := set_sumpouts C (sc_add (b_sumpouts C b) (rnd t 0))
                  (set_sum_in C (b_sum_in C b + se_amount src) (set_inp_idx C i (set_state C INPUT b))) in
      b' = if i + 1 =? c_input_count C c
           then set_subs C None (set_state C INPUT_DONE (set_input_last_amount C (se_amount src) b1))
           else b1.
  Proof.
    intros H c i. unfold set_input in H. bnd H b1 H1. apply transition_inv in H1. destruct H1 as [Hs ->].
    cbn [In] in Hs. bnd_guard H G1. bnd_guard H G2. bnd H real H3. bnd H ok H4. bnd H tk H5. bnd H ad H6. bnd H sb H7.
    bnd H xk H8. destruct xk as [xi ki]. bnd H offs H9. bnd H vini H10. bnd H tag H11. bnd H ptag H12. bnd H ka H13. bnd H ks H14. bnd H b2 H15.
    apply Ok_inj in H. apply pair_inj in H. destruct H as [-> <-].
    bsr_all. fold c in H8, H11, H12, H13, H14, H15, G1. fold i in H11, H12, H13, H14, H15, G1.
    exists real, ok, tk, ad, sb, xi, ki, offs, vini, tag, ptag, ka, ks.
    split; [destruct Hs as [|[|[]]]; [left|right]; congruence|]. split; [lia|]. split; [exact H3|]. split; [exact H4|]. split; [exact H5|]. split; [exact H6|].
    split; [destruct (b_subs C b); congruence|].
    split; [exact H8|]. split; [exact H9|]. split; [exact H10|]. split; [exact H11|]. split; [exact H12|]. split; [exact H13|]. split; [exact H14|]. split; [reflexivity|].
    cbv zeta. destruct (i + 1 =? c_input_count C c).
    - apply tsx_inputs_done_inv in H15. exact H15.
    - apply Ok_inj in H15. symmetry. exact H15.
  Qed.

  Lemma inputs_permutation_inv p b b' r : inputs_permutation C p b = Ok (b', r) ->
    b_state C b = INPUT_DONE /\ r = RPerm /\ b' = set_inp_idx C (-1) (set_perm C p (set_state C INPUT_PERM b)).
  Proof.
    unfold inputs_permutation. intros H. bnd H b1 H1. apply transition_inv in H1. destruct H1 as [Hs ->].
    apply Ok_inj in H. apply pair_inj in H. destruct H as [<- <-]. cbn [In] in Hs. intuition congruence.
  Qed.

  Lemma input_vini_inv src vini tag b b' r : input_vini C src vini tag b = Ok (b', r) ->
    let c := b_cfg C b in let i := b_inp_idx C b + 1 in
    exists idx p, i <= c_input_count C c /\ (b_state C b = INPUT_PERM \/ b_state C b = INPUT_VINS) /\
      py_get (b_perm C b) i = Ok idx /\ gen_hmac_vini C c src vini idx = Ok tag /\ b_prefix C b = Some p /\
      c_use_bulletproof C c = true /\ r = RVini /\
      b' = set_prefix C (Some (p ++ vini)) (set_inp_idx C i (set_state C INPUT_VINS b)).
  Proof.
    intros H c i. unfold input_vini in H. bnd_guard H G1. bnd H b1 H1. apply transition_inv in H1. destruct H1 as [Hs ->].
    bnd H idx H2. bnd H comp H3. bnd_guard H G2. bnd H b2 H4. apply prefix_add_inv in H4. destruct H4 as (p & Hp & ->).
    bnd_guard H G3. apply Ok_inj in H. apply pair_inj in H. destruct H as [<- <-].
    bsr_all. cbn [In] in Hs. apply zlist_eqb_spec in G2. subst comp.
    exists idx, p. split; [subst c i; lia|]. split; [destruct Hs as [|[|[]]]; [left|right]; congruence|]. split; [exact H2|]. split; [exact H3|]. split; [exact Hp|]. split; [exact G3|]. split; reflexivity.
  Qed.
  (** ** all_in_set *)
  Lemma compute_masks_loop c (l : list Z) : forall b acc b' acc',
    foldM (fun '(b, masks) i =>
        let* (cur, b) := (if i + 1 =? c_output_count C c then
                            let cur := sc_sub (b_sumpouts C b) (b_sumout C b) in Ok (cur, set_last_mask C (Some cur) b)
                          else let* m := det_comm_masks C c i in Ok (m, b)) in
        let b := set_sumout C (sc_add (b_sumout C b) cur) b in
        Ok (b, masks ++ enc_int C cur)) l (b, acc) = Ok (b', acc') ->
    exists lm so, b' = set_sumout C so (set_last_mask C lm b).
  Proof.
    induction l as [|i l IH]; intros b acc b' acc' H; cbn [foldM] in H.
    - apply Ok_inj in H. apply pair_inj in H. destruct H as [<- _]. exists (b_last_mask C b), (b_sumout C b). now destruct b.
    - bnd H x H1. destruct x as [b1 acc1]. apply IH in H. destruct H as (lm & so & ->). bnd H1 y H2. destruct y as [cur b2].
      apply Ok_inj in H1. apply pair_inj in H1. destruct H1 as [<- _].
      assert (exists l', b2 = set_last_mask C l' b) as [l' ->].
      { destruct (i + 1 =? c_output_count C c).
        - apply Ok_inj in H2. apply pair_inj in H2. destruct H2 as [_ <-]. eauto.
        - bnd H2 m H3. apply Ok_inj in H2. apply pair_inj in H2. destruct H2 as [_ <-]. exists (b_last_mask C b). now destruct b. }
      exists lm, so. now destruct b.
  Qed.
  Lemma compute_masks_inv b b' o : compute_masks C b = Ok (b', o) ->
    exists lm, b' = set_sumout C 0 (set_last_mask C lm b).
  Proof.
    unfold compute_masks. intros H. bnd H x H1. destruct x as [b1 ms]. bnd_guard H G. apply Ok_inj in H. apply pair_inj in H. destruct H as [<- _].
    apply compute_masks_loop in H1. destruct H1 as (lm & so & ->). exists lm. now destruct b.
  Qed.
  Lemma all_in_set_inv b b' r : all_in_set C b = Ok (b', r) ->
    exists o lm, b_state C b = INPUT_VINS /\ r = RAllIn o /\
      b' = set_sumout C 0 (set_last_mask C lm (set_state C INPUT_ALL_DONE b)) /\
      (is_det_mask C (b_cfg C b) = true -> lm = b_last_mask C b) /\
      (is_det_mask C (b_cfg C b) = false -> compute_masks C (set_sumout C 0 (set_state C INPUT_ALL_DONE b)) = Ok (b', o)).
  Proof.
    unfold all_in_set. intros H. bnd H b1 H1. apply transition_inv in H1. destruct H1 as [Hs E]. subst b1. cbn [In] in Hs. bsr_in H.
    destruct (is_det_mask C (b_cfg C b)) eqn:D.
    - apply Ok_inj in H. apply pair_inj in H. destruct H as [<- <-]. exists None, (b_last_mask C b).
      split; [intuition congruence|]. split; [reflexivity|]. split; [now destruct b|]. split; [reflexivity|discriminate].
    - bnd H x H1. destruct x as [b2 o]. apply Ok_inj in H. apply pair_inj in H. destruct H as [E <-]. subst b2. exists o.
      destruct (compute_masks_inv _ _ _ H1) as [lm E]. exists lm.
      split; [intuition congruence|]. split; [reflexivity|]. split; [rewrite E; now destruct b|]. split; [discriminate|]. intros _. exact H1.
  Qed.

  (** ** set_output *)
  Lemma s6_validate_inv dst tag offl b b1 dst' : s6_validate C dst tag offl b = Ok (b1, dst') ->
    let c := b_cfg C b in b_inp_idx C b + 1 = c_input_count C c /\
    match dst' with
    | Some e => dst = Some e /\ offl = false /\ (b_state C b = INPUT_ALL_DONE \/ b_state C b = OUTPUT) /\
        0 <= de_amount e /\ b_out_idx C b + 1 < c_output_count C c /\
        gen_hmac_tsxdest C c e (b_out_idx C b + 1) = Ok tag /\
        b1 = set_state C OUTPUT (set_out_idx C (b_out_idx C b + 1) (set_processing_offloaded C false b))
    | None => is_det_mask C c = true /\ b_out_idx C b < c_output_count C c /\
        (c_rsig_offload C c = true \/ b_processing_offloaded C b = true) /\ b1 = set_processing_offloaded C true b
    end.
  Proof.
    intros H c. unfold s6_validate in H. bnd_guard H G1. bnd H b2 H2. bnd H b3 H3. bnd_guard H G2. bnd_guard H G3. bnd_guard H G4. bnd_guard H G5. fold c in G1, H2, G5, H, G3, G4.
    assert (E2 : b2 = set_processing_offloaded C (b_processing_offloaded C b2) b /\ (b_processing_offloaded C b2 = false -> offl = false) /\
       (b_processing_offloaded C b2 = true -> c_rsig_offload C c = true \/ b_processing_offloaded C b = true)).
    { destruct (is_det_mask C c && c_rsig_offload C c) eqn:D.
      - bnd H2 bidx Hb. bnd H2 lst Hl. bnd_guard H2 G6. apply Ok_inj in H2. subst b2. split; [now destruct b|]. split; [intros Hx; exact Hx|]. apply andb_prop in D. intros _. left. exact (proj2 D).
      - apply Ok_inj in H2. subst b2. split; [now destruct b|]. split; [destruct offl, (is_det_mask C c), (c_rsig_offload C c); cbn in *; congruence|]. intros Hx. right. exact Hx. }
    destruct E2 as (E2 & Ho & Ho'). remember (b_processing_offloaded C b2) as x. clear H2.
    destruct x; cbn [negb] in H3.
    - apply Ok_inj in H3. subst b3. rewrite <- Heqx in *. cbn [negb] in H. apply Ok_inj in H. apply pair_inj in H. destruct H as [<- <-].
      split; [subst b2; apply Z.eqb_eq in G3; exact G3|]. split; [destruct (is_det_mask C c); [reflexivity|discriminate]|].
      split; [subst b2; apply Z.ltb_lt in G4; exact G4|]. split; [apply Ho'; reflexivity|exact E2].
    - apply transition_inv in H3. destruct H3 as [Hs ->].
      change (b_processing_offloaded C (set_state C OUTPUT (set_out_idx C (b_out_idx C b2 + 1) b2))) with (b_processing_offloaded C b2) in H.
      rewrite <- Heqx in H. cbn [negb] in H. destruct dst as [e|]; [|discriminate]. bnd H comp H4. bnd_guard H G6. apply Ok_inj in H. apply pair_inj in H. destruct H as [<- <-].
      subst b2. apply zlist_eqb_spec in G6. subst comp.
      split; [apply Z.eqb_eq in G3; exact G3|]. split; [reflexivity|]. split; [now apply Ho|].
      split; [cbn [In] in Hs; destruct Hs as [Hs|[Hs|[]]]; bsr_in Hs; [left|right]; now symmetry|].
      split; [now apply Z.leb_le in G2|]. split; [apply Z.ltb_lt in G4; exact G4|]. split; [exact H4|]. reflexivity.
  Qed.
  (** the mask of an output (tsx_sign_builder.py:1006-1022): deterministic from the amount
      key, or derived per index, or the balancing one *)
  Definition out_mask (c : cfg C) (i : Z) (last : option Z) (amount_key : Z) (mask : Z) : Prop :=
    if is_det_mask C c then mask = commitment_mask C (enc_int C amount_key)
    else if i + 1 <? c_output_count C c then det_comm_masks C c i = Ok mask
    else last = Some mask.
  Lemma s6_tx_keys_inv t e b b' key akey mask : s6_tx_keys C t e b = Ok (b', key, akey, mask) ->
    let c := b_cfg C b in
    exists ap aq lm masks add der B,
      s6_additional_keys C t e b = Ok (set_add_pub C aq (set_add_priv C ap b), add) /\
      s6_derivation C e add b = Ok der /\ dec_pt C (spend_public_key (de_addr e)) = Ok B /\
      key = derive_pub C der (b_out_idx C b) B /\ akey = derivation_to_sc C der (b_out_idx C b) /\
      out_mask c (b_out_idx C b) (b_last_mask C b) akey mask /\
      lm = (if is_det_mask C c || (b_out_idx C b + 1 <? c_output_count C c) then b_last_mask C b else None) /\
      b_masks C b = Some masks /\
      b' = set_masks C (Some (masks ++ [mask])) (set_last_mask C lm (set_add_pub C aq (set_add_priv C ap b))).
  Proof.
    intros H c. unfold s6_tx_keys in H. bnd H x H1. destruct x as [b1 add].
    assert (exists ap aq, b1 = set_add_pub C aq (set_add_priv C ap b)) as (ap & aq & E).
    { unfold s6_additional_keys in H1. destruct (negb _) in H1.
      - apply Ok_inj in H1. apply pair_inj in H1. destruct H1 as [<- _]. exists (b_add_priv C b), (b_add_pub C b). now destruct b.
      - bnd H1 K HK. apply Ok_inj in H1. apply pair_inj in H1. destruct H1 as [<- _]. exists (b_add_priv C b ++ [rnd t 0]), (b_add_pub C b ++ [enc_pt C K]). now destruct b. }
    subst b1. bnd H der H2. bnd H B H3. bsr_in H. bnd H y H4. destruct y as [mk b2]. bnd H ms H5. apply Ok_inj in H.
    apply pair_inj in H. destruct H as [H <-]. apply pair_inj in H. destruct H as [H <-]. apply pair_inj in H. destruct H as [<- <-].
    fold c in H4.
    exists ap, aq, (if is_det_mask C c || (b_out_idx C b + 1 <? c_output_count C c) then b_last_mask C b else None), ms, add, der, B.
    assert (E2 : b2 = set_last_mask C (if is_det_mask C c || (b_out_idx C b + 1 <? c_output_count C c) then b_last_mask C b else None)
                   (set_add_pub C aq (set_add_priv C ap b)) /\ out_mask c (b_out_idx C b) (b_last_mask C b) (derivation_to_sc C der (b_out_idx C b)) mk).
    { unfold out_mask. destruct (is_det_mask C c); cbn [orb].
      - apply Ok_inj in H4. apply pair_inj in H4. destruct H4 as [<- <-]. split; [now destruct b|reflexivity].
      - destruct (_ <? _).
        + bnd H4 m H6. apply Ok_inj in H4. apply pair_inj in H4. destruct H4 as [<- <-]. split; [now destruct b|assumption].
        + destruct (b_last_mask C b) as [m|]; [|discriminate]. apply Ok_inj in H4. apply pair_inj in H4. destruct H4 as [<- <-]. split; [reflexivity|reflexivity]. }
    destruct E2 as [-> Hm]. bsr_in H5. destruct (b_masks C b) as [l|]; [|discriminate]. apply Ok_inj in H5. subst l.
    split; [exact H1|]. split; [exact H2|]. split; [exact H3|]. split; [reflexivity|]. split; [reflexivity|]. split; [exact Hm|]. split; [reflexivity|]. split; reflexivity.
  Qed.

  (** how the proof of a batch came about: made on the device or checked *)
  Inductive bp_ok (c : cfg C) (t : tape) (rsig : option (list Z)) (amounts masks : list Z) (p : bp C) (out : option (list Z)) : Prop :=
  | bp_made bytes : c_rsig_offload C c = false -> prove_bp C amounts masks (seed t) = Ok p ->
      dump_rsig_bp C p = Ok bytes -> out = Some bytes -> bp_ok c t rsig amounts masks p out
  | bp_checked bytes : c_rsig_offload C c = true -> rsig = Some bytes -> parse_bp C bytes = Ok p ->
      verify_bp C p amounts masks = Ok true -> out = None -> bp_ok c t rsig amounts masks p out.

  Lemma s6_range_proof_inv t rsig mask b b' out mo : s6_range_proof C t rsig mask b = Ok (b', out, mo) ->
    let c := b_cfg C b in
    exists bidx last, get_rsig_batch (c_rsig_grp C c) (b_out_idx C b) = Ok bidx /\
      is_last_in_batch (c_rsig_grp C c) (b_out_idx C b) bidx = Ok last /\
      ((last = false \/ c_rsig_offload C c && is_det_mask C c && negb (b_processing_offloaded C b) = true) /\
         out = None /\ b' = b \/
       exists amounts masks p h h', last = true /\ (c_rsig_offload C c && is_det_mask C c && negb (b_processing_offloaded C b) = false) /\
         b_amounts C b = Some amounts /\ b_masks C b = Some masks /\
         b_full C b = Some h /\ fh_rsig_val C p h = Ok h' /\ bp_ok c t rsig amounts masks p out /\
         let rest := if (b_out_idx C b + 1 =? c_output_count C c) && (negb (c_rsig_offload C c) || b_processing_offloaded C b) then None else Some [] in
         b' = set_amounts C rest (set_masks C rest (set_full C (Some h') b))).
  Proof.
    intros H c. unfold s6_range_proof in H. fold c in H. bnd_guard H G1. bnd H bidx Hb. bnd H lst Hl. bnd_guard H G2. bnd_guard H G3.
    exists bidx, lst. split; [exact Hb|]. split; [exact Hl|].
    destruct lst; cbn [negb] in H; cycle 1.
    { left. apply Ok_inj in H. apply pair_inj in H. destruct H as [H _]. apply pair_inj in H. destruct H as [<- <-]. auto. }
    bnd H x H1. destruct x as [b1 o1]. apply Ok_inj in H. apply pair_inj in H. destruct H as [H _]. apply pair_inj in H. destruct H as [H <-].
    destruct (c_rsig_offload C c) eqn:Eo; cbn [negb] in H1.
    - destruct (is_det_mask C c && negb (b_processing_offloaded C b)) eqn:Ed.
      + left. apply Ok_inj in H1. apply pair_inj in H1. destruct H1 as [<- <-]. split; [right; now rewrite <- andb_assoc|]. split; [reflexivity|].
        cbn [negb orb] in H. apply andb_prop in Ed. destruct Ed as [_ Ed]. apply negb_true_iff in Ed. rewrite Ed, andb_false_r in H. now symmetry.
      + right. destruct rsig as [bytes|]; [|discriminate]. bnd H1 b2 H2. apply Ok_inj in H1. apply pair_inj in H1. destruct H1 as [<- <-].
        unfold s6_process_bp in H2. bnd H2 p Hp. bnd H2 b3 H3. apply full_do_inv in H3. destruct H3 as (h & h' & Hh & Hv & ->). bsr_in H2.
        destruct (b_amounts C b) as [am|] eqn:Ea; [|discriminate]. destruct (b_masks C b) as [ms|] eqn:Em; [|discriminate].
        bnd H2 ok Hok. bnd_guard H2 Gk. subst ok. apply Ok_inj in H2. exists am, ms, p, h, h'.
        split; [reflexivity|]. split; [now rewrite <- andb_assoc|]. split; [reflexivity|]. split; [reflexivity|]. split; [exact Hh|]. split; [exact Hv|].
        split; [eapply bp_checked; eauto|]. cbv zeta. subst b2. bsr_in H. rewrite <- H. match goal with |- (if ?q then _ else _) = _ => destruct q end; reflexivity.
    - right. bnd H1 x H2. destruct x as [b2 bytes]. apply Ok_inj in H1. apply pair_inj in H1. destruct H1 as [<- <-].
      unfold s6_rsig_bp in H2. destruct (b_amounts C b) as [am|] eqn:Ea; [|discriminate]. destruct (b_masks C b) as [ms|] eqn:Em; [|discriminate].
      bnd H2 p Hp. bnd H2 b3 H3. apply full_do_inv in H3. destruct H3 as (h & h' & Hh & Hv & ->). bnd H2 by' Hby. apply Ok_inj in H2. apply pair_inj in H2. destruct H2 as [<- <-].
      exists am, ms, p, h, h'. split; [reflexivity|]. split; [reflexivity|]. split; [reflexivity|]. split; [reflexivity|]. split; [exact Hh|]. split; [exact Hv|].
      split; [eapply bp_made; eauto|]. cbv zeta. bsr_in H. rewrite <- H. match goal with |- (if ?q then _ else _) = _ => destruct q end; reflexivity.
  Qed.
  Lemma set_output_inv t dst tag rsig offl b b' r : set_output C t dst tag rsig offl b = Ok (b', r) ->
    let c := b_cfg C b in let i := b_out_idx C b + 1 in
    b_inp_idx C b + 1 = c_input_count C c /\
    ((r = ROffloaded /\ is_det_mask C c = true /\ b_out_idx C b < c_output_count C c /\
      (c_rsig_offload C c = true \/ b_processing_offloaded C b = true) /\
      exists mo out b1, s6_range_proof C t rsig None (set_processing_offloaded C true b) = Ok (b1, out, mo) /\ b' = b1) \/
     exists e n amounts p1 b2 key akey mask b3 rsig_out mask_out p3 vtag h4 h5,
       dst = Some e /\ offl = false /\ (b_state C b = INPUT_ALL_DONE \/ b_state C b = OUTPUT) /\
       0 <= de_amount e /\ i < c_output_count C c /\ gen_hmac_tsxdest C c e i = Ok tag /\
       uvarint (c_output_count C c) = Ok n /\ b_amounts C b = Some amounts /\
       (if i =? 0 then exists p0, b_prefix C b = Some p0 /\ p1 = Some (p0 ++ n) else p1 = b_prefix C b) /\
       s6_tx_keys C t e (set_sum_out C (b_sum_out C b + de_amount e) (set_amounts C (Some (amounts ++ [de_amount e]))
         (set_prefix C p1 (set_state C OUTPUT (set_out_idx C i (set_processing_offloaded C false b)))))) = Ok (b2, key, akey, mask) /\
       s6_range_proof C t rsig (Some mask) b2 = Ok (b3, rsig_out, mask_out) /\
       b_prefix C b3 = Some p3 /\
       gen_hmac_vouti C c e ([0; 2] ++ enc_pt C key) (b_out_idx C b3) = Ok vtag /\
       b_full C b3 = Some h4 /\ fh_set_ecdh (ecdh_bytes C c mask (de_amount e) (enc_int C akey)) h4 = Ok h5 /\
       r = RSetOutput ([0; 2] ++ enc_pt C key) vtag rsig_out mask_out (enc_pt C key ++ enc_pt C (gen_c C mask (de_amount e)))
             (ecdh_bytes C c mask (de_amount e) (enc_int C akey)) /\
       b' = set_output_pk C (b_output_pk C b3 ++ [enc_pt C (gen_c C mask (de_amount e))])
              (set_full C (Some h5) (set_sumout C (sc_add (b_sumout C b3) mask)
                (set_prefix C (Some (p3 ++ [0; 2] ++ enc_pt C key)) b3)))).
  Proof.
    intros H c i. unfold set_output in H. bnd H x H1. destruct x as [b1 dst']. pose proof (s6_validate_inv _ _ _ _ _ _ H1) as (Hinp & Hv).
    split; [exact Hinp|]. clear H1. destruct dst' as [e|].
    - right. destruct Hv as (Hd & Ho & Hs & Ha & Hi & Ht & E1).
      assert (Ec : b_cfg C b1 = c) by (rewrite E1; reflexivity). assert (Ei : b_out_idx C b1 = i) by (rewrite E1; reflexivity).
      rewrite Ec, Ei in H. bnd H n Hn. bnd H b1' H2. bnd H am H3. bnd H y H4. destruct y as [[[b2 key] akey] mask]. bnd H z H5. destruct z as [[b3 ro] mo].
      bnd H b4 H6. bnd H vtag H7. bnd H b5 H8. apply Ok_inj in H. apply pair_inj in H. destruct H as [Hb' Hr].
      apply prefix_add_inv in H6. destruct H6 as (p3 & Hp3 & E4).
      apply full_do_inv in H8. destruct H8 as (h4 & h5 & Hh4 & Hh5 & E5).
      assert (E2 : exists p1, (if i =? 0 then exists p0, b_prefix C b = Some p0 /\ p1 = Some (p0 ++ n) else p1 = b_prefix C b) /\ b1' = set_prefix C p1 b1).
      { destruct (i =? 0).
        - apply prefix_add_inv in H2. destruct H2 as (p0 & Hp0 & ->). exists (Some (p0 ++ n)). split; [|reflexivity]. exists p0. split; [|reflexivity]. rewrite E1 in Hp0. exact Hp0.
        - apply Ok_inj in H2. exists (b_prefix C b). split; [reflexivity|]. subst b1' b1. now destruct b. }
      destruct E2 as (p1 & Hp1 & E2). subst b1'.
      assert (Eam : b_amounts C b = Some am).
      { change (b_amounts C (set_prefix C p1 b1)) with (b_amounts C b1) in H3. rewrite E1 in H3. change (b_amounts C (set_state C OUTPUT (set_out_idx C (b_out_idx C b + 1) (set_processing_offloaded C false b)))) with (b_amounts C b) in H3. destruct (b_amounts C b) as [l|]; [|discriminate]. apply Ok_inj in H3. now subst. }
      exists e, n, am, p1, b2, key, akey, mask, b3, ro, mo, p3, vtag, h4, h5.
      split; [exact Hd|]. split; [exact Ho|]. split; [exact Hs|]. split; [exact Ha|]. split; [exact Hi|]. split; [exact Ht|]. split; [exact Hn|]. split; [exact Eam|]. split; [exact Hp1|].
      split. { rewrite E1 in H4. exact H4. }
      split; [exact H5|]. split; [exact Hp3|].
      split. { rewrite E4 in H7. exact H7. }
      assert (Hh4' : b_full C b3 = Some h4). { rewrite E4 in Hh4. exact Hh4. }
      split; [exact Hh4'|]. split; [exact Hh5|]. split; [now symmetry|].
      rewrite <- Hb', E5, E4. reflexivity.
    - left. destruct Hv as (Hd & Ho & Hof & E1). bnd H x H1. destruct x as [[b2 out] mo]. apply Ok_inj in H. apply pair_inj in H. destruct H as [<- <-].
      split; [reflexivity|]. split; [exact Hd|]. split; [exact Ho|]. split; [exact Hof|]. exists mo, out, b2. split; [|reflexivity]. rewrite E1 in H1. exact H1.
  Qed.

  (** ** all_out_set *)
  Lemma out_pk_loop l : forall b b' h, b_full C b = Some h ->
    foldM (fun b p => full_do C (fh_set_out_pk p) b) l b = Ok b' ->
    exists h', b' = set_full C (Some h') b /\ fh_master h' = fh_master h /\ fh_rsig h' = fh_rsig h /\
      fh_rct h' = fh_rct h ++ concat l.
  Proof.
    induction l as [|p l IH]; intros b b' h Hh H; cbn [foldM] in H.
    - apply Ok_inj in H. subst b'. exists h. split; [destruct b; cbn in Hh; now subst|]. rewrite app_nil_r. auto.
    - bnd H b1 H1. apply full_do_inv in H1. destruct H1 as (h0 & h1 & E0 & E1 & ->). rewrite Hh in E0. apply Some_inj in E0. subst h0.
      unfold fh_set_out_pk in E1. bnd_guard E1 G. apply Ok_inj in E1. specialize (IH (set_full C (Some h1) b) b' h1 eq_refl H).
      destruct IH as (h' & -> & Em & Er & Ec). exists h'. split; [reflexivity|]. subst h1. cbn [fh_rct_add fh_master fh_rsig fh_rct] in *.
      split; [exact Em|]. split; [exact Er|]. rewrite Ec. cbn [concat]. now rewrite <- app_assoc.
  Qed.
  Lemma all_out_set_inv b b' r : all_out_set C b = Ok (b', r) ->
    let c := b_cfg C b in
    exists extra n p h rv, b_state C b = OUTPUT /\ b_out_idx C b + 1 = c_output_count C c /\
      c_fee C c = b_sum_in C b - b_sum_out C b /\ extra_with_keys C b = Ok extra /\ b_sum_out C b <= b_sum_in C b /\
      uvarint (zlen extra) = Ok n /\ b_prefix C b = Some p /\ b_full C b = Some h /\ get_rct_type C c = Ok rv /\
      c_output_count C c = zlen (b_output_pk C b) /\
      let ph := cn_hash C (p ++ n ++ extra) in
      let fm := cn_hash C ((fh_master h ++ ph) ++ cn_hash C (fh_rct h ++ concat (b_output_pk C b)) ++ cn_hash C (fh_rsig h)) in
      r = RAllOut extra ph (get_fee C c) rv fm /\
      exists h0 : fhasher, b' = set_full C None (set_full_message C fm (set_out_idx C (-1) (set_inp_idx C (-1) (set_full C (Some h0)
              (set_state C FINAL_MESSAGE (set_prefix C None (set_prefix_hash C ph (set_prefix C (Some (p ++ n ++ extra))
                (set_state C OUTPUT_DONE b))))))))).
  Proof.
    intros H c. unfold all_out_set in H. fold c in H. bnd H b1 H1. apply transition_inv in H1. destruct H1 as [Hs E1].
    bnd_guard H G1. bnd_guard H G2. bnd H extra H2. bnd_guard H G3. bnd H n H3. bnd H b2 H4. bnd H px H5. bnd H b3 H6. bnd H rv H7. bnd H b4 H8. bnd_guard H G4.
    bnd H b5 H9. bnd H b6 H10. bnd H h6 H11. bnd H fm H12. apply Ok_inj in H. apply pair_inj in H. destruct H as [Hb Hr].
    apply prefix_add_inv in H4. destruct H4 as (p & Hp & E2).
    assert (Epx : px = p ++ n ++ extra). { rewrite E2 in H5. bsr_in H5. apply Ok_inj in H5. now symmetry. } subst px.
    apply full_do_inv in H6. destruct H6 as (h & h1 & Hh & Hh1 & E3). apply Ok_inj in Hh1.
    apply transition_inv in H8. destruct H8 as [_ E4].
    assert (Hb4 : b_full C b4 = Some h1) by (rewrite E4, E3; reflexivity).
    destruct (out_pk_loop _ _ _ _ Hb4 H9) as (h' & E5 & Em & Er & Ec).
    apply full_do_inv in H10. destruct H10 as (h5 & h5' & Hh5 & Hbd & E6). rewrite E5 in Hh5. bsr_in Hh5. apply Some_inj in Hh5. subst h5.
    unfold fh_base_done in Hbd. bnd_guard Hbd G5. apply Ok_inj in Hbd.
    assert (h6 = h5'). { bsr_in H11. rewrite E6 in H11. bsr_in H11. apply Ok_inj in H11. now symmetry. } subst h6.
    unfold fh_digest in H12. bnd_guard H12 G6. apply Ok_inj in H12.
    assert (Epk : b_output_pk C b4 = b_output_pk C b) by (rewrite E4, E3, E2, E1; reflexivity).
    rewrite <- H12 in Hb, Hr. subst h5'. cbn [fh_master fh_rsig] in *. rewrite Em, Er, Ec, <- Hh1, Epk in Hb, Hr. cbn [fh_set_message fh_master fh_rsig fh_rct] in Hb, Hr.
    exists extra, n, p, h, rv.
    assert (Hp' : b_prefix C b = Some p) by (rewrite E1 in Hp; exact Hp).
    assert (Hh' : b_full C b = Some h) by (rewrite E2, E1 in Hh; exact Hh).
    split; [cbn [In] in Hs; destruct Hs as [Hs|[]]; now symmetry|].
    split; [rewrite E1 in G1; apply Z.eqb_eq in G1; exact G1|].
    split; [rewrite E1 in G2; apply Z.eqb_eq in G2; exact G2|].
    split; [rewrite E1 in H2; exact H2|].
    split; [rewrite E1 in G3; bsr_in G3; apply negb_true_iff, Z.ltb_ge in G3; exact G3|].
    split; [exact H3|]. split; [exact Hp'|]. split; [exact Hh'|]. split; [exact H7|].
    split; [apply Z.eqb_eq in G4; rewrite Epk in G4; exact G4|].
    cbv zeta. rewrite <- !app_assoc in *.
    split; [now symmetry|].
    exists {| fh_simple := fh_simple h'; fh_state := 6; fh_master := (fh_master h ++ cn_hash C (p ++ n ++ extra)) ++ cn_hash C (fh_rct h ++ concat (b_output_pk C b)); fh_rsig := fh_rsig h; fh_rct := [] |}.
    rewrite <- Hb, E6, E5, E4, E3, E2, E1, Em, Er, Ec, <- Hh1, Epk, <- !app_assoc. reflexivity.
  Qed.

  (** ** sign_input *)
  Lemma sign_input_inv t src vini tag po ptag act sct b b' r : sign_input C t src vini tag po ptag act sct b = Ok (b', r) ->
    let c := b_cfg C b in let i := b_inp_idx C b + 1 in
    exists act' po' j ka ab sp alpha' pc ks sb mask real P Q sig,
      act = Some act' /\ po = Some po' /\ (b_state C b = FINAL_MESSAGE \/ b_state C b = SIGNATURE) /\ i < c_input_count C c /\
      py_get (b_perm C b) i = Ok j /\ gen_hmac_vini C c src vini j = Ok tag /\
      build_key C (c_key_enc C c) d_txin_alpha (Some j) = Ok ka /\ aead_dec C ka act' = Ok ab /\
      (if is_det_mask C c && (j + 1 =? c_input_count C c) then
         let diff := sc_sub (b_sumout C b) (b_sumpouts C b) in
         alpha' = sc_add (dec_int C ab) diff /\ sp = sc_add (b_sumpouts C b) diff /\ sp = b_sumout C b /\
         pc = gen_c C alpha' (b_input_last_amount C b)
       else
         (i + 1 = c_input_count C c -> b_sumpouts C b = b_sumout C b) /\
         tag_of C (c_key_hmac C c) d_txin_comm j po' = Ok ptag /\ dec_pt C po' = Ok pc /\ alpha' = dec_int C ab /\ sp = b_sumpouts C b) /\
      build_key C (c_key_enc C c) d_txin_spend (Some j) = Ok ks /\ aead_dec C ks sct = Ok sb /\
      se_mask src = Some mask /\ py_get (se_outputs src) (se_real_output src) = Ok real /\ dec_pt C (re_dest real) = Ok P /\
      point_eqb C P (smul_base C (dec_int C sb)) = true /\ dec_pt C (re_commitment real) = Ok Q /\
      point_eqb C Q (gen_c C (dec_int C mask) (se_amount src)) = true /\
      mlsag_sign C (b_full_message C b) (se_outputs src) (dec_int C sb) (dec_int C mask) alpha' pc (se_real_output src) (seed t) = Ok sig /\
      r = RSign sig (enc_pt C pc) /\
      let b1 := set_sumpouts C sp (set_inp_idx C i (set_state C SIGNATURE b)) in
      b' = if i + 1 =? c_input_count C c then set_state C SIGNATURE_DONE b1 else b1.
  Proof.
    intros H c i. unfold sign_input in H. fold c in H. bnd H b1 H1. apply transition_inv in H1. destruct H1 as [Hs E1].
    assert (Ei : b_inp_idx C b1 + 1 = i) by (rewrite E1; reflexivity). rewrite Ei in H.
    change (b_inp_idx C (set_inp_idx C i b1)) with i in H. change (b_perm C (set_inp_idx C i b1)) with (b_perm C b1) in H.
    change (b_sumout C (set_inp_idx C i b1)) with (b_sumout C b1) in H. change (b_sumpouts C (set_inp_idx C i b1)) with (b_sumpouts C b1) in H.
    change (b_input_last_amount C (set_sumpouts C (sc_add (b_sumpouts C b1) (sc_sub (b_sumout C b1) (b_sumpouts C b1))) (set_inp_idx C i b1))) with (b_input_last_amount C b1) in H.
    change (b_sumout C (set_sumpouts C (sc_add (b_sumpouts C b1) (sc_sub (b_sumout C b1) (b_sumpouts C b1))) (set_inp_idx C i b1))) with (b_sumout C b1) in H.
    assert (Ep : b_perm C b1 = b_perm C b) by (rewrite E1; reflexivity). rewrite Ep in H.
    assert (Eso : b_sumout C b1 = b_sumout C b) by (rewrite E1; reflexivity). rewrite Eso in H.
    assert (Esp : b_sumpouts C b1 = b_sumpouts C b) by (rewrite E1; reflexivity). rewrite Esp in H.
    assert (Ela : b_input_last_amount C b1 = b_input_last_amount C b) by (rewrite E1; reflexivity). rewrite Ela in H.
    bnd_guard H G1. bnd H act' H2. bnd H po' H3. bnd H j H4. bnd H comp H5. bnd_guard H G2. bnd H ka H6. bnd H ab H7. bnd H x H8. destruct x as [[b2 al] pc].
    bnd H ks H9. bnd H sb H10. bnd H mk H11. bnd H real H12. bnd H P H13. bnd_guard H G3. bnd H Q H14. bnd_guard H G4. bnd H sg H15. bnd H b3 H16.
    apply Ok_inj in H. apply pair_inj in H. destruct H as [<- <-].
    destruct act as [act|]; [|discriminate]. apply Ok_inj in H2. subst act'.
    destruct po as [po|]; [|discriminate]. apply Ok_inj in H3. subst po'.
    apply zlist_eqb_spec in G2. subst comp.
    assert (exists sp, b2 = set_sumpouts C sp (set_inp_idx C i b1) /\
      (if is_det_mask C c && (j + 1 =? c_input_count C c) then
         let diff := sc_sub (b_sumout C b) (b_sumpouts C b) in
         al = sc_add (dec_int C ab) diff /\ sp = sc_add (b_sumpouts C b) diff /\ sp = b_sumout C b /\
         pc = gen_c C al (b_input_last_amount C b)
       else
         (i + 1 = c_input_count C c -> b_sumpouts C b = b_sumout C b) /\
         tag_of C (c_key_hmac C c) d_txin_comm j po = Ok ptag /\ dec_pt C po = Ok pc /\ al = dec_int C ab /\ sp = b_sumpouts C b)) as (sp & E2 & Hc).
    { destruct (is_det_mask C c && (j + 1 =? c_input_count C c)).
      - bnd_guard H8 G5. apply Ok_inj in H8. apply pair_inj in H8. destruct H8 as [H8 <-]. apply pair_inj in H8. destruct H8 as [<- <-].
        exists (sc_add (b_sumpouts C b) (sc_sub (b_sumout C b) (b_sumpouts C b))). split; [reflexivity|]. cbv zeta. apply Z.eqb_eq in G5. auto.
      - bnd_guard H8 G5. bnd H8 comp Hcomp. bnd_guard H8 G6. bnd H8 PP HPP. apply Ok_inj in H8. apply pair_inj in H8. destruct H8 as [H8 <-]. apply pair_inj in H8. destruct H8 as [<- <-].
        apply zlist_eqb_spec in G6. subst comp. exists (b_sumpouts C b). split; [rewrite <- Esp; now destruct b1|].
        split. { intros E. apply orb_prop in G5. destruct G5 as [G5|G5]; [apply negb_true_iff, Z.eqb_neq in G5; contradiction|now apply Z.eqb_eq in G5]. }
        auto. }
    assert (Efm : b_full_message C b2 = b_full_message C b) by (rewrite E2, E1; reflexivity). rewrite Efm in H15.
    assert (Ei2 : b_inp_idx C b2 = i) by (rewrite E2, E1; reflexivity). rewrite Ei2 in H16.
    destruct (se_mask src) as [mkb|] eqn:Emk; [|discriminate]. apply Ok_inj in H11. subst mk.
    exists act, po, j, ka, ab, sp, al, pc, ks, sb, mkb, real, P, Q, sg.
    split; [reflexivity|]. split; [reflexivity|].
    split; [cbn [In] in Hs; destruct Hs as [Hs|[Hs|[]]]; [left|right]; now symmetry|].
    split; [now apply Z.ltb_lt in G1|]. split; [exact H4|]. split; [exact H5|]. split; [exact H6|]. split; [exact H7|]. split; [exact Hc|].
    split; [exact H9|]. split; [exact H10|]. split; [reflexivity|]. split; [exact H12|]. split; [exact H13|]. split; [exact G3|]. split; [exact H14|]. split; [exact G4|]. split; [exact H15|].
    split; [reflexivity|]. cbv zeta. destruct (i + 1 =? c_input_count C c).
    - apply transition_inv in H16. destruct H16 as [_ E3]. rewrite E3, E2, E1. reflexivity.
    - apply Ok_inj in H16. rewrite <- H16, E2, E1. reflexivity.
  Qed.
  Lemma final_msg_inv t b b' r : final_msg C t b = Ok (b', r) ->
    b_state C b = SIGNATURE_DONE /\ b' = set_state C FINAL b /\
    exists salt rm keys, r = RFinal salt rm keys.
  Proof.
    unfold final_msg. intros H. bnd H b1 H1. apply transition_inv in H1. destruct H1 as [Hs E].
    apply Ok_inj in H. apply pair_inj in H. destruct H as [<- <-]. split; [cbn [In] in Hs; destruct Hs as [Hs|[]]; now symmetry|]. split; [exact E|]. eauto.
  Qed.

  (** ** Sessions *)
  (** a session with the builder it leaves *)
  Inductive sess (cr : creds C) (t0 : tape) (d : tsx_data) (r0 : resp) : list event -> builder C -> Prop :=
  | sess_init b : init_transaction C t0 d (new_builder C cr) = Ok (b, Some r0) -> sess cr t0 d r0 [] b
  | sess_step tr b t m r b' : sess cr t0 d r0 tr b -> ~ is_init m ->
      sign C t m b = Ok (b', Some r) -> sess cr t0 d r0 (tr ++ [(t, m, r)]) b'.

  Lemma sign_new_dead cr t m st : st = START \/ st = INIT -> ~ is_init m ->
    is_ok (sign C t m (set_state C st (new_builder C cr))) = false.
  Proof.
    intros Hst Hm. destruct (sign C t m _) as [[b' r]|] eqn:E; [exfalso|reflexivity].
    destruct m; cbn [is_init] in Hm; try (now apply Hm); cbn [sign] in E; bnd E x H1; destruct x as [b1 r1].
    - apply set_input_inv in H1. destruct H1 as (?&?&?&?&?&?&?&?&?&?&?&?&?&[Hs|Hs]&_); cbn in Hs; destruct Hst; congruence.
    - apply inputs_permutation_inv in H1. destruct H1 as [Hs _]. cbn in Hs; destruct Hst; congruence.
    - apply input_vini_inv in H1. destruct H1 as (?&?&_&[Hs|Hs]&_); cbn in Hs; destruct Hst; congruence.
    - apply all_in_set_inv in H1. destruct H1 as (?&?&Hs&_). cbn in Hs; destruct Hst; congruence.
    - apply set_output_inv in H1. destruct H1 as (_&[(_&Hd&_)|H1]); [cbn in Hd; discriminate|].
      destruct H1 as (?&?&?&?&?&?&?&?&?&?&?&?&?&?&?&_&_&[Hs|Hs]&_); cbn in Hs; destruct Hst; congruence.
    - apply all_out_set_inv in H1. destruct H1 as (?&?&?&?&?&Hs&_). cbn in Hs; destruct Hst; congruence.
    - apply sign_input_inv in H1. destruct H1 as (?&?&?&?&?&?&?&?&?&?&?&?&?&?&?&_&_&[Hs|Hs]&_); cbn in Hs; destruct Hst; congruence.
    - apply final_msg_inv in H1. destruct H1 as [Hs _]. cbn in Hs; destruct Hst; congruence.
  Qed.

  (** states in which nothing but an init message is answered *)
  Definition dead (cr : creds C) (st : option (builder C)) : Prop :=
    st = None \/ st = Some (set_state C INIT (new_builder C cr)).
  Lemma dead_step cr st t m : dead cr st -> ~ is_init m -> tsx_sign C cr st t m = (None, RFailure).
  Proof.
    intros Hd Hm. unfold tsx_sign.
    assert (exists s, (s = START \/ s = INIT) /\ match m, st with
             | MInit _, _ => new_builder C cr
             | _, Some b => b
             | _, None => new_builder C cr
             end = set_state C s (new_builder C cr)) as (s & Hs & ->).
    { destruct Hd as [-> | ->]; [exists START|exists INIT]; (split; [tauto|]); destruct m; cbn in Hm; tauto || reflexivity. }
    pose proof (sign_new_dead cr t m s Hs Hm) as H. destruct (sign C t m _) as [[? ?]|]; [discriminate|reflexivity].
  Qed.

  Lemma sign_answer t m b b' r : ~ is_init m -> sign C t m b = Ok (b', r) -> exists r', r = Some r' /\ r' <> RFailure.
  Proof.
    intros Hm E. destruct m; cbn [is_init] in Hm; try (now exfalso; apply Hm); cbn [sign] in E; bnd E x H1; destruct x as [b1 r1];
      apply Ok_inj in E; apply pair_inj in E; destruct E as [_ <-]; exists r1; (split; [reflexivity|]).
    - apply set_input_inv in H1. destruct H1 as (?&?&?&?&?&?&?&?&?&?&?&?&?&?&?&?&?&?&?&?&?&?&?&?&?&?&?&Hr&_). congruence.
    - apply inputs_permutation_inv in H1. destruct H1 as (_&Hr&_). congruence.
    - apply input_vini_inv in H1. destruct H1 as (?&?&?&?&?&?&?&?&Hr&?). congruence.
    - apply all_in_set_inv in H1. destruct H1 as (?&?&_&Hr&_). congruence.
    - apply set_output_inv in H1. destruct H1 as (_&[(Hr&_)|H1]); [congruence|].
      destruct H1 as (?&?&?&?&?&?&?&?&?&?&?&?&?&?&?&?&?&?&?&?&?&?&?&?&?&?&?&?&?&?&Hr&?); congruence.
    - apply all_out_set_inv in H1. destruct H1 as (?&?&?&?&?&?&?&?&?&?&?&?&?&?&?&Hr&?). congruence.
    - apply sign_input_inv in H1. destruct H1 as (?&?&?&?&?&?&?&?&?&?&?&?&?&?&?&?&?&?&?&?&?&?&?&?&?&?&?&?&?&?&?&?&?&Hr&?). congruence.
    - apply final_msg_inv in H1. destruct H1 as (_&_&?&?&?&Hr). congruence.
  Qed.
  Lemma init_answer t d cr b' r : init_transaction C t d (new_builder C cr) = Ok (b', r) ->
    (r = None /\ b' = set_state C INIT (new_builder C cr) /\ answer t = false) \/
    (exists r', r = Some r' /\ r' <> RFailure /\ answer t = true).
  Proof.
    intros H. destruct r as [r'|].
    - right. exists r'. apply init_inv in H. destruct H as (?&?&?&?&?&?&?&?&?&?&Ha&?&?&?&?&?&?&?&?&Hr&?). split; [reflexivity|]. split; [congruence|exact Ha].
    - left. split; [reflexivity|]. unfold init_transaction in H. bnd H b1 H1. apply transition_inv in H1. destruct H1 as [_ E].
      destruct (answer t); cbn [negb] in H.
      + exfalso. bnd H q1 H2. bnd H x H3. destruct x. bnd H q2 H4. bnd H q3 H5. bnd H q4 H6. bnd H q5 H7. bnd H q6 H8. bnd H q7 H9. bnd H q8 H10. bnd H q9 H11. discriminate.
      + apply Ok_inj in H. apply pair_inj in H. destruct H as [<- _]. auto.
  Qed.

  Lemma failure_dead cr st t m st' : tsx_sign C cr st t m = (st', RFailure) -> dead cr st'.
  Proof.
    unfold tsx_sign. destruct m as [d|src|perm|src vini tag|  |dst tag rsig offl| |src vini tag po ptag act sct|];
      match goal with |- context [sign C t ?m ?b] => destruct (sign C t m b) as [[b' r]|] eqn:E end;
      intros H; apply pair_inj in H; destruct H as [<- Hr]; try (now left);
      try (apply sign_answer in E; [|cbn; tauto]; destruct E as (r' & -> & Hr'); now exfalso).
    cbn [sign] in E. apply init_answer in E. destruct E as [(_ & -> & _)|(r' & -> & Hr' & _)]; [now right|now exfalso].
  Qed.
  Lemma run_app cr st h1 h2 : run C cr st (h1 ++ h2) =
    let '(st1, rs1) := run C cr st h1 in let '(st2, rs2) := run C cr st1 h2 in (st2, rs1 ++ rs2).
  Proof.
    revert st. induction h1 as [|[t m] h1 IH]; intros st; cbn [run app].
    - now destruct (run C cr st h2).
    - destruct (tsx_sign C cr st t m) as [s r]. rewrite IH. destruct (run C cr s h1) as [s1 rs1]. destruct (run C cr s1 h2). reflexivity.
  Qed.
  Lemma run_length cr st h : length (snd (run C cr st h)) = length h.
  Proof.
    revert st. induction h as [|[t m] h IH]; intros st; cbn [run]; [reflexivity|].
    destruct (tsx_sign C cr st t m) as [s r]. specialize (IH s). destruct (run C cr s h). cbn in *. lia.
  Qed.
  Lemma dead_run cr st h : dead cr st -> Forall (fun x => ~ is_init (snd x)) h -> snd (run C cr st h) = repeat RFailure (length h).
  Proof.
    revert st. induction h as [|[t m] h IH]; intros st Hd Hf; cbn [run]; [reflexivity|]. inversion Hf; subst. rewrite (dead_step _ _ _ _ Hd H1).
    specialize (IH None (or_introl eq_refl) H2). destruct (run C cr None h). cbn in *. now rewrite IH.
  Qed.

  Lemma tsx_sign_ok cr st t m st' r : tsx_sign C cr st t m = (st', r) -> r <> RFailure ->
    exists b b', sign C t m b = Ok (b', Some r) /\ st' = (if is_terminal C b' then None else Some b') /\
      (is_init m /\ b = new_builder C cr \/ ~ is_init m /\ (st = Some b \/ st = None /\ b = new_builder C cr)).
  Proof.
    unfold tsx_sign. set (b := match m, st with MInit _, _ => new_builder C cr | _, Some b => b | _, None => new_builder C cr end).
    destruct (sign C t m b) as [[b' o]|] eqn:E; intros H Hr; apply pair_inj in H; destruct H as [H1 H2]; [|now subst].
    destruct o as [r'|]; [|now subst]. subst r'. exists b, b'. split; [exact E|]. split; [now symmetry|]. subst b. clear.
    destruct m; cbn [is_init]; [left; tauto|right; split; [tauto|]; destruct st; auto..].
  Qed.
  (** a session of the property statements is a [sess] *)
  Lemma session_sess cr t0 d r0 tr : session C cr t0 d r0 tr -> exists b, sess cr t0 d r0 tr b.
  Proof.
    intros (st & st' & Hrun & Hr0 & Hall).
    assert (exists b, sess cr t0 d r0 tr b /\ (st' = Some b \/ st' = None)) as (b & Hb & _); [|now exists b].
    revert st' Hrun. induction tr as [|[[t m] r] tr IH] using rev_ind; intros st' Hrun.
    - cbn [map run] in Hrun. destruct (tsx_sign C cr st t0 (MInit d)) as [s r] eqn:E. apply pair_inj in Hrun. destruct Hrun as [<- Hrs].
      assert (r = r0) by congruence. subst r. apply tsx_sign_ok in E; [|exact Hr0]. destruct E as (b & b' & Hs & -> & [(_ & ->)|(Hn & _)]); [|cbn in Hn; tauto].
      exists b'. split; [now constructor|]. destruct (is_terminal C b'); auto.
    - rewrite !map_app in Hrun. cbn [map fst snd] in Hrun.
      change ((t0, MInit d) :: map fst tr ++ [(t, m)]) with (((t0, MInit d) :: map fst tr) ++ [(t, m)]) in Hrun. rewrite run_app in Hrun.
      destruct (run C cr st ((t0, MInit d) :: map fst tr)) as [s1 rs1] eqn:E1. cbn [run] in Hrun. destruct (tsx_sign C cr s1 t m) as [s2 r2] eqn:E2.
      apply pair_inj in Hrun. destruct Hrun as [<- Hrs]. change (r0 :: map snd tr ++ [r]) with ((r0 :: map snd tr) ++ [r]) in Hrs.
      apply app_inj_tail in Hrs. destruct Hrs as [-> ->]. apply Forall_app in Hall. destruct Hall as [Hall Hlast]. inversion Hlast as [|? ? [Hm Hr] _]; subst. cbn [fst snd] in *.
      destruct (IH Hall s1 eq_refl) as (b & Hb & Hs). apply tsx_sign_ok in E2; [|exact Hr]. destruct E2 as (b0 & b' & Hs' & -> & [(Hi & _)|(_ & Hst)]); [now exfalso|].
      assert (b0 = b). { destruct Hst as [->|[-> ->]]; [destruct Hs as [[= ->]|]; [reflexivity|discriminate]|].
        exfalso. pose proof (sign_new_dead cr t m START (or_introl eq_refl) Hm) as Hx. change (set_state C START (new_builder C cr)) with (new_builder C cr) in Hx. rewrite Hs' in Hx. discriminate. }
      subst b0. exists b'. split; [econstructor; eassumption|]. destruct (is_terminal C b'); auto.
  Qed.

  (** a history ending in an answer other than Failure to a message other than init *)
  Lemma acked_in_session cr h t m st' rs r : run C cr None (h ++ [(t, m)]) = (st', rs ++ [r]) -> ~ is_init m -> r <> RFailure ->
    exists h1 t0 d h2 rs1 r0 rs2, h = h1 ++ (t0, MInit d) :: h2 /\ rs = rs1 ++ r0 :: rs2 /\ length rs1 = length h1 /\
      answer t0 = true /\ Forall (fun x => ~ is_init (snd x)) h2 /\ Forall (fun x => x <> RFailure) (r0 :: rs2).
  Proof.
    rewrite run_app. destruct (run C cr None h) as [s1 rs1'] eqn:E1. cbn [run]. destruct (tsx_sign C cr s1 t m) as [s2 r2] eqn:E2.
    intros H Hm Hr. apply pair_inj in H. destruct H as [_ H]. apply app_inj_tail in H. destruct H as [-> ->].
    assert (Hnd : ~ dead cr s1) by (intros Hd; rewrite (dead_step _ _ _ _ Hd Hm) in E2; apply pair_inj in E2; destruct E2 as [_ <-]; now apply Hr).
    clear - E1 Hnd. revert s1 rs E1 Hnd. induction h as [|[t m] h IH] using rev_ind; intros s1 rs E1 Hnd.
    - cbn in E1. apply pair_inj in E1. destruct E1 as [<- _]. exfalso. apply Hnd. now left.
    - rewrite run_app in E1. destruct (run C cr None h) as [s0 rs0] eqn:E0. cbn [run] in E1. destruct (tsx_sign C cr s0 t m) as [s2 r2] eqn:E2.
      apply pair_inj in E1. destruct E1 as [<- <-].
      assert (Hr2 : r2 <> RFailure) by (intros ->; apply Hnd; eapply failure_dead; exact E2).
      pose proof E2 as E2'. apply tsx_sign_ok in E2'; [|exact Hr2]. destruct E2' as (b & b' & Hs & _ & [(Hi & ->)|(Hi & Hst)]).
      + destruct m as [d| | | | | | | |]; cbn in Hi; try tauto. cbn [sign] in Hs. apply init_answer in Hs. destruct Hs as [(H & _)|(r' & _ & _ & Ha)]; [discriminate|].
        exists h, t, d, [], rs0, r2, []. pose proof (run_length cr None h) as Hl. rewrite E0 in Hl. cbn in Hl. auto 10.
      + assert (Hnd0 : ~ dead cr s0) by (intros Hd; rewrite (dead_step _ _ _ _ Hd Hi) in E2; apply pair_inj in E2; destruct E2 as [_ <-]; now apply Hr2).
        destruct (IH s0 rs0 eq_refl Hnd0) as (h1 & t0 & d & h2 & rs1 & r0 & rs2 & -> & -> & Hl & Ha & Hf & Hg).
        exists h1, t0, d, (h2 ++ [(t, m)]), rs1, r0, (rs2 ++ [r2]). split; [now rewrite <- app_assoc|]. split; [now rewrite <- app_assoc|].
        split; [exact Hl|]. split; [exact Ha|]. split; [apply Forall_app; auto|]. inversion Hg; subst. constructor; [assumption|]. apply Forall_app; auto.
  Qed.

  (** the parameters of a session *)
  Lemma sess_params cr t0 d r0 tr b : sess cr t0 d r0 tr b -> exists c extra, init_params C t0 cr d = Ok (c, extra).
  Proof. induction 1 as [b H|]; [|assumption]. apply init_inv in H. destruct H as (c&extra&?&?&?&?&?&?&?&?&_&H&_). eauto. Qed.
End Base.
