(** Invariants of a session: what the builder's sums, hash contexts and lists say
    about the messages answered so far. *)
From Verif Require Import Py PyLemmas Addr_model Lists_model Lists_spec Signer_model Signer_spec Signer_base Signer_inv Signer_step.

(** * Indexed lists *)
Definition at_each {A} (P : Z -> A -> Prop) (l : list A) : Prop := forall k a, nth_error l k = Some a -> P (Z.of_nat k) a.
Definition at_each2 {A B} (P : Z -> A -> B -> Prop) (l : list A) (m : list B) : Prop :=
  length l = length m /\ forall k a x, nth_error l k = Some a -> nth_error m k = Some x -> P (Z.of_nat k) a x.
Lemma at_each_nil {A} (P : Z -> A -> Prop) : at_each P [].
Proof. intros [|k] a H; discriminate. Qed.
Lemma nth_snoc {A} (l : list A) a k x : nth_error (l ++ [a]) k = Some x ->
  nth_error l k = Some x \/ k = length l /\ x = a.
Proof.
  intros H. destruct (Nat.lt_ge_cases k (length l)) as [Hk|Hk].
  - left. now rewrite nth_error_app1 in H.
  - right. rewrite nth_error_app2 in H by assumption. destruct (k - length l)%nat as [|q] eqn:E.
    + injection H as <-. split; [lia|reflexivity].
    + destruct q; discriminate.
Qed.
Lemma at_each_snoc {A} (P : Z -> A -> Prop) l a : at_each P l -> P (Z.of_nat (length l)) a -> at_each P (l ++ [a]).
Proof. intros H1 H2 k x H. apply nth_snoc in H. destruct H as [H|[-> ->]]; auto. Qed.
Lemma at_each2_nil {A B} (P : Z -> A -> B -> Prop) : at_each2 P [] [].
Proof. split; [reflexivity|]. intros [|k] a x H; discriminate. Qed.
Lemma at_each2_snoc {A B} (P : Z -> A -> B -> Prop) l m a x : at_each2 P l m -> P (Z.of_nat (length l)) a x -> at_each2 P (l ++ [a]) (m ++ [x]).
Proof.
  intros [Hl H1] H2. split; [rewrite !app_length; cbn; lia|]. intros k y z Hy Hz. apply nth_snoc in Hy, Hz.
  destruct Hy as [Hy|[-> ->]], Hz as [Hz|[Hk ->]]; auto.
  - subst k. exfalso. assert (length m < length l)%nat by (apply nth_error_Some; congruence). lia.
  - exfalso. assert (length l < length m)%nat by (apply nth_error_Some; congruence). lia.
Qed.
Lemma combine_snoc {A B} (l : list A) (m : list B) a x : length l = length m -> combine (l ++ [a]) (m ++ [x]) = combine l m ++ [(a, x)].
Proof. revert m. induction l as [|b l IH]; intros [|y m] H; try discriminate; [reflexivity|]. injection H as H. cbn [app combine]. now rewrite IH. Qed.
Lemma zsum_app a b : zsum (a ++ b) = zsum a + zsum b.
Proof. unfold zsum. induction a as [|x a IH]; cbn [app fold_right]; [reflexivity|]. rewrite IH. lia. Qed.
Lemma zsum_snoc a x : zsum (a ++ [x]) = zsum a + x.
Proof. rewrite zsum_app. cbn. lia. Qed.

Ltac hist := rewrite ?kinds_app, ?inputs_app, ?vinis_app, ?outputs_app, ?signs_app, ?perms_app, ?allouts_app;
    cbn [kinds inputs perms vinis outputs signs allouts flat_map kind_of fst snd app]; rewrite ?app_nil_r.

Definition opt_list {A} (o : option (list A)) : list A := match o with Some l => l | None => [] end.

Section Inv2.
  Context {C : ops}.

  (** ** Inputs *)
  Definition in_at (c : cfg C) (i : Z) (a : input_ack) : Prop :=
    exists real out_key tx_key additional sb xi ki offsets ka ks,
      py_get (se_outputs (ia_src a)) (se_real_output (ia_src a)) = Ok real /\ dec_pt C (re_dest real) = Ok out_key /\
      dec_pt C (se_real_out_tx_key (ia_src a)) = Ok tx_key /\ mapM (dec_pt C) (se_additional (ia_src a)) = Ok additional /\
      key_image_helper C (view_priv C (c_creds C c)) (spend_priv C (c_creds C c)) sb out_key tx_key additional
        (se_real_output_in_tx_index (ia_src a)) = Ok (xi, ki) /\
      offsets_to_relative (map re_idx (se_outputs (ia_src a))) = Ok offsets /\
      dump_vini (if truthy (se_rct (ia_src a)) then 0 else se_amount (ia_src a)) offsets (enc_pt C ki) = Ok (ia_vini a) /\
      gen_hmac_vini C c (ia_src a) (ia_vini a) i = Ok (ia_tag a) /\
      ia_pseudo a = enc_pt C (gen_c C (rnd (ia_tape a) 0) (se_amount (ia_src a))) /\
      tag_of C (c_key_hmac C c) d_txin_comm i (ia_pseudo a) = Ok (ia_pseudo_tag a) /\
      build_key C (c_key_enc C c) d_txin_alpha (Some i) = Ok ka /\
      build_key C (c_key_enc C c) d_txin_spend (Some i) = Ok ks /\
      ia_alpha_ct a = aead_enc C ka (rndb (ia_tape a) 0) (enc_int C (rnd (ia_tape a) 0)) /\
      ia_spend_ct a = aead_enc C ks (rndb (ia_tape a) 1) (enc_int C xi).

  Definition inv_in (c : cfg C) (extra : list Z) (tr : list event) (b : builder C) : Prop :=
    at_each (in_at c) (inputs tr) /\ b_sum_in C b = zsum (in_amounts tr) /\
    (signs tr = [] -> b_sumpouts C b = fold_left sc_add (alphas tr) 0) /\
    (length (inputs tr) = Z.to_nat (c_input_count C c) -> forall l a, inputs tr = l ++ [a] -> b_input_last_amount C b = se_amount (ia_src a)).

  Ltac sub := repeat match goal with E : ?b = _ |- _ => is_var b; match type of E with @eq (builder _) _ _ => subst b end end.
  Ltac same H := sub; unfold inv_in, in_amounts, alphas, out_amounts in *; hist; bsr; exact H.

  Lemma phase_signs n m tr (b : builder C) : phase n m tr b ->
    b_state C b <> SIGNATURE -> b_state C b <> SIGNATURE_DONE -> b_state C b <> FINAL -> signs tr = [].
  Proof.
    unfold phase, lens. intros H H1 H2 H3. destruct (b_state C b); try contradiction; try congruence;
      repeat match goal with H : exists _, _ |- _ => destruct H as [? H] | H : _ /\ _ |- _ => destruct H end;
      now apply length_zero_iff_nil.
  Qed.
  Lemma phase_inputs n m tr (b : builder C) : phase n m tr b -> (b_state C b = INP_CNT \/ b_state C b = INPUT) ->
    Z.of_nat (length (inputs tr)) = b_inp_idx C b + 1 /\ signs tr = [] /\ outputs tr = [] /\ vinis tr = [] /\ allouts tr = [].
  Proof.
    unfold phase, lens. intros H [E|E]; rewrite E in H;
      repeat match goal with H : exists _, _ |- _ => destruct H as [? H] | H : _ /\ _ |- _ => destruct H end;
      repeat match goal with H : length _ = 0%nat |- _ => apply length_zero_iff_nil in H; rewrite ?H end; cbn [length]; repeat split; auto; lia.
  Qed.
  Lemma phase_vinis n m tr (b : builder C) : phase n m tr b -> (b_state C b = INPUT_PERM \/ b_state C b = INPUT_VINS) ->
    Z.of_nat (length (vinis tr)) = b_inp_idx C b + 1 /\ signs tr = [] /\ outputs tr = [] /\ allouts tr = [].
  Proof.
    unfold phase, lens. intros H [E|E]; rewrite E in H;
      repeat match goal with H : exists _, _ |- _ => destruct H as [? H] | H : _ /\ _ |- _ => destruct H end;
      repeat match goal with H : length _ = 0%nat |- _ => apply length_zero_iff_nil in H; rewrite ?H end; cbn [length]; repeat split; auto; lia.
  Qed.
  Lemma phase_outputs n m tr (b : builder C) : phase n m tr b -> (b_state C b = INPUT_ALL_DONE \/ b_state C b = OUTPUT) ->
    Z.of_nat (length (outputs tr)) = b_out_idx C b + 1 /\ signs tr = [] /\ allouts tr = [] /\ length (inputs tr) = Z.to_nat n /\ 0 < n /\ -1 <= b_out_idx C b.
  Proof.
    unfold phase, lens. intros H [E|E]; rewrite E in H;
      repeat match goal with H : exists _, _ |- _ => destruct H as [? H] | H : _ /\ _ |- _ => destruct H end;
      repeat match goal with H : length _ = 0%nat |- _ => apply length_zero_iff_nil in H; rewrite ?H end; cbn [length]; repeat split; auto; try lia.
  Qed.
  Lemma phase_signing n m tr (b : builder C) : phase n m tr b -> (b_state C b = FINAL_MESSAGE \/ b_state C b = SIGNATURE) ->
    Z.of_nat (length (signs tr)) = b_inp_idx C b + 1.
  Proof.
    unfold phase, lens. intros H [E|E]; rewrite E in H;
      repeat match goal with H : exists _, _ |- _ => destruct H as [? H] | H : _ /\ _ |- _ => destruct H end; lia.
  Qed.

  Lemma sess_in cr t0 d r0 tr b : sess cr t0 d r0 tr b -> exists c extra, init_params C t0 cr d = Ok (c, extra) /\ b_cfg C b = c /\ b_extra C b = extra /\
      phase (c_input_count C c) (c_output_count C c) tr b /\ inv_in c extra tr b.
  Proof.
    revert tr b. apply sess_invariant.
    - intros. unfold inv_in. split; [apply at_each_nil|]. split; [reflexivity|]. split; [reflexivity|]. intros _ l a E. now destruct l.
    - intros c extra tr b t m r b' Hp Hs Hc He Hph H Hst.
      destruct Hst; cbv zeta in *; try (same H).
      + destruct H as (I1 & I2 & I3 & I4).
        destruct (phase_inputs _ _ _ _ Hph) as (Hl & Hsg & _ & _ & _); [assumption|].
        unfold inv_in, in_amounts, alphas in *. hist. rewrite !map_app, zsum_app, fold_left_app. cbn [map fold_left ia_src ia_tape].
        split. { apply at_each_snoc; [exact I1|]. rewrite Hl. cbn [ia_src ia_tape ia_vini ia_tag ia_pseudo ia_pseudo_tag ia_alpha_ct ia_spend_ct].
          exists real, out_key, tx_key, additional, subs, xi, ki, offsets, ka, ks. cbn [ia_src ia_tape ia_vini ia_tag ia_pseudo ia_pseudo_tag ia_alpha_ct ia_spend_ct]. repeat (split; [first [assumption|reflexivity]|]). reflexivity. }
        match goal with E : b' = (if _ then _ else _) |- _ => rename E into Eb end.
        destruct (b_inp_idx C b + 1 + 1 =? c_input_count C c) eqn:En; subst b'; bsr.
        * split; [cbn; lia|]. split; [intros _; rewrite I3 by assumption; reflexivity|]. intros _ l a E. apply app_inj_tail in E. destruct E as [_ <-]. reflexivity.
        * split; [cbn; lia|]. split; [intros _; rewrite I3 by assumption; reflexivity|]. rewrite app_length. cbn [length]. intros Hx. exfalso. apply Z.eqb_neq in En. lia.
      + destruct H as (I1 & I2 & I3 & I4). match goal with E : b' = (if _ then _ else _) |- _ => rename E into Eb end.
        unfold inv_in, in_amounts, alphas in *. hist.
        split; [exact I1|]. split; [destruct (b_inp_idx C b + 1 + 1 =? c_input_count C c); subst b'; exact I2|].
        split; [intros E; now destruct (signs tr)|].
        destruct (b_inp_idx C b + 1 + 1 =? c_input_count C c); subst b'; exact I4.
  Qed.

  (** ** Serialised inputs hashed in step 4 *)
  Definition vini_at (c : cfg C) (perm : list Z) (i : Z) (v : src_entry * list Z * list Z) : Prop :=
    exists idx, py_get perm i = Ok idx /\ gen_hmac_vini C c (fst (fst v)) (snd (fst v)) idx = Ok (snd v).
  Definition inv_vini (c : cfg C) (extra : list Z) (tr : list event) (b : builder C) : Prop :=
    at_each (vini_at c (b_perm C b)) (vinis tr).
  Lemma sess_vini cr t0 d r0 tr b : sess cr t0 d r0 tr b -> exists c extra, init_params C t0 cr d = Ok (c, extra) /\ b_cfg C b = c /\ b_extra C b = extra /\
      phase (c_input_count C c) (c_output_count C c) tr b /\ inv_vini c extra tr b.
  Proof.
    revert tr b. apply sess_invariant.
    - intros. apply at_each_nil.
    - intros c extra tr b t m r b' Hp Hs Hc He Hph H Hst. unfold inv_vini in *.
      destruct Hst; cbv zeta in *; hist; try (sub; bsr; exact H).
      + match goal with E : b' = (if _ then _ else _) |- _ => destruct (b_inp_idx C b + 1 + 1 =? c_input_count C c); subst b'; bsr; exact H end.
      + unfold phase, lens in Hph. rewrite H0 in Hph. assert (vinis tr = []) as -> by (apply length_zero_iff_nil; tauto). apply at_each_nil.
      + bsr. apply at_each_snoc; [exact H|]. destruct (phase_vinis _ _ _ _ Hph) as (Hl & _); [assumption|]. rewrite Hl. exists idx. auto.
      + match goal with E : b' = (if _ then _ else _) |- _ => destruct (b_inp_idx C b + 1 + 1 =? c_input_count C c); subst b'; bsr; exact H end.
  Qed.

  (** ** Outputs *)
  Definition out_at (c : cfg C) (i : Z) (o : output_ack) (mask : Z) : Prop :=
    exists add der B akey lm b1, b_cfg C b1 = c /\
      0 <= de_amount (oa_dst o) /\ gen_hmac_tsxdest C c (oa_dst o) i = Ok (oa_tag o) /\
      s6_derivation C (oa_dst o) add b1 = Ok der /\ dec_pt C (spend_public_key (de_addr (oa_dst o))) = Ok B /\
      akey = derivation_to_sc C der i /\ out_mask c i lm akey mask /\
      oa_tx_out o = [0; 2] ++ enc_pt C (derive_pub C der i B) /\
      oa_out_pk o = enc_pt C (derive_pub C der i B) ++ enc_pt C (gen_c C mask (de_amount (oa_dst o))) /\
      oa_ecdh o = ecdh_bytes C c mask (de_amount (oa_dst o)) (enc_int C akey).
  (** a proved batch: amounts, masks and the proof; it was made for, or sent with, a message of the session *)
  Definition proved_in (c : cfg C) (tr : list event) (x : list Z * list Z * bp C) : Prop :=
    exists t dst tg rsig offl r out, In (t, MSetOutput dst tg rsig offl, r) tr /\
      bp_ok c t rsig (fst (fst x)) (snd (fst x)) (snd x) out /\
      match r with RSetOutput _ _ ro _ _ _ => ro = out | _ => out = None end.
  Definition rsigs (tr : list event) : list (list Z) :=
    flat_map (fun o => match oa_rsig o with Some x => [x] | None => [] end) (outputs tr).
  (** range proofs sent by the host: with an output, or (with deterministic masks) after it *)
  Definition sent (det : bool) (tr : list event) : list (list Z) :=
    flat_map (fun e => match e with
      | (_, MSetOutput _ _ (Some (x :: bs)) _, ROffloaded) => [x :: bs]
      | (_, MSetOutput _ _ (Some (x :: bs)) _, RSetOutput _ _ _ _ _ _) => if det then [] else [x :: bs]
      | _ => [] end) tr.
  Lemma sent_app det tr tr' : sent det (tr ++ tr') = sent det tr ++ sent det tr'.
  Proof. apply flat_map_app. Qed.
  (** bytes made by the device for a batch, and bytes it checked *)
  Definition made (x : list Z * list Z * bp C) (bs : list Z) : Prop :=
    (exists sd, prove_bp C (fst (fst x)) (snd (fst x)) sd = Ok (snd x)) /\ dump_rsig_bp C (snd x) = Ok bs.
  Definition checked (x : list Z * list Z * bp C) (bs : list Z) : Prop :=
    parse_bp C bs = Ok (snd x) /\ verify_bp C (snd x) (fst (fst x)) (snd (fst x)) = Ok true.
  Definition commits (l : list (output_ack * Z)) : list (list Z) :=
    map (fun x => enc_pt C (gen_c C (snd x) (de_amount (oa_dst (fst x))))) l.

  Definition inv_out_core (c : cfg C) (tr : list event) (b : builder C) (mks : list Z) (B : list (list Z * list Z * bp C)) : Prop :=
    at_each2 (out_at c) (outputs tr) mks /\
    b_sum_out C b = zsum (out_amounts tr) /\
    b_output_pk C b = commits (combine (outputs tr) mks) /\
    b_sumout C b = fold_left sc_add mks 0.
  Definition inv_out_batch (c : cfg C) (tr : list event) (b : builder C) (mks : list Z) (B : list (list Z * list Z * bp C)) : Prop :=
    concat (map (fun x => fst (fst x)) B) ++ opt_list (b_amounts C b) = out_amounts tr /\
    concat (map (fun x => snd (fst x)) B) ++ opt_list (b_masks C b) = mks /\
    Forall (proved_in c tr) B /\
    ((c_rsig_offload C c = false -> Forall2 made B (rsigs tr)) /\
     (c_rsig_offload C c = true -> Forall2 checked B (sent (is_det_mask C c) tr) /\ rsigs tr = [])) /\
    (b_processing_offloaded C b = true -> c_rsig_offload C c && is_det_mask C c = true).
  Definition inv_out_hash (c : cfg C) (tr : list event) (b : builder C) (B : list (list Z * list Z * bp C)) : Prop :=
    (allouts tr = [] -> exists h rv f, b_full C b = Some h /\ get_rct_type C c = Ok rv /\ uvarint (get_fee C c) = Ok f /\
        fh_master h = [] /\ fh_rsig h = concat (map (fun x => bp_bytes C (snd x)) B) /\
        fh_rct h = [rv] ++ f ++ concat (map oa_ecdh (outputs tr))) /\
    (allouts tr <> [] -> b_full C b = None).
  Definition inv_out_pend (c : cfg C) (tr : list event) (b : builder C) : Prop :=
    (c_rsig_offload C c && is_det_mask C c = false -> outputs tr <> [] ->
       last_of (c_rsig_grp C c) (Z.of_nat (length (outputs tr)) - 1) -> opt_list (b_amounts C b) = [] /\ opt_list (b_masks C b) = []) /\
    (allouts tr = [] -> forall tr0 t m, tr = tr0 ++ [(t, m, ROffloaded)] -> last_of (c_rsig_grp C c) (b_out_idx C b) ->
       opt_list (b_amounts C b) = [] /\ opt_list (b_masks C b) = []).
  Definition inv_out (c : cfg C) (extra : list Z) (tr : list event) (b : builder C) : Prop :=
    exists mks B, inv_out_core c tr b mks B /\ inv_out_batch c tr b mks B /\ inv_out_hash c tr b B /\ inv_out_pend c tr b.

  Lemma proved_in_mono c tr e x : proved_in c tr x -> proved_in c (tr ++ [e]) x.
  Proof. intros (t & dst & tg & rs & of & r & out & H1 & H2). exists t, dst, tg, rs, of, r, out. split; [|exact H2]. apply in_or_app. now left. Qed.
  Lemma Forall_proved_mono c tr e B : Forall (proved_in c tr) B -> Forall (proved_in c (tr ++ [e])) B.
  Proof. intros H. eapply Forall_impl; [|exact H]. intros a. apply proved_in_mono. Qed.

  (** steps other than outputs and the one after them *)
  Lemma inv_out_frame c extra tr e (b b' : builder C) : inv_out c extra tr b -> outputs [e] = [] -> allouts [e] = [] -> sent (is_det_mask C c) [e] = [] ->
    snd e <> ROffloaded ->
    b_sum_out C b' = b_sum_out C b -> b_output_pk C b' = b_output_pk C b ->
    (b_sumout C b' = b_sumout C b \/ outputs tr = [] /\ b_sumout C b' = 0) ->
    b_amounts C b' = b_amounts C b -> b_masks C b' = b_masks C b -> b_full C b' = b_full C b ->
    b_processing_offloaded C b' = b_processing_offloaded C b -> inv_out c extra (tr ++ [e]) b'.
  Proof.
    intros (mks & B & (A1 & A2 & A3 & A4) & (B1 & B2 & B3 & B4 & B5) & (C1 & C2) & (D1 & D2)) He Ha Hse Hr E1 E2 E3 E4 E5 E6 E7.
    exists mks, B. unfold inv_out_core, inv_out_batch, inv_out_hash, inv_out_pend, out_amounts, rsigs in *.
    rewrite !outputs_app, !allouts_app, !sent_app, He, Ha, Hse, !app_nil_r. rewrite E1, E2, E4, E5, E6, E7.
    split. { split; [exact A1|]. split; [exact A2|]. split; [exact A3|]. destruct E3 as [->|[E3 ->]]; [exact A4|].
      rewrite E3 in A1. destruct A1 as [A1 _]. destruct mks; [reflexivity|discriminate]. }
    split. { split; [exact B1|]. split; [exact B2|]. split; [now apply Forall_proved_mono|]. split; [exact B4|exact B5]. }
    split. { split; [exact C1|exact C2]. }
    split; [exact D1|]. intros _ tr0 t m E. apply app_inj_tail in E. destruct E as [_ ->]. now destruct Hr.
  Qed.

  Lemma last_of_fun grp i bidx lst : get_rsig_batch grp i = Ok bidx -> is_last_in_batch grp i bidx = Ok lst -> last_of grp i -> lst = true.
  Proof. intros H1 H2 (b' & H3 & H4). rewrite H1 in H3. apply Ok_inj in H3. subst b'. rewrite H2 in H4. now apply Ok_inj in H4. Qed.
  Lemma rsig_val_inv p h h' : fh_rsig_val C p h = Ok h' -> fh_master h' = fh_master h /\ fh_rct h' = fh_rct h /\ fh_rsig h' = fh_rsig h ++ bp_bytes C p.
  Proof. unfold fh_rsig_val. intros H. bnd_guard H G. apply Ok_inj in H. subst h'. auto. Qed.
  Lemma set_ecdh_inv e h h' : fh_set_ecdh e h = Ok h' -> fh_master h' = fh_master h /\ fh_rct h' = fh_rct h ++ e /\ fh_rsig h' = fh_rsig h.
  Proof. unfold fh_set_ecdh. intros H. bnd_guard H G. apply Ok_inj in H. subst h'. auto. Qed.
  Lemma concat_snoc {A} (l : list (list A)) x : concat (l ++ [x]) = concat l ++ x.
  Proof. rewrite concat_app. cbn. now rewrite app_nil_r. Qed.
  Lemma opt_rest (q : bool) : opt_list (if q then None else Some ([] : list Z)) = [].
  Proof. now destruct q. Qed.

  Lemma sess_out cr t0 d r0 tr b : sess cr t0 d r0 tr b -> exists c extra, init_params C t0 cr d = Ok (c, extra) /\ b_cfg C b = c /\ b_extra C b = extra /\
      phase (c_input_count C c) (c_output_count C c) tr b /\ inv_out c extra tr b.
  Proof.
    revert tr b. apply sess_invariant_end.
    - intros c extra v u n rv h h' tags sb Ha Hp Hv Hu Hn Hrv Hh Hh' Ht Hr. exists [], [].
      unfold fh_init in Hh. bnd_guard Hh G1. apply Ok_inj in Hh. subst h. unfold fh_set_type_fee in Hh'. bnd_guard Hh' G2. bnd Hh' f Hf. apply Ok_inj in Hh'. subst h'.
      split. { split; [apply at_each2_nil|]. auto. }
      split. { split; [reflexivity|]. split; [reflexivity|]. split; [constructor|]. split; [|discriminate]. split; [constructor|]. intros _. split; [constructor|reflexivity]. }
      split. { split; [|intros X; now destruct X]. intros _. eexists _, rv, f. split; [reflexivity|]. split; [exact Hrv|]. split; [exact Hf|]. cbn. rewrite !app_nil_r. auto. }
      split; [intros _ X; now destruct X|]. intros _ tr0 t m E. now destruct tr0.
    - intros c extra tr b t m r b' Hp Hs Hc He Hph H Hst Hend.
      destruct Hst as [? ? ? ? ? ? ? ? ? ? ? ? ? ? ? ? S1 S2 S3 S4 S5 S6 S7 S8 S9 S10 S11 S12 S13 S14 Eb|? ? S1|? ? ? ? ? ? S1 S2 S3 S4 S5 S6|? ? ? S1 S2 S3
        |? dst tag rsig offl am' ms' fu out pr S1 S2 S3 S4 S5
        |? e tag rsig n am ms p1 key akey mask add der B lm ap aq ro mo vtag h4 h4' h5 am' ms' pr b1 b2 b3 b' S1 S2 S3 S4 S5 S6 S7 S8 S9 S10 S11 S12 S13 S14 S15 S16 S17 S18 S19 S20 S21 S22 Eb
        |? ? ? ? ? ? h0 ? ? S1 S2 S3 S4 S5 S6 S7 S8 S9 S10 S11 S12
        |? ? ? ? ? ? ? ? ? ? ? ? ? ? ? ? ? ? ? ? ? b' S1 S2 S3 S4 S5 S6 S7 S8 S9 S10 S11 S12 S13 S14 S15 S16 Eb|? ? ? ? S1]; cbv zeta in *.
      + (* input *) destruct (b_inp_idx C b + 1 + 1 =? c_input_count C c); subst b'; (eapply inv_out_frame; [exact H|try reflexivity ..]); [discriminate|now left|discriminate|now left].
      + (eapply inv_out_frame; [exact H|try reflexivity ..]); [discriminate|now left].
      + (eapply inv_out_frame; [exact H|try reflexivity ..]); [discriminate|now left].
      + (eapply inv_out_frame; [exact H|try reflexivity ..]); [discriminate|]. right. split; [|reflexivity].
        unfold phase, lens in Hph. rewrite S1 in Hph. apply length_zero_iff_nil. destruct Hph as (k & Hph). tauto.
      + (* offloaded proof *)
        destruct H as (mks & B & (A1 & A2 & A3 & A4) & (B1 & B2 & B3 & B4 & B5) & (C1 & C2) & (D1 & D2)).
        assert (Hod : c_rsig_offload C c = true) by (destruct S4 as [S4|S4]; [exact S4|]; specialize (B5 S4); apply andb_prop in B5; tauto).
        assert (Eo : outputs (tr ++ [(t, MSetOutput dst tag rsig offl, ROffloaded)]) = outputs tr) by (rewrite outputs_app; cbn; destruct dst; apply app_nil_r).
        assert (Ea : allouts (tr ++ [(t, MSetOutput dst tag rsig offl, ROffloaded)]) = allouts tr) by (rewrite allouts_app; apply app_nil_r).
        destruct S5 as [(-> & S6 & -> & -> & ->)|(am & ms & h & h' & E1 & E2 & E3 & -> & S6 & S7)].
        * exists mks, B. unfold inv_out_core, inv_out_batch, inv_out_hash, inv_out_pend, out_amounts, rsigs in *. rewrite Eo, Ea. bsr.
          assert (Es : sent (is_det_mask C c) (tr ++ [(t, MSetOutput dst tag rsig offl, ROffloaded)]) = sent (is_det_mask C c) tr).
          { rewrite sent_app. cbn [at_batch_end] in Hend. destruct rsig as [[|y bs]|]; try apply app_nil_r. now destruct S6. }
          rewrite Es. split; [auto|]. split; [split; [exact B1|]; split; [exact B2|]; split; [now apply Forall_proved_mono|]; split; [exact B4|]; rewrite Hod, S2; auto|].
          split; [auto|]. split; [exact D1|]. intros _ tr0 t' m' E. intros X. now destruct S6.
        * destruct pr as [p|]; [|now destruct S6]. destruct S7 as (bidx & lst & Hb & Hl & -> & Hcond & Hv & Hok & Eam & Ems).
          exists mks, (B ++ [(am, ms, p)]). unfold inv_out_core, inv_out_batch, inv_out_hash, inv_out_pend, out_amounts, rsigs in *. rewrite Eo, Ea. bsr.
          split; [auto|].
          rewrite E1 in B1. rewrite E2 in B2. cbn [opt_list] in B1, B2.
          split. { rewrite !map_app, !concat_app. cbn [map concat fst snd]. rewrite Ems, Eam, !opt_rest, !app_nil_r. split; [exact B1|]. split; [exact B2|].
            split. { apply Forall_app. split; [now apply Forall_proved_mono|]. constructor; [|constructor].
              exists t, dst, tag, rsig, offl, ROffloaded, out. split; [apply in_or_app; right; now left|]. split; [exact Hok|].
              destruct Hok as [bytes Hx|bytes Hx ? ? ? Ho]; [congruence|exact Ho]. }
            split; [|intros _; now rewrite Hod, S2]. split; [intros X; congruence|]. intros _. destruct B4 as [_ B4]. destruct (B4 Hod) as [B6 B7]. split; [|exact B7].
            destruct Hok as [bytes Hx|bytes Hx Hrs Hpp Hvv Ho]; [congruence|]. rewrite sent_app. apply Forall2_app; [exact B6|].
            cbn [at_batch_end] in Hend. subst rsig. destruct bytes as [|y bs]; [exfalso; apply (Hend Hod); exists bidx; auto|]. cbn. constructor; [split; assumption|constructor]. }
          split. { split.
            - intros Hal. destruct (C1 Hal) as (h1 & rv & f & F1 & F2 & F3 & F4 & F5 & F6). rewrite E3 in F1. apply Some_inj in F1. subst h1.
              destruct (rsig_val_inv _ _ _ Hv) as (G1 & G2 & G3). exists h', rv, f. split; [reflexivity|]. split; [exact F2|]. split; [exact F3|].
              rewrite G1, G2, G3, F5, map_app, concat_app. cbn [map concat snd]. rewrite app_nil_r. auto.
            - intros Hal. rewrite (C2 Hal) in E3. discriminate. }
          rewrite Ems, Eam. split; [|intros; split; apply opt_rest]. intros X. rewrite Hod, S2 in X. discriminate.
      + (* output *)
        destruct H as (mks & B0 & (A1 & A2 & A3 & A4) & (B1 & B2 & B3 & B4 & B5) & (C1 & C2) & (D1 & D2)).
        destruct (phase_outputs _ _ _ _ Hph S2) as (Hlen & _ & Hall & _).
        destruct (C1 Hall) as (h1 & rv & f & F1 & F2 & F3 & F4 & F5 & F6). rewrite S17 in F1. apply Some_inj in F1. subst h1.
        assert (Ex1 : b_sum_out C b3 = b_sum_out C b + de_amount e) by (subst b3 b2 b1; reflexivity).
        assert (Ex2 : b_output_pk C b3 = b_output_pk C b) by (subst b3 b2 b1; reflexivity).
        assert (Ex3 : b_sumout C b3 = b_sumout C b) by (subst b3 b2 b1; reflexivity).
        assert (Ex4 : b_amounts C b3 = am') by (subst b3 b2 b1; reflexivity).
        assert (Ex5 : b_masks C b3 = ms') by (subst b3 b2 b1; reflexivity).
        assert (Ex6 : b_processing_offloaded C b3 = false) by (subst b3 b2 b1; reflexivity).
        assert (Ex7 : b_cfg C b1 = c) by (subst b1; exact Hc).
        assert (Hat : out_at c (Z.of_nat (length (outputs tr)))
           {| oa_dst := e; oa_tag := tag; oa_tx_out := [0; 2] ++ enc_pt C key; oa_rsig := ro; oa_out_pk := enc_pt C key ++ enc_pt C (gen_c C mask (de_amount e));
              oa_ecdh := ecdh_bytes C c mask (de_amount e) (enc_int C akey) |} mask).
        { rewrite Hlen. exists add, der, B, akey, (b_last_mask C b), b1. cbn [oa_dst oa_tag oa_tx_out oa_out_pk oa_ecdh]. rewrite <- S14.
          repeat (split; [first [exact Ex7|assumption|reflexivity]|]). reflexivity. }
        clear S10 S21 S22 S11 S12 S13 S14 S15 S16 S19 S9.
        destruct (set_ecdh_inv _ _ _ S20) as (G1 & G2 & G3).
        rewrite S7 in B1. rewrite S8 in B2. cbn [opt_list] in B1, B2.
        destruct S18 as (bidx & lst & Hb & Hl & Hpr).
        assert (Hlast : forall B1', Z.of_nat (length (outputs tr ++ [B1'])) - 1 = b_out_idx C b + 1) by (intros; rewrite app_length; cbn [length]; lia).
        destruct pr as [p|].
        * destruct Hpr as (-> & Hcond & Hv & Hok & Eam & Ems). destruct (rsig_val_inv _ _ _ Hv) as (G4 & G5 & G6).
          exists (mks ++ [mask]), (B0 ++ [(am ++ [de_amount e], ms ++ [mask], p)]).
          unfold inv_out_core, inv_out_batch, inv_out_hash, inv_out_pend, out_amounts, rsigs, commits in *. hist. subst b'. bsr.
          rewrite Ex1, Ex2, Ex3, Ex4, Ex5, Ex6, combine_snoc by exact (proj1 A1).
          split. { split; [apply at_each2_snoc; [exact A1|exact Hat]|]. split; [rewrite map_app; cbn [map oa_dst]; rewrite zsum_snoc, A2; reflexivity|].
            split; [rewrite map_app, A3; reflexivity|]. rewrite fold_left_app, A4. reflexivity. }
          split. { rewrite !map_app, !concat_app. cbn [map concat fst snd oa_dst]. rewrite Ems, Eam, !opt_rest, !app_nil_r, !app_assoc, B1, B2.
            split; [reflexivity|]. split; [reflexivity|].
            split. { apply Forall_app. split; [now apply Forall_proved_mono|]. constructor; [|constructor].
              eexists t, _, tag, rsig, false, _, ro. split; [apply in_or_app; right; left; reflexivity|]. split; [exact Hok|]. reflexivity. }
            split; [|discriminate]. destruct B4 as [B4 B6]. split.
            - intros X. rewrite flat_map_app. apply Forall2_app; [exact (B4 X)|]. destruct Hok as [bytes Hx Hq Hd ->|bytes Hx]; [|congruence].
              cbn [flat_map oa_rsig app]. constructor; [|constructor]. split; [eexists; exact Hq|exact Hd].
            - intros X. destruct (B6 X) as [B7 B8]. rewrite flat_map_app, B8, sent_app. destruct Hok as [bytes Hx|bytes Hx Hrs Hpp Hvv ->]; [congruence|]. split; [|reflexivity].
              apply Forall2_app; [exact B7|]. rewrite X, andb_true_l, andb_true_r in Hcond. cbn [at_batch_end] in Hend. subst rsig.
              destruct bytes as [|y bs]; [exfalso; apply (Hend X Hcond); exists bidx; auto|]. cbn [sent flat_map app]. rewrite Hcond. constructor; [split; assumption|constructor]. }
          split. { split; [|intros X; now destruct X]. intros _. exists h5, rv, f. split; [reflexivity|]. split; [exact F2|]. split; [exact F3|].
            rewrite G1, G2, G3, G4, G5, G6, F4, F5, F6, !map_app, !concat_app. cbn [map concat snd oa_ecdh]. rewrite !app_nil_r. split; [reflexivity|]. split; [reflexivity|].
            now rewrite !app_assoc. }
          rewrite Ems, Eam. split; intros; split; apply opt_rest.
        * destruct Hpr as (Hcond & -> & -> & -> & ->).
          exists (mks ++ [mask]), B0.
          unfold inv_out_core, inv_out_batch, inv_out_hash, inv_out_pend, out_amounts, rsigs, commits in *. hist. subst b'. bsr.
          rewrite Ex1, Ex2, Ex3, Ex4, Ex5, Ex6, combine_snoc by exact (proj1 A1).
          split. { split; [apply at_each2_snoc; [exact A1|exact Hat]|]. split; [rewrite map_app; cbn [map oa_dst]; rewrite zsum_snoc, A2; reflexivity|].
            split; [rewrite map_app, A3; reflexivity|]. rewrite fold_left_app, A4. reflexivity. }
          split. { cbn [opt_list]. rewrite !map_app, !app_assoc, B1, B2.
            split; [reflexivity|]. split; [reflexivity|].
            split; [now apply Forall_proved_mono|]. split; [|discriminate]. rewrite flat_map_app. cbn [flat_map oa_rsig app]. rewrite app_nil_r. destruct B4 as [B4 B6]. split; [exact B4|].
            intros X. destruct (B6 X) as [B7 B8]. split; [|exact B8]. rewrite sent_app. cbn [sent flat_map]. rewrite app_nil_r.
            destruct (is_det_mask C c) eqn:Ed; [destruct rsig as [[|y bs]|]; cbn [app]; rewrite app_nil_r; exact B7|].
            destruct rsig as [[|y bs]|]; cbn [app]; try (rewrite app_nil_r; exact B7). exfalso. cbn [at_batch_end given] in Hend.
            rewrite X in Hcond. cbn [andb] in Hcond. destruct Hcond as [->|Hcond]; [|discriminate]. pose proof (last_of_fun _ _ _ _ Hb Hl Hend). discriminate. }
          split. { split; [|intros X; now destruct X]. intros _. exists h5, rv, f. split; [reflexivity|]. split; [exact F2|]. split; [exact F3|].
            rewrite G1, G2, G3, F4, F5, F6, !map_app, !concat_app. cbn [map concat snd oa_ecdh]. rewrite !app_nil_r. split; [reflexivity|]. split; [reflexivity|].
            now rewrite !app_assoc. }
          split; [|intros _ tr0 t' m' E; apply app_inj_tail in E; destruct E as [_ E]; discriminate].
          intros X _ Hlo. rewrite Hlast in Hlo. pose proof (last_of_fun _ _ _ _ Hb Hl Hlo) as ->. cbn [negb] in Hcond. rewrite andb_true_r in Hcond.
          destruct Hcond as [Hcond|Hcond]; congruence.
      + (* all outputs *)
        destruct H as (mks & B0 & (A1 & A2 & A3 & A4) & (B1 & B2 & B3 & B4 & B5) & (C1 & C2) & (D1 & D2)).
        exists mks, B0. unfold inv_out_core, inv_out_batch, inv_out_hash, inv_out_pend, out_amounts, rsigs, commits in *. hist. bsr.
        split; [auto|]. split; [split; [exact B1|]; split; [exact B2|]; split; [now apply Forall_proved_mono|]; split; [rewrite sent_app; cbn [sent flat_map]; rewrite app_nil_r; exact B4|exact B5]|].
        split; [split; [intros X; now destruct (allouts tr)|reflexivity]|]. split; [exact D1|]. intros X. now destruct (allouts tr).
      + destruct (b_inp_idx C b + 1 + 1 =? c_input_count C c); subst b'; (eapply inv_out_frame; [exact H|try reflexivity ..]); [discriminate|now left|discriminate|now left].
      + (eapply inv_out_frame; [exact H|try reflexivity ..]); [discriminate|now left].
  Qed.
End Inv2.
