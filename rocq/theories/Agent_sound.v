(** What the transaction returned by the agent is: it spends the given sources, pays the given destinations, balances,
    is covered by range proofs, and the signatures are over its own contents. *)
From Coq Require Import Permutation Sorted.
From Verif Require Import Py PyLemmas Addr_model Addr_proof Lists_model Lists_spec Lists_proof Signer_model Signer_spec Signer_base Signer_inv Signer_step Signer_inv2 Signer_inv3
  Signer_props Signer_props2 Signer_props3 Agent_model Agent_trace.

(** Signature [sig] and serialised input [vini] spend source [s] through a pseudo output with mask [a]: the key image and the
    signing key are those of the ring member the source names, whose one-time key and commitment the wallet can open. *)
Definition spends (C : ops) (cr : creds C) (fm : list Z) (s : src_entry) (vini : list Z) (a : Z) (sig : list Z) : Prop :=
  exists real P T add sb xi ki offs mask Q sd,
    py_get (se_outputs s) (se_real_output s) = Ok real /\ dec_pt C (re_dest real) = Ok P /\ dec_pt C (se_real_out_tx_key s) = Ok T /\
    mapM (dec_pt C) (se_additional s) = Ok add /\
    key_image_helper C (view_priv C cr) (spend_priv C cr) sb P T add (se_real_output_in_tx_index s) = Ok (xi, ki) /\
    offsets_to_relative (map re_idx (se_outputs s)) = Ok offs /\
    dump_vini (if truthy (se_rct s) then 0 else se_amount s) offs (enc_pt C ki) = Ok vini /\
    point_eqb C P (smul_base C (dec_int C (enc_int C xi))) = true /\
    se_mask s = Some mask /\ dec_pt C (re_commitment real) = Ok Q /\ point_eqb C Q (gen_c C (dec_int C mask) (se_amount s)) = true /\
    mlsag_sign C fm (se_outputs s) (dec_int C (enc_int C xi)) (dec_int C mask) a (gen_c C a (se_amount s)) (se_real_output s) sd = Ok sig.

Section Sound.
  Context {C : ops} (cr : creds C) (tp : nat -> tape).

  Lemma agent_commit x ev sg d r0 tr p ins fm : codec_laws C -> (forall n i, 0 <= rnd (tp n) i < ell) ->
    agent_run cr tp x ev sg d r0 tr p ins fm ->
    exists c extra a m, init_params C (tp 0%nat) cr d = Ok (c, extra) /\
      commitments_balance C tr (map (fun i => se_amount (ia_src i)) ins) a m /\
      (forall j s i aj, nth_error (signs tr) j = Some s -> nth_error ins j = Some i -> nth_error a j = Some aj ->
         spends C cr fm (ia_src i) (ia_vini i) aj (sa_sig s)) /\
      (is_det_mask C c = false -> map sa_pseudo (signs tr) = map sa_pseudo_out (signs tr)).
  Proof.
    intros HL Hr R. pose proof (ar_session _ _ _ _ _ _ _ _ _ _ _ R) as H. pose proof (ar_final _ _ _ _ _ _ _ _ _ _ _ R) as Hf. pose proof (ar_perm _ _ _ _ _ _ _ _ _ _ _ R) as Hpm.
    pose proof (ar_ins _ _ _ _ _ _ _ _ _ _ _ R) as Hins. pose proof (ar_nth _ _ _ _ _ _ _ _ _ _ _ R) as Hnth. pose proof (ar_signs _ _ _ _ _ _ _ _ _ _ _ R) as Hsg.
    apply session_sess in H. destruct H as (b & H).
    destruct (final_counts _ _ _ _ _ _ H Hf) as (c & extra & Hpa & Hc & Hs & L1 & L2 & L3 & L4 & L5 & L6). 
    rewrite Hpm in L5. injection L5 as L5.
    pose proof (params_counts _ _ _ _ _ Hpa) as (P1 & _).
    pose proof (sess_in _ _ _ _ _ _ H) as (c1 & e1 & Hp1 & _ & _ & Hph & (Hin & _ & _ & Hlast)).
    pose proof (sess_out _ _ _ _ _ _ H) as (c2 & e2 & Hp2 & _ & _ & _ & (mks & Bt & (Hout & _ & _ & Hmo) & _)).
    pose proof (sess_sign _ _ _ _ _ _ H) as (c3 & e3 & Hp3 & _ & _ & _ & (S & (Hsl & Hsi) & Hsum & Hso & Hfm)).
    rewrite Hpa in Hp1, Hp2, Hp3. apply Ok_inj in Hp1, Hp2, Hp3. apply pair_inj in Hp1, Hp2, Hp3. destruct Hp1 as [<- _], Hp2 as [<- _], Hp3 as [<- _].
    rewrite <- L5 in Hsi.
    assert (Hn : 0 < c_input_count C c) by (unfold phase in Hph; rewrite Hs in Hph; tauto).
    assert (Hlen : Z.of_nat (length (inputs tr)) = c_input_count C c) by lia.
    assert (Hil : length ins = length (inputs tr)) by (apply Permutation_length; exact Hins).
    assert (HF : b_full_message C b = fm).
    { destruct (ar_allout _ _ _ _ _ _ _ _ _ _ _ R) as (ph & blob & E & _). eapply Hfm. exact E. }
    assert (Hta : Forall (fun a => 0 <= rnd (ia_tape a) 0 < ell) (inputs tr)).
    { pose proof (ar_tapes _ _ _ _ _ _ _ _ _ _ _ R) as HT. apply Forall_forall. intros a Ha. unfold inputs in Ha. apply in_flat_map in Ha. destruct Ha as ([[t m0] r] & He & Ha).
      rewrite Forall_forall in HT. destruct (HT _ He) as (n & En). cbn [fst] in En. destruct m0; try contradiction; destruct r; try contradiction. cbn [In] in Ha. destruct Ha as [<-|[]]. cbn [ia_tape]. rewrite En. apply Hr. }
    assert (Hcr : c_creds C c = cr).
    { clear -Hpa. unfold init_params in Hpa. cbv zeta in Hpa. bnd Hpa u Hc. destruct (classify_subaddresses _ _) as [[nstd nsub] single]. bnd Hpa rp Hr. bnd Hpa pe Hq. destruct pe as [pid ex].
      destruct (sec_keys C d pid (rnd (tp 0%nat) 0) (rnd (tp 0%nat) 1)) as [kh ke]. apply Ok_inj in Hpa. apply pair_inj in Hpa. destruct Hpa as [<- _]. reflexivity. }
    assert (Hv : forall j s, nth_error (signs tr) j = Some s -> exists i x, nth_error ins j = Some i /\ nth_error S j = Some x /\
        snd (fst (fst x)) = rnd (ia_tape i) 0 /\ snd x = gen_c C (snd (fst x)) (se_amount (ia_src i)) /\ sa_pseudo_out s = enc_pt C (snd x) /\
        spends C cr fm (ia_src i) (ia_vini i) (snd (fst x)) (sa_sig s) /\ (is_det_mask C c = false -> sa_pseudo s = sa_pseudo_out s)).
    { intros j s E. destruct (nth_error S j) as [[[[idx a0] a1] pc]|] eqn:Ex.
      2: { apply nth_error_None in Ex. assert (j < length (signs tr))%nat by (apply nth_error_Some; congruence). lia. }
      destruct (Hsi _ _ _ E Ex) as (Hg & Ht & (ka & ab & Hka & Hab & Ea0) & Hps & Epo & (ks & sb & mask & real & P & Q & sd & K1 & K2 & K3 & K4 & K5 & K6 & K7 & K8 & K9)).
      apply py_get_nat in Hg. destruct (Hnth _ _ Hg) as (Hi & Enth).
      destruct (nth_error ins j) as [a|] eqn:Eij; [|apply nth_error_None in Eij; assert (j < length (signs tr))%nat by (apply nth_error_Some; congruence); lia].
      symmetry in Enth. rename Enth into Ea.
      assert (Hsame : sa_src s = ia_src a /\ sa_vini s = ia_vini a /\ sa_tag s = ia_tag a /\ sa_pseudo s = ia_pseudo a /\
        sa_pseudo_tag s = ia_pseudo_tag a /\ sa_alpha_ct s = ia_alpha_ct a /\ sa_spend_ct s = ia_spend_ct a).
      { destruct (Forall2_nth_r _ _ _ Hsg _ _ Eij) as (s' & Es' & X). assert (s' = s) by congruence. now subst s'. }
      destruct Hsame as (Q1 & Q2 & Q3 & Q4 & Q5 & Q6 & Q7).
      pose proof (Hin _ _ Ea) as (real' & ok & tk & ad & sbs & xi & ki & off & ka' & ks' & I1 & I2 & I3 & I4 & I5 & I6 & I7 & I8 & Ipo & Ipt & Ika & Iks & Ict & Isp).
      rewrite Z2Nat.id in Ika, Iks, Ipt by exact Hi. rewrite Hka in Ika. apply Ok_inj in Ika. subst ka'. rewrite K1 in Iks. apply Ok_inj in Iks. subst ks'.
      rewrite Q7, Isp, (law_aead C HL) in K2. apply Ok_inj in K2. subst sb.
      rewrite Q6, Ict, (law_aead C HL) in Hab. apply Ok_inj in Hab. subst ab.
      rewrite (law_int C HL) in Ea0 by (rewrite Forall_forall in Hta; apply Hta; eapply nth_error_In; exact Ea).
      rewrite Q1 in *. rewrite I1 in K4. apply Ok_inj in K4. subst real'. rewrite I2 in K5. apply Ok_inj in K5. subst P.
      exists a, (idx, a0, a1, pc). cbn [fst snd]. split; [reflexivity|]. split; [reflexivity|]. split; [exact Ea0|].
      assert (Epc : pc = gen_c C a1 (se_amount (ia_src a)) /\ (is_det_mask C c = false -> sa_pseudo s = sa_pseudo_out s)).
      { destruct (is_det_mask C c && (idx + 1 =? c_input_count C c)) eqn:El.
        - split.
          + destruct (exists_last (l := inputs tr)) as (l & a' & Ell); [intros X; rewrite X in L1; cbn in L1; lia|].
            rewrite (Hlast L1 _ _ Ell) in Hps. assert (a = a'); [|now subst].
            assert (Z.to_nat idx = length l) as Eidx by (rewrite Ell, app_length in L1; cbn in L1; lia).
            rewrite Ell, Eidx, nth_error_app2, Nat.sub_diag in Ea by lia. now injection Ea.
          + intros X. rewrite X in El. discriminate.
        - destruct Hps as (-> & Hpt & Hdec). rewrite Q4, Ipo, (law_pt C HL) in Hdec. apply Ok_inj in Hdec.
          split; [now rewrite <- Hdec, Ea0|]. intros _. rewrite Epo, Q4, Ipo. now rewrite Hdec. }
      destruct Epc as (Epc & Edet). split; [exact Epc|]. split; [exact Epo|]. split; [|exact Edet].
      rewrite HF, Epc in K9. rewrite Hcr in I5. exists real, ok, tk, ad, sbs, xi, ki, off, mask, Q, sd. auto 20. }
    exists c, extra, (map (fun x => snd (fst x)) S), mks. split; [exact Hpa|].
    assert (Hl3 : length (signs tr) = length ins) by lia.
    assert (Esum : zsum (map (fun x => snd (fst (fst x))) S) = zsum (alphas tr)).
    { transitivity (zsum (map (fun i => rnd (ia_tape i) 0) ins)); [|apply zsum_permutation; unfold alphas; now apply Permutation_map].
      f_equal. apply nth_ext_error; [rewrite !map_length; lia|]. intros j x0 y Ex Ey. rewrite nth_error_map in Ex, Ey.
      destruct (nth_error S j) as [sx|] eqn:ES; [|discriminate]. destruct (nth_error ins j) as [i|] eqn:Ei; [|discriminate]. cbn in Ex, Ey. injection Ex as <-. injection Ey as <-.
      destruct (nth_error (signs tr) j) as [s|] eqn:Esg; [|apply nth_error_None in Esg; assert (j < length S)%nat by (apply nth_error_Some; congruence); lia].
      destruct (Hv _ _ Esg) as (i' & x' & E1 & E2 & E4 & _). congruence. }
    split; [|split].
    - destruct Hout as [Hol Hoi]. unfold commitments_balance, out_amounts. rewrite !map_length. repeat split.
      + apply nth_ext_error; [rewrite !map_length, combine_length, !map_length; lia|]. intros j x0 y Ex Ey. rewrite nth_error_map in Ex, Ey.
        destruct (nth_error (signs tr) j) as [s|] eqn:Esg; [|discriminate]. cbn in Ex. injection Ex as <-.
        destruct (Hv _ _ Esg) as (i' & x' & E1 & E2 & E4 & E5 & E6 & _). rewrite (nth_combine _ _ _ (snd (fst x')) (se_amount (ia_src i'))) in Ey.
        * cbn in Ey. injection Ey as <-. now rewrite E6, E5.
        * now rewrite nth_error_map, E2.
        * now rewrite nth_error_map, E1.
      + lia.
      + apply nth_ext_error; [rewrite !map_length, combine_length, !map_length; lia|]. intros j x0 y Ex Ey. rewrite nth_error_map in Ex, Ey.
        destruct (nth_error (outputs tr) j) as [o|] eqn:Eo; [|discriminate]. cbn [option_map] in Ex. apply Some_inj in Ex. subst x0.
        destruct (nth_error mks j) as [mk|] eqn:Em; [|apply nth_error_None in Em; assert (j < length (outputs tr))%nat by (apply nth_error_Some; congruence); lia].
        rewrite (nth_combine _ _ _ mk (de_amount (oa_dst o))) in Ey; [|exact Em|now rewrite nth_error_map, Eo]. cbn [option_map fst snd] in Ey. apply Some_inj in Ey. subst y.
        destruct (Hoi _ _ _ Eo Em) as (add & der & B & akey & lm & b1 & _ & _ & _ & _ & _ & _ & _ & _ & Epk & _). rewrite Epk.
        rewrite skipn_app, skipn_all2, (law_pt_len C HL), Nat.sub_diag by (rewrite (law_pt_len C HL); lia). reflexivity.
      + lia.
      + rewrite Hsum, Esum, Hso by auto. rewrite Hmo.
        rewrite Zminus_mod, (Zplus_mod (zsum (alphas tr))), !fold_sc_add, !Z.add_0_l, <- Zplus_mod, <- Zminus_mod. f_equal. lia.
    - intros j s i aj Ej Ei Ea. rewrite nth_error_map in Ea. destruct (Hv _ _ Ej) as (i' & x' & E1 & E2 & _ & _ & _ & E6 & _). rewrite E2 in Ea. injection Ea as <-.
      assert (i' = i) by congruence. now subst i'.
    - intros Hd. apply map_ext_in. intros s Hs'. apply In_nth_error in Hs'. destruct Hs' as [j Ej]. destruct (Hv _ _ Ej) as (i' & x' & _ & _ & _ & _ & _ & _ & E7). auto.
  Qed.
End Sound.

(** [a] comes before or with [b] in the order of byte strings: a prefix, or smaller where they first differ *)
Definition bytes_le (a b : list Z) : Prop := (exists t, b = a ++ t) \/ exists p x y s t, a = p ++ x :: s /\ b = p ++ y :: t /\ x < y.
Lemma bytes_ltb_le : forall a b, bytes_ltb a b = false -> bytes_le b a.
Proof.
  induction a as [|x a IH]; intros [|y b]; cbn [bytes_ltb]; try discriminate; try (intros _; left; eexists; reflexivity).
  destruct (Z.eqb_spec x y) as [->|Hn].
  - intros H. destruct (IH _ H) as [[t ->]|(p & u & w & s & t & -> & -> & Hu)]; [left; exists t; reflexivity|]. right. exists (y :: p), u, w, s, t. auto.
  - intros H. right. exists [], y, x, b, a. split; [reflexivity|]. split; [reflexivity|]. lia.
Qed.

(** Output [i] of the transaction pays [e]: one-time key, commitment and encrypted amount. *)
Definition tx_pays (C : ops) (c : cfg C) (sg : signed) (i : nat) (e : dst_entry) : Prop :=
  exists s B mask, shared_secret C c e s /\ dec_pt C (spend_public_key (de_addr e)) = Ok B /\
    nth_error (sg_vout sg) i = Some ([0; 2] ++ enc_pt C (derive_pub C s (Z.of_nat i) B)) /\
    nth_error (sg_out_pk sg) i = Some (enc_pt C (gen_c C mask (de_amount e))) /\
    nth_error (sg_ecdh sg) i = Some (ecdh_bytes C c mask (de_amount e) (enc_int C (derivation_to_sc C s (Z.of_nat i)))).
(** Commitments to [amounts] with masks [a]. *)
Definition commitments (C : ops) (a amounts : list Z) : list (list Z) :=
  map (fun x => enc_pt C (gen_c C (fst x) (snd x))) (combine a amounts).
(** client versions and hard forks for which the agent takes over the device's pseudo outputs, or need not *)
Definition pseudo_outs_kept (x : construction) : Prop := 0 < tc_client_version x \/ tc_hf x < 10.

Section Transaction.
  Context {C : ops} (cr : creds C) (tp : nat -> tape) (hs : nat -> Z).

  Lemma agent_det x d c extra : agent_init x = Ok d -> init_params C (tp 0%nat) cr d = Ok (c, extra) ->
    c_client_version C c = tc_client_version x /\ (tc_hf x < 10 -> c_bp_version C c = 1).
  Proof.
    intros Hd Hpa. unfold agent_init in Hd. bnd Hd bs Hb. apply Ok_inj in Hd. unfold init_params in Hpa. cbv zeta in Hpa. bnd Hpa u Hc. destruct (classify_subaddresses _ _) as [[nstd nsub] single]. bnd Hpa rp Hr. bnd Hpa pe Hq. destruct pe as [pid ex].
    destruct (sec_keys C d pid (rnd (tp 0%nat) 0) (rnd (tp 0%nat) 1)) as [kh ke]. apply Ok_inj in Hpa. apply pair_inj in Hpa. destruct Hpa as [<- _]. rewrite <- Hd. cbn [c_client_version c_bp_version td_client_version td_bp_version].
    split; [reflexivity|]. intros H. replace (10 <=? tc_hf x) with false by lia. reflexivity.
  Qed.

  Definition nonempty (bs : list Z) : bool := match bs with [] => false | _ => true end.
  Lemma returned_rsigs tr : returned tr = filter nonempty (rsigs tr).
  Proof.
    unfold returned, rsigs. induction (outputs tr) as [|o l IH]; [reflexivity|]. cbn [flat_map]. rewrite IH, filter_app. f_equal.
    destruct (oa_rsig o) as [[|y t]|]; reflexivity.
  Qed.
  Lemma made_nonempty (B : list (list Z * list Z * bp C)) l : Forall2 made B l -> filter nonempty l = l.
  Proof. induction 1 as [|b bs B l [_ H] _ IH]; [reflexivity|]. cbn [filter]. destruct (dump_cons _ _ H) as (y & t & ->). cbn [nonempty]. now rewrite IH. Qed.

  Theorem agent_sorted x st st' ev sg : sign_transaction_data C cr tp hs x st = Ok ((st', ev), sg) ->
    Sorted (fun v w => bytes_le (skipn (length w - 32) w) (skipn (length v - 32) v)) (sg_vin sg).
  Proof.
    intros H. destruct (agent_traced _ _ _ _ _ _ _ _ H) as (d & r0 & tr & p & ins & fm & R). pose proof (ar_sorted _ _ _ _ _ _ _ _ _ _ _ R) as S. clear -S.
    induction S as [|v l _ IH Hh]; constructor; [exact IH|]. destruct Hh; constructor. now apply bytes_ltb_le.
  Qed.

  Theorem agent_transaction x st st' ev sg : codec_laws C -> (forall n i, 0 <= rnd (tp n) i < ell) ->
    sign_transaction_data C cr tp hs x st = Ok ((st', ev), sg) ->
    exists d c extra srcs a m blob fm,
      agent_init x = Ok d /\ init_params C (tp 0%nat) cr d = Ok (c, extra) /\
      (* every source is spent once *)
      Permutation srcs (tc_sources x) /\ length (sg_vin sg) = length srcs /\ length a = length srcs /\ length (sg_sigs sg) = length srcs /\
      (forall j s vini aj sig, nth_error srcs j = Some s -> nth_error (sg_vin sg) j = Some vini -> nth_error a j = Some aj -> nth_error (sg_sigs sg) j = Some sig ->
         spends C cr fm s vini aj sig) /\
      (* every destination is paid *)
      length (sg_vout sg) = length (tc_dsts x) /\ (forall i e, nth_error (tc_dsts x) i = Some e -> tx_pays C c sg i e) /\
      (* amounts and commitments balance *)
      zsum (map se_amount (tc_sources x)) = zsum (map de_amount (tc_dsts x)) + sg_fee sg /\ 0 <= sg_fee sg /\
      length m = length (tc_dsts x) /\ sg_out_pk sg = commitments C m (map de_amount (tc_dsts x)) /\
      (pseudo_outs_kept x -> sg_pseudo_outs sg = commitments C a (map se_amount srcs)) /\ zsum a mod ell = zsum m mod ell /\
      (* the signed message is the hash of this transaction *)
      prefix_blob (tc_unlock_time x) (sg_vin sg) (sg_vout sg) (sg_extra sg) = Ok blob /\
      oneshot C (cn_hash C blob) (sg_type sg) (sg_fee sg) (sg_ecdh sg) (sg_out_pk sg) (sg_rsigs sg) = Ok fm /\
      (* every output is covered by a range proof that was made or verified by the device *)
      (pseudo_outs_kept x -> exists B, concat (map (fun b => fst (fst b)) B) = map de_amount (tc_dsts x) /\
         sg_out_pk sg = commitments C (concat (map (fun b => snd (fst b)) B)) (map de_amount (tc_dsts x)) /\
         length (concat (map (fun b => snd (fst b)) B)) = length (tc_dsts x) /\
         Forall (fun b => proof_for C ev (fst (fst b)) (snd (fst b)) (snd b)) B /\
         (* the proofs in the transaction are these *)
         (c_rsig_offload C c = false ->
          Forall2 (fun b bs => (exists sd, prove_bp C (fst (fst b)) (snd (fst b)) sd = Ok (snd b)) /\ dump_rsig_bp C (snd b) = Ok bs) B (sg_rsigs sg)) /\
          (c_rsig_offload C c = true -> Forall2 (fun b bs => parse_bp C bs = Ok (snd b) /\ verify_bp C (snd b) (fst (fst b)) (snd (fst b)) = Ok true) B (sg_rsigs sg))).
  Proof.
    intros HL Hr H. destruct (agent_traced _ _ _ _ _ _ _ _ H) as (d & r0 & tr & p & ins & fm & R). clear H.
    destruct (agent_commit _ _ _ _ _ _ _ _ _ _ _ HL Hr R) as (c & extra & a & m & Hpa & (B1 & B2 & B3 & B4 & B5) & Hsp & Hdet).
    destruct R as [Re Rd Rs Rf Rt Rsrc Rp Rpm Rins Rnth Rv Rsg Rps Ro (ph & blob & Ra & Rb & Rph & Ros) Ru Rvin Rso Rvout Recdh Rpk Rsigs Rpo Rpr].
    destruct (agent_det _ _ _ _ Rd Hpa) as (Dc & Db).
    assert (Eam : out_amounts tr = map de_amount (tc_dsts x)) by (unfold out_amounts; rewrite <- Ro, map_map; reflexivity).
    assert (Eia : map (fun i => se_amount (ia_src i)) ins = map se_amount (map ia_src ins)) by (now rewrite map_map).
    assert (Elo : length (outputs tr) = length (tc_dsts x)) by (rewrite <- Ro; now rewrite map_length).
    assert (Els : length (signs tr) = length ins) by (apply (Forall2_len _ _ _ Rsg)).
    rewrite map_length in B2. rewrite Eam in B3, B4. rewrite map_length in B4. rewrite Eia in B1.
    assert (Hall : In (sg_extra sg, ph, sg_fee sg, sg_type sg, fm) (allouts tr)) by (rewrite Ra; now left).
    destruct (session_balance _ _ _ _ _ _ _ _ _ _ Rs Hall) as (Sb & Sf & Sn & Si & So).
    assert (Htd : td_outputs d = tc_dsts x /\ zsum (td_grouping d) = zlen (tc_dsts x) /\ Forall (fun g => 0 < g) (td_grouping d)).
    { unfold agent_init in Rd. bnd Rd bs Hb. apply Ok_inj in Rd. subst d. cbn [td_outputs td_grouping].
      destruct (auto_type_ok (tc_use_bulletproofs x) (zlen (tc_dsts x)) (zlen_nonneg _)) as (bs' & E1 & E2 & E3). rewrite Hb in E1. apply Ok_inj in E1. subst bs'.
      split; [reflexivity|]. split; [exact E2|]. eapply Forall_impl; [|exact E3]. intros g (G & _). lia. }
    destruct Htd as (Td & Tz & Tp).
    exists d, c, extra, (map ia_src ins), a, m, blob, fm. split; [exact Rd|]. split; [exact Hpa|].
    split; [rewrite <- Rsrc; now apply Permutation_map|]. rewrite Rvin, Rsigs, Rvout, !map_length.
    split; [reflexivity|]. split; [exact B2|]. split; [exact Els|].
    split. { intros j s vini aj sig E1 E2 E3 E4. rewrite nth_error_map in E1, E2, E4. destruct (nth_error ins j) as [i|] eqn:Ei; [|discriminate]. injection E1 as <-. injection E2 as <-.
      destruct (nth_error (signs tr) j) as [s|] eqn:Es; [|discriminate]. injection E4 as <-. eapply Hsp; eassumption. }
    split; [exact Elo|]. split.
    { intros i e He. pose proof Rs as H. apply session_sess in H. destruct H as (b & H).
      pose proof (sess_out _ _ _ _ _ _ H) as (c2 & extra2 & Hp & _ & _ & _ & (mks & Bs & ((Hl & Hat) & _) & _)). rewrite Hpa in Hp. apply Ok_inj in Hp. apply pair_inj in Hp. destruct Hp as [<- _].
      assert (Hi : (i < length (outputs tr))%nat) by (rewrite Elo; apply nth_error_Some; congruence).
      destruct (nth_error (outputs tr) i) as [o|] eqn:Eo; [|apply nth_error_None in Eo; lia].
      destruct (nth_error mks i) as [mask|] eqn:Em; [|apply nth_error_None in Em; lia].
      assert (oa_dst o = e) as <-. { rewrite <- Ro, nth_error_map, Eo in He. now injection He. }
      destruct (Hat _ _ _ Eo Em) as (add & der & Bp & akey & lm & b1 & Hb1 & Ha & Ht & Hd & HB & -> & Hm & O1 & O2 & O3).
      exists der, Bp, mask. split; [eapply derivation_secret; eassumption|]. split; [exact HB|]. rewrite Rvout, Rpk, Recdh, !nth_error_map, Eo. cbn [option_map]. rewrite O1, O2, O3.
      split; [reflexivity|]. split; [|reflexivity]. rewrite skipn_app, skipn_all2, (law_pt_len C HL), Nat.sub_diag by (rewrite (law_pt_len C HL); lia). reflexivity. }
    split. { rewrite <- Eam, <- Sb. unfold in_amounts. rewrite <- Rsrc, map_map. reflexivity. }
    split; [exact Sn|]. split; [exact B4|]. split; [rewrite Rpk; exact B3|]. split.
    { intros Hk. rewrite Rpo. unfold commitments. rewrite <- B1. destruct (0 <? tc_client_version x) eqn:Ev; cbn [andb].
      - apply map_ext_in. intros s Hs. rewrite Forall_forall in Rps. destruct (Rps _ Hs) as (P & ->). unfold zlen. rewrite (law_pt_len C HL). reflexivity.
      - apply Hdet. unfold is_det_mask. rewrite Dc. destruct Hk as [Hk|Hk]; [lia|]. rewrite (Db Hk), Ev. reflexivity. }
    split; [exact B5|]. split; [rewrite <- Rvin, <- Rvout, <- Ru; exact Rb|]. split; [rewrite <- Rph; exact Ros|].
    intros Hk. destruct Rpr as (tr1 & t & ex' & ph' & fee' & ty' & fm' & tr2 & Etr & Hsgr & Hoff).
    assert (Hr0 : exists tags, r0 = RInit tags (c_rsig_offload C c)).
    { apply session_sess in Rs. destruct Rs as (b & Hs). clear -Hs Hpa. induction Hs as [b Hs|]; [|assumption].
      apply init_inv in Hs. destruct Hs as (c' & e' & v & u & n & rv & h & h' & tags & sb & _ & Hp' & _ & _ & _ & _ & _ & _ & _ & E & _).
      rewrite Hpa in Hp'. apply Ok_inj in Hp'. apply pair_inj in Hp'. destruct Hp' as [<- _]. eauto. }
    destruct Hr0 as (tags & Hr0). rewrite Etr in Rs.
    destruct (session_proved_bytes _ _ _ _ _ _ _ _ _ _ _ _ c extra HL Rs Tp) as (B & (P1 & P2 & P3 & P4) & Pm & Pc).
    { rewrite Td. exact Tz. }
    { exact Hpa. }
    { intros Hod. apply (Hoff _ _ Hr0); [| |exact Tp|exact Tz].
      - apply andb_prop in Hod. destruct Hod as [-> Hod]. rewrite andb_true_r. unfold is_det_mask in Hod. rewrite Dc in Hod. destruct Hk as [Hk|Hk]; [lia|].
        rewrite (Db Hk) in Hod. cbn in Hod. lia.
      - apply andb_prop in Hod. destruct Hod as [Hod _]. rewrite (proj2 (params_rsig _ _ _ _ _ Hpa)), Td in Hod. lia. }
    assert (Eout : outputs tr = outputs tr1).
    { apply session_sess in Rs. destruct Rs as (b & Hs). destruct (allout_cut _ _ _ _ _ _ _ _ _ Hs) as (b1 & b2 & c' & extra' & _ & _ & _ & _ & _ & _ & N1 & N2 & _).
      rewrite Etr, outputs_app. change (outputs ((t, MAllOut, RAllOut ex' ph' fee' ty' fm') :: tr2)) with (outputs tr2). now rewrite N2, app_nil_r. }
    assert (Ea1 : out_amounts tr1 = map de_amount (tc_dsts x)) by (rewrite <- Eam; unfold out_amounts; now rewrite Eout).
    exists B. rewrite Ea1 in P1, P2. split; [exact P1|]. split; [rewrite Rpk, Eout; exact P2|]. split; [rewrite P3, <- Eout; exact Elo|].
    split; cycle 1.
    { specialize (Hsgr _ _ Hr0). destruct (c_rsig_offload C c); split; intros X; try discriminate X.
      - destruct (Pc eq_refl) as (Pc1 & Pc2). rewrite (Hsgr (is_det_mask C c)); [exact Pc1| |now rewrite returned_rsigs, Pc2].
        intros Hd. unfold is_det_mask in Hd. rewrite Dc in Hd. destruct Hk as [Hk|Hk]; [lia|]. rewrite (Db Hk) in Hd. cbn in Hd. lia.
      - specialize (Pm eq_refl). rewrite Hsgr, returned_rsigs, (made_nonempty _ _ Pm). exact Pm. }
    eapply Forall_impl; [|exact P4]. intros b (t' & dst & tg & rsig & offl & r & Hin & X). exists t', dst, tg, rsig, offl, r. split; [|exact X].
    rewrite Re, Etr. right. apply in_or_app. now left.
  Qed.
End Transaction.
