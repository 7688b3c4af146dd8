(** The session properties derived from the invariants: batches, range proofs, change, the signed message. *)
From Verif Require Import Py PyLemmas Addr_model Addr_proof Lists_model Lists_spec
  Signer_model Signer_spec Signer_base Signer_inv Signer_step Signer_inv2 Signer_inv3 Signer_props Signer_props2 Agent_model.
From Coq Require Import Permutation.

(** * Batches *)
Lemma zsum_firstn_S grp k g : nth_error grp k = Some g -> zsum (firstn (S k) grp) = zsum (firstn k grp) + g.
Proof.
  revert k. induction grp as [|x grp IH]; intros [|k] H; try discriminate.
  - injection H as ->. cbn. lia.
  - cbn [firstn zsum fold_right]. cbn [nth_error] in H. specialize (IH _ H). cbn [firstn] in IH. fold (zsum (firstn k grp)). fold (zsum (match grp with [] => [] | a :: l => a :: firstn k l end)). rewrite IH. lia.
Qed.
Lemma zsum_firstn_mono grp : Forall (fun g => 0 < g) grp -> forall i j, (i < j <= length grp)%nat -> zsum (firstn i grp) < zsum (firstn j grp).
Proof.
  intros H i j [Hij Hj]. induction j as [|j IH]; [lia|].
  destruct (nth_error grp j) as [g|] eqn:E; [|apply nth_error_None in E; lia]. rewrite (zsum_firstn_S _ _ _ E).
  assert (0 < g) by (rewrite Forall_forall in H; apply H; eapply nth_error_In; exact E).
  destruct (Nat.eq_dec i j) as [->|]; [lia|]. assert (zsum (firstn i grp) < zsum (firstn j grp)) by (apply IH; lia). lia.
Qed.
Lemma fold_left_zsum l : forall a, fold_left Z.add l a = a + zsum l.
Proof. induction l as [|x l IH]; intros a; cbn; [lia|]. rewrite IH. unfold zsum. lia. Qed.

Lemma batch_loop grp idx : forall fuel k r, (k <= length grp)%nat -> get_rsig_batch_loop fuel grp idx (Z.of_nat k) (zsum (firstn k grp)) = Ok r ->
  exists k', (k <= k' <= length grp)%nat /\ r = Z.of_nat k' - 1 /\ idx < zsum (firstn k' grp) /\ ((k < k')%nat -> zsum (firstn (k' - 1) grp) <= idx).
Proof.
  induction fuel as [|fuel IH]; intros k r Hk H; cbn [get_rsig_batch_loop] in H; destruct (_ <? idx + 1) eqn:E; try discriminate.
  - injection H as <-. exists k. repeat split; lia.
  - bnd H g Hg. apply py_get_nat in Hg. assert (k < length grp)%nat by (apply nth_error_Some; congruence).
    rewrite <- (zsum_firstn_S _ _ _ Hg) in H. replace (Z.of_nat k + 1) with (Z.of_nat (S k)) in H by lia.
    destruct (IH (S k) r ltac:(lia) H) as (k' & Hk' & -> & H1 & H2). exists k'. repeat split; try lia.
    intros _. destruct (Nat.eq_dec (S k) k') as [<-|]; [replace (S k - 1)%nat with k by lia; lia|]. apply H2. lia.
  - injection H as <-. exists k. repeat split; lia.
Qed.
Lemma batch_loop_ok grp idx : idx < zsum grp -> forall fuel k, (k <= length grp)%nat -> (length grp - k < fuel)%nat ->
  exists r, get_rsig_batch_loop fuel grp idx (Z.of_nat k) (zsum (firstn k grp)) = Ok r.
Proof.
  intros Hi. induction fuel as [|fuel IH]; intros k Hk Hf; [lia|]. cbn [get_rsig_batch_loop]. destruct (_ <? idx + 1) eqn:E; [|eauto].
  destruct (nth_error grp k) as [g|] eqn:Eg.
  - rewrite (proj2 (py_get_nat grp k g) Eg). cbn [bind]. rewrite <- (zsum_firstn_S _ _ _ Eg). replace (Z.of_nat k + 1) with (Z.of_nat (S k)) by lia.
    assert (k < length grp)%nat by (apply nth_error_Some; congruence). apply IH; lia.
  - apply nth_error_None in Eg. rewrite firstn_all2 in E by lia. lia.
Qed.
Lemma upto_nat {A} (l : list A) k : (k <= length l)%nat -> py_upto l (Z.of_nat k) = firstn k l.
Proof.
  intros H. unfold py_upto. f_equal. unfold py_clamp, zlen. destruct (Z.of_nat k <? 0) eqn:E; [lia|]. rewrite E. destruct (_ <? Z.of_nat k) eqn:E2; lia.
Qed.
(** output [i] closes a batch exactly when the batches up to some point have [i+1] outputs *)
Lemma last_of_sum grp i : Forall (fun g => 0 < g) grp -> 0 <= i ->
  (last_of grp i <-> exists k, (k <= length grp)%nat /\ i + 1 = zsum (firstn k grp)).
Proof.
  intros Hg Hi. unfold last_of, get_rsig_batch. split.
  - intros (r & H1 & H2). change 0 with (zsum (firstn 0 grp)) in H1 at 2. change 0 with (Z.of_nat 0) in H1 at 1.
    apply batch_loop in H1; [|lia]. destruct H1 as (k & Hk & -> & H3 & H4).
    destruct k as [|k]; [cbn in H3; lia|]. unfold is_last_in_batch in H2. bnd H2 s Hs. replace (Z.of_nat (S k) - 1) with (Z.of_nat k) in * by lia.
    apply py_get_nat in Hs. rewrite fold_left_zsum in H2. apply Ok_inj in H2.
    assert (py_upto grp (Z.of_nat k) = firstn k grp) as E.
    { apply upto_nat. lia. }
    rewrite E in H2. exists (S k). split; [lia|]. rewrite (zsum_firstn_S _ _ _ Hs). lia.
  - intros (k & Hk & E). destruct (batch_loop_ok grp i ltac:(pose proof (zsum_firstn_mono grp Hg k (length grp)); rewrite firstn_all in *; destruct (Nat.eq_dec k (length grp)); [subst; rewrite firstn_all in E; lia|lia])
      (S (length grp)) O ltac:(lia) ltac:(lia)) as (r & Hr). exists r. split; [exact Hr|].
    apply batch_loop in Hr; [|lia]. destruct Hr as (k' & Hk' & -> & H3 & H4). destruct k' as [|k']; [cbn in H3; lia|].
    specialize (H4 ltac:(lia)). replace (S k' - 1)%nat with k' in H4 by lia.
    assert (k = S k').
    { destruct (Nat.lt_trichotomy k (S k')) as [X|[X|X]]; [|exact X|].
      - assert (zsum (firstn k grp) <= zsum (firstn k' grp)); [|lia]. destruct (Nat.eq_dec k k') as [->|]; [lia|]. pose proof (zsum_firstn_mono grp Hg k k'). lia.
      - pose proof (zsum_firstn_mono grp Hg (S k') k). lia. }
    subst k. unfold is_last_in_batch. replace (Z.of_nat (S k') - 1) with (Z.of_nat k') by lia.
    destruct (nth_error grp k') as [g|] eqn:Eg; [|apply nth_error_None in Eg; lia].
    rewrite (proj2 (py_get_nat grp k' g) Eg). cbn [bind]. f_equal. rewrite fold_left_zsum.
    assert (py_upto grp (Z.of_nat k') = firstn k' grp) as -> by (apply upto_nat; lia).
    rewrite (zsum_firstn_S _ _ _ Eg) in E. lia.
Qed.
Lemma last_of_end grp : Forall (fun g => 0 < g) grp -> 0 < zsum grp -> last_of grp (zsum grp - 1).
Proof. intros H H1. apply last_of_sum; [exact H|lia|]. exists (length grp). rewrite firstn_all. split; lia. Qed.

Section Props3.
  Context {C : ops}.

  (** ** change *)
  Lemma session_change cr t0 d r0 tr o : session C cr t0 d r0 tr -> In o (td_outputs d) -> is_change d o ->
    exists a, td_account d = Some a /\
      de_addr o = {| spend_public_key := enc_pt C (fst (sub_addr_keys C (view_priv C cr) (spend_pub C cr) a 0));
                     view_public_key := enc_pt C (snd (sub_addr_keys C (view_priv C cr) (spend_pub C cr) a 0)) |}.
  Proof.
    intros H Hin (ch & Hch & Ea & Em & Hnz). apply session_sess in H. destruct H as (b & H).
    pose proof (sess_phase _ _ _ _ _ _ H) as (c & extra & Hp & _). unfold init_params in Hp. bnd Hp u Hc. clear Hp.
    unfold check_change in Hc. rewrite Hch in Hc.
    assert (E : (de_amount ch =? 0) = false) by lia. rewrite E, andb_false_r in Hc. cbn [andb] in Hc.
    bnd Hc u1 H1. bnd Hc my Hmy. unfold primary_change_address in Hmy. destruct (td_account d) as [a|]; [|discriminate]. exists a. split; [reflexivity|].
    destruct (sub_addr_keys C (view_priv C cr) (spend_pub C cr) a 0) as [D V]. apply Ok_inj in Hmy. subst my. cbn [fst snd].
    unfold guard in Hc. destruct (addr_eqb _ _) eqn:Eq in Hc; [|discriminate]. apply addr_eqb_spec in Eq. now rewrite Ea.
  Qed.

  Lemma params_rsig cr t0 d c extra : init_params C t0 cr d = Ok (c, extra) -> 
    c_rsig_grp C c = td_grouping d /\ c_rsig_offload C c = (0 <? td_rsig_type d) && (2 <? zlen (td_outputs d)).
  Proof.
    intros Hp. unfold init_params in Hp. cbv zeta in Hp. bnd Hp u Hc. destruct (classify_subaddresses _ _) as [[nstd nsub] single]. bnd Hp rp Hr. bnd Hp pe Hq. destruct pe as [pid ex].
    destruct (sec_keys C d pid (rnd t0 0) (rnd t0 1)) as [kh ke]. apply Ok_inj in Hp. apply pair_inj in Hp. destruct Hp as [<- _]. split; reflexivity.
  Qed.

  (** ** range proofs *)
  Lemma proved_proof_for c tr x : proved_in (C := C) c tr x -> proof_for C tr (fst (fst x)) (snd (fst x)) (snd x).
  Proof.
    intros (t & dst & tg & rsig & offl & r & out & Hin & Hok & Hr). exists t, dst, tg, rsig, offl, r. split; [exact Hin|].
    destruct Hok as [bytes H1 H2 H3 H4|bytes H1 H2 H3 H4 H5].
    - left. subst out. destruct r; try discriminate. subst. eauto 12.
    - right. eauto.
  Qed.
  Lemma proof_for_app tr tr' am ms p : proof_for C tr am ms p -> proof_for C (tr ++ tr') am ms p.
  Proof. intros (t & dst & tg & rsig & offl & r & Hin & H). exists t, dst, tg, rsig, offl, r. split; [apply in_or_app; now left|exact H]. Qed.

  Lemma out_commitments c tr mks : (forall P, length (enc_pt C P) = 32%nat) -> at_each2 (out_at (C := C) c) (outputs tr) mks ->
    map (fun o => skipn 32 (oa_out_pk o)) (outputs tr) = map (fun x => enc_pt C (gen_c C (fst x) (snd x))) (combine mks (out_amounts tr)).
  Proof.
    intros HL [Hol Hoi]. unfold out_amounts. apply nth_ext_error; [rewrite !map_length, combine_length, !map_length; lia|]. intros j x y Ex Ey. rewrite nth_error_map in Ex, Ey.
    destruct (nth_error (outputs tr) j) as [o|] eqn:Eo; [|discriminate]. cbn [option_map] in Ex. apply Some_inj in Ex. subst x.
    destruct (nth_error mks j) as [mk|] eqn:Em; [|apply nth_error_None in Em; assert (j < length (outputs tr))%nat by (apply nth_error_Some; congruence); lia].
    rewrite (nth_combine _ _ _ mk (de_amount (oa_dst o))) in Ey; [|exact Em|now rewrite nth_error_map, Eo]. cbn [option_map fst snd] in Ey. apply Some_inj in Ey. subst y.
    destruct (Hoi _ _ _ Eo Em) as (add & der & B & akey & lm & b1 & _ & _ & _ & _ & _ & _ & _ & _ & Epk & _). rewrite Epk.
    rewrite skipn_app, skipn_all2, HL, Nat.sub_diag by (rewrite HL; lia). reflexivity.
  Qed.

  Lemma session_proved_bytes cr t0 d r0 tr1 t ex ph fee ty fm tr2 c extra : codec_laws C -> session C cr t0 d r0 (tr1 ++ (t, MAllOut, RAllOut ex ph fee ty fm) :: tr2) ->
    Forall (fun g => 0 < g) (td_grouping d) -> zsum (td_grouping d) = zlen (td_outputs d) ->
    init_params C t0 cr d = Ok (c, extra) ->
    (c_rsig_offload C c && is_det_mask C c = true -> exists tr0 t m, tr1 = tr0 ++ [(t, m, ROffloaded)]) ->
    exists B, all_proved C tr1 B /\
      (c_rsig_offload C c = false -> Forall2 made B (rsigs tr1)) /\
      (c_rsig_offload C c = true -> Forall2 checked B (sent (is_det_mask C c) tr1) /\ rsigs tr1 = []).
  Proof.
    intros HL H Hg Hs Hp Hoff. apply session_sess in H. destruct H as (b & H).
    destruct (allout_cut _ _ _ _ _ _ _ _ _ H) as (b1 & b2 & c' & extra' & Hp' & H1 & Hc & He & Hst & Hstep & N1 & N2 & N3 & N4 & N5 & N6 & N7 & L1 & L2 & L3 & _ & Hn).
    rewrite Hp in Hp'. apply Ok_inj in Hp'. apply pair_inj in Hp'. destruct Hp' as [<- <-].
    pose proof (params_counts _ _ _ _ _ Hp) as (P1 & P2 & _).
    pose proof (proj1 (params_rsig _ _ _ _ _ Hp)) as Pg.
    pose proof (sess_out _ _ _ _ _ _ H1) as (c2 & e2 & Hp2 & _ & _ & Hph & (mks & B & (A1 & A2 & A3 & A4) & (B1 & B2 & B3 & B4 & B5) & _ & (D1 & D2))).
    rewrite Hp in Hp2. apply Ok_inj in Hp2. apply pair_inj in Hp2. destruct Hp2 as [<- _].
    assert (Ho : b_out_idx C b1 + 1 = c_output_count C c) by (inversion Hstep; assumption).
    assert (0 < c_output_count C c) as Hm.
    { unfold phase in Hph. rewrite Hst in Hph. destruct Hph as (j & X). lia. }
    assert (Hlast : last_of (c_rsig_grp C c) (c_output_count C c - 1)).
    { rewrite Pg, P2, <- Hs. apply last_of_end; [exact Hg|]. rewrite Hs, <- P2. exact Hm. }
    assert (Hnil : opt_list (b_amounts C b1) = [] /\ opt_list (b_masks C b1) = []).
    { destruct (c_rsig_offload C c && is_det_mask C c) eqn:Eo.
      - destruct (Hoff eq_refl) as (tr0 & t' & m' & ->). apply (D2 N6 _ _ _ eq_refl). replace (b_out_idx C b1) with (c_output_count C c - 1) by lia. exact Hlast.
      - apply D1; [reflexivity|intros X; rewrite X in L3; cbn in L3; lia|]. replace (Z.of_nat (length (outputs tr1)) - 1) with (c_output_count C c - 1) by lia. exact Hlast. }
    destruct Hnil as [Hnil Hmn]. rewrite Hnil, app_nil_r in B1.
    assert (Lm : length mks = length (outputs tr1)) by (destruct A1; lia).
    rewrite Hmn, app_nil_r in B2. exists B. split; [|exact B4]. split; [exact B1|]. rewrite B2. split; [apply (out_commitments c); [apply (law_pt_len C HL)|exact A1]|]. split; [exact Lm|].
    eapply Forall_impl; [|exact B3]. intros x. apply proved_proof_for.
  Qed.
  Lemma session_proved cr t0 d r0 tr1 t ex ph fee ty fm tr2 : codec_laws C -> session C cr t0 d r0 (tr1 ++ (t, MAllOut, RAllOut ex ph fee ty fm) :: tr2) ->
    Forall (fun g => 0 < g) (td_grouping d) -> zsum (td_grouping d) = zlen (td_outputs d) ->
    (exists c extra, init_params C t0 cr d = Ok (c, extra) /\
       (c_rsig_offload C c && is_det_mask C c = true -> exists tr0 t m, tr1 = tr0 ++ [(t, m, ROffloaded)])) ->
    exists B, all_proved C tr1 B.
  Proof.
    intros HL H Hg Hs (c & extra & Hp & Hoff). destruct (session_proved_bytes _ _ _ _ _ _ _ _ _ _ _ _ _ _ HL H Hg Hs Hp Hoff) as (B & HB & _). exists B. exact HB.
  Qed.
End Props3.

Section Message.
  Context {C : ops}.

  (** the proofs of a session, as far as their bytes were in its messages *)
  Lemma session_message cr t0 d r0 tr ex ph fee ty fm : codec_laws C -> session C cr t0 d r0 tr -> In (ex, ph, fee, ty, fm) (allouts tr) ->
    exists blob f B,
      prefix_blob (td_unlock_time d) (map (fun x => snd (fst x)) (vinis tr)) (map oa_tx_out (outputs tr)) ex = Ok blob /\ ph = cn_hash C blob /\
      fee = td_fee d /\ uvarint fee = Ok f /\
      fm = cn_hash C (ph ++ cn_hash C ([ty] ++ f ++ concat (map oa_ecdh (outputs tr)) ++ concat (map (fun o => skipn 32 (oa_out_pk o)) (outputs tr))) ++
                      cn_hash C (concat (map (fun x => bp_bytes C (snd x)) B))) /\
      Forall (fun x => proof_for C tr (fst (fst x)) (snd (fst x)) (snd x)) B /\
      (td_rsig_type d = 0 \/ zlen (td_outputs d) <= 2 -> Forall2 (fun x bs => dump_rsig_bp C (snd x) = Ok bs) B (rsigs tr)) /\
      forall s, In s (signs tr) -> exists x m a pc sd, mlsag_sign C fm (se_outputs (sa_src s)) x m a pc (se_real_output (sa_src s)) sd = Ok (sa_sig s) /\ sa_pseudo_out s = enc_pt C pc.
  Proof.
    intros HL H Hin. pose proof H as HS0. apply session_sess in H. destruct H as (b & H). pose proof Hin as Hin'. apply in_allouts in Hin. destruct Hin as (tr1 & t & ex' & ph' & fee' & ty' & fm' & tr2 & E & ->).
    injection E as <- <- <- <- <-.
    destruct (allout_cut _ _ _ _ _ _ _ _ _ H) as (b1 & b2 & c & extra & Hp & H1 & Hc & He & Hs & Hst & N1 & N2 & N3 & N4 & N5 & N6 & N7 & L1 & L2 & L3 & _ & Hn).
    destruct (params_counts _ _ _ _ _ Hp) as (P1 & P2 & P3 & _).
    pose proof (sess_prefix _ _ _ _ _ _ H1) as (c1 & e1 & Hp1 & _ & _ & Hph & Hpre).
    pose proof (sess_out _ _ _ _ _ _ H1) as (c2 & e2 & Hp2 & _ & _ & _ & (mks & B & (A1 & A2 & A3 & A4) & (B1 & B2 & B3 & B4 & B5) & (C1 & C2) & _)).
    pose proof (sess_sign _ _ _ _ _ _ H) as (c3 & e3 & Hp3 & _ & _ & _ & (S & (Hsl & Hsi) & _ & _ & Hfm)).
    rewrite Hp in Hp1, Hp2, Hp3. apply Ok_inj in Hp1, Hp2, Hp3. apply pair_inj in Hp1, Hp2, Hp3. destruct Hp1 as [<- _], Hp2 as [<- _], Hp3 as [<- _].
    destruct (Hpre N6) as (v & u & n & m & V1 & V2 & V3 & V4 & V5). destruct (C1 N6) as (h & rv & f & F1 & F2 & F3 & F4 & F5 & F6).
    assert (Hm : 0 < c_output_count C c) by (unfold phase in Hph; rewrite Hs in Hph; destruct Hph as (j & X); lia).
    assert (Hne : outputs tr1 <> []) by (intros X; rewrite X in L3; cbn in L3; lia).
    assert (Hfee : fee = td_fee d).
    { assert (HS : session C cr t0 d r0 (tr1 ++ (t, MAllOut, RAllOut ex ph fee ty fm) :: tr2)) by exact HS0.
      destruct (session_balance _ _ _ _ _ _ _ _ _ _ HS Hin') as (_ & X & _). exact X. }
    assert (HF : b_full_message C b = fm).
    { eapply Hfm. rewrite allouts_app. change (allouts ((t, MAllOut, RAllOut ex ph fee ty fm) :: tr2)) with ([(ex, ph, fee, ty, fm)] ++ allouts tr2). rewrite N5, N6. reflexivity. }
    assert (Ein : vinis (tr1 ++ (t, MAllOut, RAllOut ex ph fee ty fm) :: tr2) = vinis tr1) by (rewrite vinis_app; change (vinis ((t, MAllOut, RAllOut ex ph fee ty fm) :: tr2)) with (vinis tr2); now rewrite N3, app_nil_r).
    assert (Eout : outputs (tr1 ++ (t, MAllOut, RAllOut ex ph fee ty fm) :: tr2) = outputs tr1) by (rewrite outputs_app; change (outputs ((t, MAllOut, RAllOut ex ph fee ty fm) :: tr2)) with (outputs tr2); now rewrite N2, app_nil_r).
    unfold rsigs. rewrite Ein, Eout.
    assert (HT : forall x, proof_for C tr1 (fst (fst x)) (snd (fst x)) (snd x) -> proof_for C (tr1 ++ (t, MAllOut, RAllOut ex ph fee ty fm) :: tr2) (fst (fst x)) (snd (fst x)) (snd x)) by (intros; now apply proof_for_app).
    set (tr := tr1 ++ (t, MAllOut, RAllOut ex ph fee ty fm) :: tr2) in *. clearbody tr.
    pose proof (out_commitments c tr1 mks (law_pt_len C HL) A1) as Hcm.
    assert (X : exists n' p, b_prefix C b1 = Some p /\ uvarint (zlen ex) = Ok n' /\ ph = cn_hash C (p ++ n' ++ ex) /\ get_rct_type C c = Ok ty /\ fee = get_fee C c /\
      fm = cn_hash C ((fh_master h ++ ph) ++ cn_hash C (fh_rct h ++ concat (b_output_pk C b1)) ++ cn_hash C (fh_rsig h))).
    { clear -Hst F1. inversion Hst as [| | | | | |? ? n' p h' rv' h0 ? ? S1 S2 S3 S4 S5 S6 S7 S8 S9 S10 S11 S12| |]; subst. rewrite F1 in S8. apply Some_inj in S8. subst h'.
      exists n', p. repeat (split; [first [assumption|reflexivity]|]). reflexivity. }
    destruct X as (n' & p & S7 & S6 & Eph & S9 & Ef & Efm).
    rewrite S7 in V5. apply Some_inj in V5. rewrite S9 in F2. apply Ok_inj in F2. subst rv.
    exists (p ++ n' ++ ex), f, B. split.
    { unfold prefix_blob. rewrite V1, V2. cbn [bind]. unfold zlen at 1. rewrite map_length, L2, Z2Nat.id, V3 by lia. cbn [bind].
      unfold zlen at 1. rewrite map_length, L3, Z2Nat.id, (V4 Hne) by lia. cbn [bind]. rewrite S6. cbn [bind]. f_equal. rewrite V5.
      destruct (outputs tr1) eqn:Eo; [now destruct Hne|]. rewrite <- !app_assoc. reflexivity. }
    split; [exact Eph|]. split; [exact Hfee|]. split; [rewrite Ef; exact F3|].
    split.
    { rewrite Efm, F4, F5, F6, A3, Hcm. cbn [app]. do 3 f_equal. rewrite <- !app_assoc. cbn [app]. do 4 f_equal. unfold commits, out_amounts.
      f_equal. destruct A1 as [Al _]. clear -Al. revert Al. generalize (outputs tr1) as l. intros l. revert mks. induction l as [|o l IH]; intros [|m mks] Hl; try discriminate; [reflexivity|].
      cbn [combine map fst snd]. f_equal. apply IH. now injection Hl. }
    split. { eapply Forall_impl; [|exact B3]. intros x Hx. apply HT. eapply proved_proof_for. exact Hx. }
    split. { intros X. assert (Y : c_rsig_offload C c = false) by (rewrite (proj2 (params_rsig _ _ _ _ _ Hp)); lia). apply (proj1 B4) in Y. fold (rsigs tr1) in Y |- *.
      clear -Y. induction Y as [|x bs B l [_ Hx] _ IH]; constructor; assumption. }
    intros s Hs'. apply In_nth_error in Hs'. destruct Hs' as [k Ek].
    destruct (nth_error S k) as [[[[j a0] a1] pc]|] eqn:Ex; [|apply nth_error_None in Ex; assert (k < length (signs tr))%nat by (apply nth_error_Some; congruence); lia].
    destruct (Hsi _ _ _ Ek Ex) as (_ & _ & _ & _ & Hpo & (ks & sb & mask & real & P & Q & sd & _ & _ & _ & _ & _ & _ & _ & _ & Hsig)).
    rewrite HF in Hsig. eauto 8.
  Qed.
End Message.

(** * Batches as seen from outside *)
Section Batches.
  Context {C : ops}.
  Lemma output_event tr : forall i o, nth_error (outputs tr) i = Some o ->
    exists tr1 t e tg rs offl ot vt rsig mo pk ec tr2, tr = tr1 ++ (t, MSetOutput (Some e) tg rs offl, RSetOutput ot vt rsig mo pk ec) :: tr2 /\
      length (outputs tr1) = i /\ oa_rsig o = rsig.
  Proof.
    induction tr as [|ev tr IH]; intros i o H; [destruct i; discriminate|].
    destruct (outputs [ev]) as [|o1 l] eqn:E.
    - change (ev :: tr) with ([ev] ++ tr) in *. rewrite outputs_app, E in H. destruct (IH _ _ H) as (tr1 & t & e & tg & rs & offl & ot & vt & rsig & mo & pk & ec & tr2 & -> & Hl & Hr).
      exists (ev :: tr1), t, e, tg, rs, offl, ot, vt, rsig, mo, pk, ec, tr2. split; [reflexivity|]. split; [|exact Hr]. change (ev :: tr1) with ([ev] ++ tr1). now rewrite outputs_app, E.
    - destruct ev as [[t m] r]. destruct m; try discriminate. destruct dst as [e|]; [|discriminate]. destruct r; try discriminate. cbn in E. injection E as <- <-.
      destruct i as [|i].
      + cbn in H. injection H as <-. exists [], t, e, tag, rsig, offloaded_bp. do 6 eexists. exists tr. split; [reflexivity|]. split; reflexivity.
      + cbn [nth_error outputs flat_map app] in H. fold (outputs tr) in H. destruct (IH _ _ H) as (tr1 & t' & e' & tg' & rs' & offl' & ot & vt & rsg & mo & pk & ec & tr2 & -> & Hl & Hr).
        eexists (_ :: tr1), t', e', tg', rs', offl', ot, vt, rsg, mo, pk, ec, tr2. split; [reflexivity|]. split; [|exact Hr].
        cbn [outputs flat_map app length]. now rewrite <- Hl.
  Qed.

  Lemma session_batches cr t0 d r0 tr i o : session C cr t0 d r0 tr -> td_rsig_type d <= 0 \/ zlen (td_outputs d) <= 2 ->
    Forall (fun g => 0 < g) (td_grouping d) -> nth_error (outputs tr) i = Some o ->
    (oa_rsig o <> None <-> exists k, (k <= length (td_grouping d))%nat /\ Z.of_nat i + 1 = zsum (firstn k (td_grouping d))).
  Proof.
    intros H Ho Hg Hi. apply session_sess in H. destruct H as (b & H).
    destruct (output_event _ _ _ Hi) as (tr1 & t & e & tg & rs & offl & ot & vt & rsig & mo & pk & ec & tr2 & -> & Hl & Er). rewrite Er.
    destruct (sess_split _ _ _ _ _ _ _ _ _ _ H) as (b1 & b2 & H1 & _ & _ & Hst).
    pose proof (sess_phase _ _ _ _ _ _ H1) as (c & extra & Hp & Hc & He & Hph). rewrite Hc in Hst.
    destruct (params_rsig _ _ _ _ _ Hp) as (P1 & P2). assert (Eo : c_rsig_offload C c = false) by (rewrite P2; lia). rewrite <- P1 in Hg |- *.
    rewrite <- (last_of_sum (c_rsig_grp C c) (Z.of_nat i)) by (auto; lia).
    inversion Hst as [| | | | |? ? ? ? n am ms p1 key akey mask add der B lm ap aq ro mo' vtag h4 h4' h5 am' ms' pr b1' b2' b3 b' S1 S2 S3 S4 S5 S6 S7 S8 S9 S10 S11 S12 S13 S14 S15 S16 S17 S18 S19 S20 S21 S22 Eb| | |]; clear Eb S21 S22.
    destruct (phase_outputs _ _ _ _ Hph S2) as (Hlen & _). rewrite Hl in Hlen.
    destruct S18 as (bidx & lst & Hb & Hls & Hpr). rewrite <- Hlen in Hb, Hls. destruct pr as [p|].
    - destruct Hpr as (-> & _ & _ & Hok & _). destruct Hok as [bytes _ _ _ Eout|bytes Hx]; [|congruence]. split; [intros _; exists bidx; auto|]. intros _. subst rsig. rewrite Eout. discriminate.
    - destruct Hpr as (Hcond & _ & _ & _ & Eout). split; [intros X; subst rsig; now destruct X|]. intros Hlo. pose proof (last_of_fun _ _ _ _ Hb Hls Hlo) as ->. rewrite Eo in Hcond. destruct Hcond; discriminate.
  Qed.

  (** every output of an admissible grouping lies in exactly one batch *)
  Lemma batch_partition grp i : Forall (fun g => 0 < g) grp -> 0 <= i < zsum grp ->
    exists k last, get_rsig_batch grp i = Ok (Z.of_nat k) /\ is_last_in_batch grp i (Z.of_nat k) = Ok last /\ (k < length grp)%nat /\
      zsum (firstn k grp) <= i < zsum (firstn (S k) grp) /\ (last = true <-> i + 1 = zsum (firstn (S k) grp)) /\
      forall k', (k' < length grp)%nat -> zsum (firstn k' grp) <= i < zsum (firstn (S k') grp) -> k' = k.
  Proof.
    intros Hg Hi. destruct (batch_loop_ok grp i ltac:(lia) (S (length grp)) O ltac:(lia) ltac:(lia)) as (r & Hr).
    pose proof Hr as Hr'. apply batch_loop in Hr; [|lia]. destruct Hr as (k1 & Hk & -> & H3 & H4). destruct k1 as [|k]; [cbn in H3; lia|].
    specialize (H4 ltac:(lia)). replace (S k - 1)%nat with k in H4 by lia. replace (Z.of_nat (S k) - 1) with (Z.of_nat k) in Hr' by lia.
    destruct (nth_error grp k) as [g|] eqn:Eg; [|apply nth_error_None in Eg; lia].
    exists k, (i - zsum (firstn k grp) + 1 =? g). split; [exact Hr'|].
    split. { unfold is_last_in_batch. rewrite (proj2 (py_get_nat grp k g) Eg). cbn [bind]. now rewrite fold_left_zsum, upto_nat by lia. }
    split; [lia|]. split; [lia|]. split. { rewrite (zsum_firstn_S _ _ _ Eg). lia. }
    intros k' Hk' [U1 U2]. destruct (Nat.lt_trichotomy k' k) as [X|[X|X]]; [|exact X|].
    - assert (zsum (firstn (S k') grp) <= zsum (firstn k grp)); [|lia]. destruct (Nat.eq_dec (S k') k) as [->|]; [lia|]. pose proof (zsum_firstn_mono grp Hg (S k') k). lia.
    - assert (zsum (firstn (S k) grp) <= zsum (firstn k' grp)); [|lia]. destruct (Nat.eq_dec (S k) k') as [->|]; [lia|]. pose proof (zsum_firstn_mono grp Hg (S k) k'). lia.
  Qed.
End Batches.

Section SignInit.
  Context {C : ops}.
  Lemma sign_not_init (cr : creds C) H t m sg po : history C cr (H ++ [(t, m, RSign sg po)]) -> ~ is_init m.
  Proof.
    unfold history. rewrite !map_app. cbn [map fst snd]. rewrite run_snd_app. intros Hh.
    destruct (run C cr (fst (run C cr None (map fst H))) [(t, m)]) as [s rs] eqn:E. cbn [run] in E.
    destruct (tsx_sign C cr (fst (run C cr None (map fst H))) t m) as [s' r] eqn:E1. injection E as <- <-. cbn [snd] in Hh. apply app_inj_tail in Hh. destruct Hh as [_ ->].
    intros Hi. destruct m; try contradiction. unfold tsx_sign in E1. cbn [sign] in E1.
    destruct (init_transaction C t d _) as [[b r]|e] eqn:Ei in E1; [|congruence]. 
    unfold init_transaction in Ei. bnd Ei b1 H1. destruct (negb (answer t)); [apply Ok_inj in Ei; apply pair_inj in Ei; destruct Ei as [<- <-]; congruence|].
    bnd Ei b2 H2. bnd Ei p H3. destruct p as [c extra]. bnd Ei v1 H4. bnd Ei v2 H5. bnd Ei v3 H6. bnd Ei b3 H7. bnd Ei b4 H8. bnd Ei v4 H9. bnd Ei b5 H10. bnd Ei tags H11.
    apply Ok_inj in Ei. apply pair_inj in Ei. destruct Ei as [<- <-]. congruence.
  Qed.
End SignInit.
