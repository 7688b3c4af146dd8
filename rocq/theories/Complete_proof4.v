(** Completeness of the signing protocol: end of the outputs, signatures, final message. *)
From Verif Require Import Py PyLemmas Protobuf_model Protobuf_spec Protobuf_proof Addr_model Addr_spec Addr_proof Lists_model Lists_spec Lists_proof
  Signer_model Signer_spec Signer_base Signer_inv2 Signer_props Signer_props2 Signer_props3 KeySep_proof Agent_model Complete_spec Complete_proof1 Complete_proof2 Complete_proof3.
From Coq Require Import Permutation.

Section End_.
  Context (C : ops) (cr : creds C) (tp : nat -> tape) (hs : nat -> Z) (x : construction).
  Context (L : prim_laws C) (W : well_formed C cr x) (T : honest_tapes tp).
  Notation n := (zlen (tc_sources x)).
  Notation m := (zlen (tc_dsts x)).
  Notation dsts := (tc_dsts x).
  Context (c : cfg C) (grp : list Z) (ex : list Z) (Cok : cfg_ok C cr tp x c grp) (Gok : grp_ok x grp).
  Context (perm : list Z) (ins : list in_data) (Pok : perm_ok C tp x c perm ins).
  Context (gm : list Z) (lmf : option Z) (Mok : det x = false -> masks_ok C tp x c gm lmf).
  Notation det := (det x).
  Notation Bo := (Bo C tp x c ex perm).
  Notation pf0 := (pre0 x ++ concat (map id_vini ins)).
  Notation Inv := (Inv C cr tp x c grp ex perm gm lmf pf0 (get_fee C c)).

  (** the device while it signs *)
  Definition Bs (st : tstate) (inp : Z) (proc : bool) (sout : Z) (opk : list (list Z)) (am ms : option (list Z)) (lm : option Z) (so sp : Z)
    (ph full : list Z) (ap : list Z) (au : list (list Z)) : builder C :=
    Build_builder C c st inp (-1) proc (last_amount x) (in_sum x (length (tc_sources x))) sout opk am ms lm so sp
      None ex perm None ph None full ap au.

  Lemma out_pk_fold (l : list (list Z)) : l <> [] -> forall (b : builder C) h, b_full C b = Some h -> fh_state h = 4 \/ fh_state h = 5 ->
    foldM (fun b p => full_do C (fh_set_out_pk p) b) l b = Ok (set_full C (Some (fh_rct_add 5 (concat l) h)) b).
  Proof.
    intros Hl b. induction l as [|p l IH] using rev_ind; [now elim Hl|]. intros h Hb Hh. rewrite foldM_app. destruct l as [|p0 l].
    - cbn [app foldM bind concat]. unfold full_do. rewrite Hb. unfold fh_set_out_pk. replace ((fh_state h =? 4) || (fh_state h =? 5)) with true by lia. cbn [guard bind]. now rewrite app_nil_r.
    - rewrite (IH ltac:(discriminate) h Hb Hh). cbn [bind foldM]. unfold full_do. bsr. unfold fh_set_out_pk. cbn [fh_state fh_rct_add Z.eqb Pos.eqb orb guard bind].
      f_equal. rewrite concat_app. unfold fh_rct_add. cbn [concat fh_simple fh_master fh_rsig fh_rct]. rewrite app_nil_r, <- !app_assoc. now destruct b.
  Qed.

  Lemma all_out_ok o : Inv (length dsts) o -> exists mss ap au am ms lm proc extra ph fl ev', let so := fold_left sc_add mss 0 in
    call C cr tp MAllOut (os_conn C o) = Ok ((Some (Bs FINAL_MESSAGE (-1) proc (zsum (map de_amount dsts)) (map (skipn 32) (os_out_pk C o)) am ms lm so (asum tp (length (tc_sources x))) ph fl ap au), ev'),
        RAllOut extra ph (get_fee C c) (ty0 x) fl) /\
    (let* b := prefix_blob (tc_unlock_time x) (map id_vini ins) (os_vout C o) extra in Ok (cn_hash C b)) = Ok ph /\
    oneshot C ph (ty0 x) (get_fee C c) (os_ecdh C o) (map (skipn 32) (os_out_pk C o)) (os_rsigs C o) = Ok fl /\
    length (os_vout C o) = length dsts /\ length (os_out_pk C o) = length dsts /\
    0 <= so < ell /\ (det = false -> asum tp (length (tc_sources x)) = so).
  Proof.
    intros (mss & am & ms & proc & (lm & h & ap & au & ev & ps & Hconn & F1 & F2 & F3 & F4 & F5 & I1 & I2 & I3 & I4 & I5 & _) & _).
    assert (Cok' := Cok). destruct Cok' as (C1 & C2 & C3 & C4 & C5 & C6 & C7 & C8 & C9 & C10 & C11 & C12 & C13 & C14).
    assert (W' := W). destruct W' as (Wn & Wm & Wu & _ & _ & _ & _ & _ & _ & Wsum).
    rewrite firstn_all in Hconn. set (so := fold_left sc_add mss 0). set (b0 := Bo (st_of (length dsts)) _ _ _ _ _ _ _ _ _ _ _ _) in Hconn.
    assert (exists extra, extra_with_keys C b0 = Ok extra) as (extra & Ex).
    { unfold extra_with_keys. destruct (c_need_additional C (b_cfg C b0)); [|eauto]. rewrite uvarint_ok by apply zlen_nonneg. cbn [bind]. eauto. }
    set (prefix := pf_of x pf0 (length dsts) (os_vout C o) ++ varint (zlen extra) ++ extra). set (ph := cn_hash C prefix).
    set (fl := cn_hash C ((ph ++ cn_hash C ((([ty0 x] ++ varint (get_fee C c) ++ concat (os_ecdh C o)) ++ concat (map (skipn 32) (os_out_pk C o))))) ++ cn_hash C (concat (map (bp_bytes C) ps)))).
    eexists mss, ap, au, am, ms, lm, proc, extra, ph, fl, _.
    assert (Hd : length dsts <> 0%nat) by (unfold zlen in Wm; lia). destruct (length dsts) as [|mm] eqn:Em; [congruence|].
    split; [|split; [|split; [|split; [exact I3|split; [exact I4|split]]]]].
    - rewrite Hconn. apply call_ok; [exact (fun y => y)| |reflexivity|discriminate].
      unfold sign. assert (all_out_set C b0 = Ok (Bs FINAL_MESSAGE (-1) proc (zsum (map de_amount dsts)) (map (skipn 32) (os_out_pk C o)) am ms lm so (asum tp (length (tc_sources x))) ph fl ap au, RAllOut extra ph (get_fee C c) (ty0 x) fl)) as ->; [|reflexivity].
      unfold all_out_set. unfold transition at 1. change (b_state C b0) with OUTPUT. cbn [existsb tstate_beq orb guard bind]. bsr. change (b_cfg C b0) with c.
      change (b_out_idx C b0) with (Z.of_nat (S mm) - 1). change (b_sum_in C b0) with (in_sum x (length (tc_sources x))).
      assert (b_sum_out C b0 = zsum (map de_amount dsts)) as -> by reflexivity.
      rewrite C8, C10. assert (in_sum x (length (tc_sources x)) = zsum (map se_amount (tc_sources x))) as -> by (unfold in_sum; now rewrite firstn_all).
      replace (Z.of_nat (S mm) - 1 + 1 =? m) with true by (unfold zlen; lia). rewrite Z.eqb_refl. cbn [guard bind].
      assert (extra_with_keys C (set_state C OUTPUT_DONE b0) = Ok extra) as -> by exact Ex. cbn [bind].
      replace (zsum (map se_amount (tc_sources x)) <? zsum (map de_amount dsts)) with false by lia. cbn [negb guard bind]. rewrite uvarint_ok by apply zlen_nonneg. cbn [bind].
      unfold prefix_add. bsr. change (b_prefix C b0) with (Some (pf_of x pf0 (S mm) (os_vout C o))). cbn [bind]. bsr. fold prefix. fold ph.
      unfold full_do at 1. bsr. change (b_full C b0) with (Some h). cbn [bind].
      assert (Er : get_rct_type C c = Ok (ty0 x)) by (unfold get_rct_type, ty0; rewrite C12; destruct (10 <=? tc_hf x); reflexivity). rewrite Er. cbn [bind].
      unfold transition. bsr. cbn [existsb tstate_beq orb guard bind]. bsr. change (b_output_pk C b0) with (map (skipn 32) (os_out_pk C o)).
      replace (m =? zlen (map (skipn 32) (os_out_pk C o))) with true by (unfold zlen; rewrite map_length; lia). cbn [guard bind].
      rewrite (out_pk_fold (map (skipn 32) (os_out_pk C o))) with (h := fh_set_message ph h); [|destruct (os_out_pk C o); [discriminate I4|discriminate]|reflexivity|left; exact F1].
      cbn [bind]. unfold full_do. bsr. unfold fh_base_done. cbn [fh_state fh_rct_add Z.eqb Pos.eqb guard bind]. bsr. unfold fh_digest. cbn [fh_state Z.eqb Pos.eqb guard bind].
      unfold fh_rct_add, fh_set_message. cbn [fh_master fh_rct fh_rsig]. rewrite F2, F3, F5. cbn [app]. reflexivity.
    - destruct Pok as (_ & P2 & _). unfold prefix_blob. rewrite !uvarint_ok by (lia || apply zlen_nonneg). cbn [bind]. f_equal. unfold ph, prefix, pf_of, pre0.
      replace (zlen (map id_vini ins)) with n by (unfold zlen; now rewrite map_length, P2). replace (zlen (os_vout C o)) with m by (unfold zlen; lia).
      f_equal. rewrite <- !app_assoc. reflexivity.
    - unfold oneshot. rewrite uvarint_ok by (unfold get_fee; destruct (0 <? c_fee C c) eqn:E; lia). cbn [bind]. rewrite F4. cbn [bind]. unfold fl. rewrite <- !app_assoc. reflexivity.
    - apply fold_sc_range. split; [lia|reflexivity].
    - intros D. destruct (Mok D) as (M1 & _ & M3 & _). unfold so. rewrite (I5 D), firstn_all2 by (unfold zlen in M1; lia). congruence.
  Qed.

  Lemma sc_fix a b : 0 <= b < ell -> sc_add a (sc_sub b a) = b.
  Proof. intros H. unfold sc_add, sc_sub. rewrite Zplus_mod_idemp_r. replace (a + (b - a)) with b by lia. now apply Z.mod_small. Qed.

  Definition sp_ok (so : Z) (k : nat) (sp : Z) : Prop := sp = so \/ det = true /\ ~ In (n - 1) (firstn k perm).
  Lemma sign_ok t k i proc sout opk am ms lm so sp ph fl ap au : nth_error ins k = Some i -> 0 <= so < ell -> sp_ok so k sp ->
    exists sp' sg po, sign_input C t (id_src i) (id_vini i) (id_tag i) (Some (id_pseudo i)) (id_pseudo_tag i) (Some (id_alpha i)) (id_spend i)
        (Bs (match k with O => FINAL_MESSAGE | _ => SIGNATURE end) (Z.of_nat k - 1) proc sout opk am ms lm so sp ph fl ap au) =
      Ok (Bs (if (S k =? length (tc_sources x))%nat then SIGNATURE_DONE else SIGNATURE) (Z.of_nat (S k) - 1) proc sout opk am ms lm so sp' ph fl ap au, RSign sg po) /\ sp_ok so (S k) sp'.
  Proof.
    intros Hi Hso Hsp. destruct Pok as (P1 & P2 & P3). destruct (P3 k i Hi) as (q & Hq & (J1 & J2 & J3 & J4 & ka & ks & xi & real & P & mask & Q & K1 & K2 & K3 & K4 & K5 & K6 & K7 & K8 & K9 & K10 & K11 & K12)).
    assert (Hk : (k < length (tc_sources x))%nat) by (rewrite <- P2; apply nth_error_Some; congruence).
    assert (Hqn : (q < length (tc_sources x))%nat) by (apply nth_error_Some; congruence).
    assert (Hpl : length perm = length (tc_sources x)).
    { rewrite (Permutation_length P1). pose proof (zlen_zrange n (zlen_nonneg _)) as E. unfold zlen in *. lia. }
    assert (Cok' := Cok). destruct Cok' as (C1 & C2 & C3 & C4 & C5 & C6 & C7 & C8 & C9 & C10 & C11 & C12 & C13 & C14).
    assert (Hal : 0 <= alpha tp q < ell) by (apply T).
    unfold sign_input. set (b := Bs _ _ _ _ _ _ _ _ _ _ _ _ _ _). change (b_cfg C b) with c. unfold transition at 1. change (b_state C b) with (match k with O => FINAL_MESSAGE | _ => SIGNATURE end).
    assert (existsb (tstate_beq (match k with O => FINAL_MESSAGE | _ => SIGNATURE end)) [FINAL_MESSAGE; SIGNATURE] = true) as -> by (destruct k; reflexivity). cbn [guard bind]. bsr.
    change (b_inp_idx C b) with (Z.of_nat k - 1). replace (Z.of_nat k - 1 + 1) with (Z.of_nat k) by lia. rewrite C7. replace (Z.of_nat k <? n) with true by (unfold zlen; lia). cbn [guard bind].
    change (b_perm C b) with perm. rewrite (proj2 (py_get_nat perm k _) Hq). cbn [bind]. rewrite J2. cbn [bind]. rewrite zlist_eqb_refl. cbn [guard bind]. rewrite K1. cbn [bind]. rewrite K2. cbn [bind].
    rewrite (law_int C (pl_codec C L)) by exact Hal. rewrite (det_ok C cr tp x c grp Cok). change (b_sumout C b) with so. change (b_sumpouts C b) with sp.
    assert (R : exists al sp', 0 <= al < ell /\ sp_ok so (S k) sp' /\
      (if det && (Z.of_nat q + 1 =? n) then
         let diff := sc_sub so sp in let alpha := sc_add (alpha tp q) diff in
         let b := set_sumpouts C (sc_add sp diff) (set_inp_idx C (Z.of_nat k) (set_state C SIGNATURE b)) in
         let* _ := guard (b_sumpouts C b =? b_sumout C b) AssertionError in Ok (b, alpha, gen_c C alpha (b_input_last_amount C b))
       else
         let* _ := guard (negb (Z.of_nat k + 1 =? n) || (sp =? so)) AssertionError in
         let* comp := tag_of C (c_key_hmac C c) d_txin_comm (Z.of_nat q) (id_pseudo i) in
         let* _ := guard (zlist_eqb comp (id_pseudo_tag i)) ValueError in
         let* P := dec_pt C (id_pseudo i) in
         Ok (set_inp_idx C (Z.of_nat k) (set_state C SIGNATURE b), alpha tp q, P)) = 
      Ok (Bs SIGNATURE (Z.of_nat k) proc sout opk am ms lm so sp' ph fl ap au, al, gen_c C al (se_amount (id_src i)))).
    { destruct (det && (Z.of_nat q + 1 =? n)) eqn:E.
      - exists (sc_add (alpha tp q) (sc_sub so sp)), so. split; [apply sc_add_range|]. split; [now left|]. cbv zeta. bsr. change (b_sumout C b) with so. rewrite sc_fix by exact Hso. rewrite Z.eqb_refl. cbn [guard bind].
        change (b_input_last_amount C b) with (last_amount x). assert (last_amount x = se_amount (id_src i)) as ->; [|reflexivity].
        unfold last_amount. apply andb_prop in E. replace (length (tc_sources x) - 1)%nat with q by (unfold zlen in E; lia). now rewrite J1.
      - assert (Hsp' : sp_ok so (S k) sp).
        { destruct Hsp as [Hsp|[D Hn]]; [now left|]. right. split; [exact D|]. rewrite (firstn_snoc_nth _ _ _ Hq). rewrite in_app_iff. intros [H|[H|[]]]; [tauto|]. rewrite D in E. cbn [andb] in E. lia. }
        exists (alpha tp q), sp. split; [exact Hal|]. split; [exact Hsp'|].
        assert (negb (Z.of_nat k + 1 =? n) || (sp =? so) = true) as ->.
        { destruct (Z.eqb_spec (Z.of_nat k + 1) n) as [En|]; [|reflexivity]. cbn [negb orb]. destruct Hsp' as [->|[D Hn]]; [apply Z.eqb_refl|]. exfalso. apply Hn.
          rewrite firstn_all2 by (unfold zlen in En; lia). apply Permutation_in with (zrange n); [now symmetry|]. apply In_zrange. unfold zlen in *. lia. }
        cbn [guard bind]. rewrite J4. cbn [bind]. rewrite zlist_eqb_refl. cbn [guard bind]. rewrite J3, (law_pt C (pl_codec C L)). cbn [bind]. reflexivity. }
    destruct R as (al & sp' & A1 & A2 & R). cbv zeta in R. bsr_in R. change (b_sumout C b) with so in R. rewrite R. clear R. cbn [bind]. rewrite K3. cbn [bind]. rewrite K4. cbn [bind]. rewrite (law_int C (pl_codec C L)) by exact K5.
    rewrite K9. cbn [bind]. rewrite K6. cbn [bind]. rewrite K7. cbn [bind]. rewrite K8. cbn [guard bind]. rewrite K10. cbn [bind]. rewrite K11. cbn [guard bind].
    destruct (K12 (b_full_message C (Bs SIGNATURE (Z.of_nat k) proc sout opk am ms lm so sp' ph fl ap au)) al (seed t) A1) as (sg & ->). cbn [bind].
    change (b_inp_idx C (Bs _ _ _ _ _ _ _ _ _ _ _ _ _ _)) with (Z.of_nat k). replace (Z.of_nat (S k) - 1) with (Z.of_nat k) by lia.
    exists sp', sg, (enc_pt C (gen_c C al (se_amount (id_src i)))). split; [|exact A2].
    destruct (Nat.eqb_spec (S k) (length (tc_sources x))) as [E|E].
    - replace (Z.of_nat k + 1 =? n) with true by (unfold zlen; lia). reflexivity.
    - replace (Z.of_nat k + 1 =? n) with false by (unfold zlen; lia). reflexivity.
  Qed.
  Lemma signs_ok proc sout opk am ms lm so ph fl ap au ev0 : 0 <= so < ell -> (det = false -> asum tp (length (tc_sources x)) = so) ->
    exists sp ev sigs, agent_signs C cr tp x ins (Some (Bs FINAL_MESSAGE (-1) proc sout opk am ms lm so (asum tp (length (tc_sources x))) ph fl ap au), ev0) =
      Ok ((Some (Bs SIGNATURE_DONE (n - 1) proc sout opk am ms lm so sp ph fl ap au), ev), sigs) /\ length sigs = length (tc_sources x).
  Proof.
    intros Hso Hd. destruct Pok as (P1 & P2 & P3). destruct W as (Wn & _). unfold agent_signs.
    assert (G : forall k, (k <= length ins)%nat -> exists sp ev sigs,
      foldM (fun '(s, acc) i =>
      let* (s, r) := call C cr tp (MSign (id_src i) (id_vini i) (id_tag i) (Some (id_pseudo i)) (id_pseudo_tag i) (Some (id_alpha i)) (id_spend i)) s in
      match r with
      | RSign sig po =>
          Ok (s, acc ++ [(sig, if (0 <? tc_client_version x) && (0 <? zlen po) then po else id_pseudo i)])
      | _ => Err TypeError
      end) (firstn k ins) ((Some (Bs FINAL_MESSAGE (-1) proc sout opk am ms lm so (asum tp (length (tc_sources x))) ph fl ap au), ev0), []) =
      Ok ((Some (Bs (match k with O => FINAL_MESSAGE | _ => if (k =? length (tc_sources x))%nat then SIGNATURE_DONE else SIGNATURE end) (Z.of_nat k - 1) proc sout opk am ms lm so sp ph fl ap au), ev), sigs) /\
      length sigs = k /\ sp_ok so k sp).
    { induction k as [|k IH]; intros Hk.
      - eexists _, _, []. split; [reflexivity|]. split; [reflexivity|]. unfold sp_ok. destruct det; [right; split; [reflexivity|exact (fun f => f)]|left; auto].
      - destruct IH as (sp & ev & sigs & E & Hl & Hsp); [lia|]. destruct (nth_error ins k) as [i|] eqn:Ei; [|apply nth_error_None in Ei; lia].
        destruct (sign_ok (tp (length ev)) k i proc sout opk am ms lm so sp ph fl ap au Ei Hso Hsp) as (sp' & sg & po & Es & Hsp').
        rewrite (firstn_snoc_nth _ _ _ Ei), foldM_app, E. cbn [bind foldM].
        replace (match k with O => FINAL_MESSAGE | S _ => if (k =? length (tc_sources x))%nat then SIGNATURE_DONE else SIGNATURE end) with (match k with O => FINAL_MESSAGE | S _ => SIGNATURE end)
          by (destruct k; [reflexivity|]; now replace (S k =? length (tc_sources x))%nat with false by (symmetry; apply Nat.eqb_neq; lia)).
        rewrite (call_ok C cr tp (MSign (id_src i) (id_vini i) (id_tag i) (Some (id_pseudo i)) (id_pseudo_tag i) (Some (id_alpha i)) (id_spend i)) _ ev _ _ ltac:(exact (fun y => y))
          (f_equal (fun y => let* (b, r) := y in Ok (b, Some r)) Es)); [|destruct (S k =? length (tc_sources x))%nat; reflexivity|discriminate].
        cbn [bind]. exists sp'. eexists _, _. split; [reflexivity|]. split; [rewrite app_length; cbn; lia|exact Hsp']. }
    destruct (G (length ins) (le_n _)) as (sp & ev & sigs & E & Hl & _). rewrite firstn_all in E. exists sp, ev, sigs. split; [|congruence]. etransitivity; [exact E|]. rewrite P2, Nat.eqb_refl. unfold zlen in Wn.
    destruct (length (tc_sources x)) eqn:El; [lia|]. unfold zlen. now rewrite El.
  Qed.
  Lemma final_ok proc sout opk am ms lm so sp ph fl ap au ev : exists ev' r,
    call C cr tp MFinal (Some (Bs SIGNATURE_DONE (n - 1) proc sout opk am ms lm so sp ph fl ap au), ev) = Ok ((None, ev'), r).
  Proof. unfold call, tsx_sign, sign, final_msg, transition. eexists _, _. reflexivity. Qed.
End End_.

(** the whole protocol *)
Theorem honest_run C cr tp hs x st : prim_laws C -> well_formed C cr x -> honest_tapes tp -> no_zero_mask C cr tp x -> no_give_up C cr tp hs x ->
  exists ev sg, sign_transaction_data C cr tp hs x st = Ok ((None, ev), sg) /\
    length (sg_vin sg) = length (tc_sources x) /\ length (sg_sigs sg) = length (tc_sources x) /\ length (sg_pseudo_outs sg) = length (tc_sources x) /\
    length (sg_vout sg) = length (tc_dsts x) /\ length (sg_out_pk sg) = length (tc_dsts x) /\
    sg_fee sg = zsum (map se_amount (tc_sources x)) - zsum (map de_amount (tc_dsts x)).
Proof.
  intros L W T NZ NG. destruct (init_ok C cr tp x L W T st) as (d & grp & c & ex & tags & sm & D1 & D2 & Gok & Cok & Tok & D3).
  unfold sign_transaction_data. rewrite D1. cbn [bind]. rewrite D3. cbn [bind].
  set (h := h0 sm (ty0 x) (get_fee C c)) in *.
  match goal with |- context [agent_inputs C cr tp (tc_sources x) (Some ?b0, ?ev0)] =>
    destruct (inputs_ok C cr tp x L W c grp ex Cok h ev0 b0) as (ins0 & ev1 & E1 & L1 & L2 & Hin) end; [|reflexivity|].
  { unfold Bin. destruct W as (Wn & _). replace (Z.of_nat 0 =? zlen (tc_sources x)) with false by lia. reflexivity. }
  rewrite E1. cbn [bind].
  match goal with |- context [sort_desc ?key _] => destruct (permute_ok C tp x c key ins0 L2 Hin) as (ins & E2 & Pok); set (perm := sort_desc key (zrange (zlen (tc_sources x)))) in * end.
  rewrite E2. cbn [bind].
  destruct (perm_call_ok C cr tp x W c ex h ev1 perm ins) as (ev2 & _ & E3). rewrite E3. cbn [bind].
  destruct (vinis_ok C cr tp x c grp ex Cok h perm ins ev2 Pok) as (ev3 & E4). rewrite E4. cbn [bind].
  destruct (all_in_ok C cr tp x L W c grp ex Cok h perm ins Pok) as (lm & mo & gm & E5 & A1 & A2).
  rewrite (call_ok C cr tp MAllIn _ ev3 _ _ ltac:(exact (fun y => y)) (f_equal (fun y => let* (b, r) := y in Ok (b, Some r)) E5) ltac:(reflexivity) ltac:(discriminate)). cbn [bind].
  destruct (gammas_ok C cr tp x L W c lm mo gm A1 A2) as (g & E6 & G1 & G2). rewrite E6. cbn [bind]. rewrite D2.
  set (o0 := {| os_conn := _ |}).
  assert (Mok : det x = false -> masks_ok C tp x c gm lm) by (intros D; apply A2; exact D).
  destruct (outputs_phase C cr tp hs x L W NZ NG c grp ex Cok Gok perm tags Tok gm lm Mok (pre0 x ++ concat (map id_vini ins)) (get_fee C c) o0) as (o & E7 & Hinv).
  { exists [], (Some []), (Some []), false. split.
    - exists lm, h, [], []. eexists _, []. split; [unfold o0, pf_of; cbn [os_conn os_out_pk os_vout concat app]; rewrite app_nil_r; reflexivity|]. split; [reflexivity|]. split; [reflexivity|].
      split; [unfold o0, h, h0; cbn [fh_rct os_ecdh concat]; rewrite app_nil_r; reflexivity|]. split; [reflexivity|]. split; [reflexivity|]. split; [reflexivity|].
      split; [constructor|]. split; [reflexivity|]. split; [reflexivity|]. split; [intros; reflexivity|]. split; [intros; reflexivity|]. 
      split; [intros D Ho; apply (G2 D); lia|]. split; [intros D _; exact (G1 D)|]. intros _ t mk Hm. destruct t; discriminate Hm.
    - intros Hd. exists 0%nat, 0%nat. cbn [os_batch os_in_batch o0]. assert (Hn : grp <> []) by (destruct Gok as (Gs & _), W as (_ & Wm & _); intros Eg; rewrite Eg in Gs; cbn in Gs; lia). pose proof (grp_pos x grp Gok) as Hg. unfold at_batch.
      destruct grp as [|g0 grp']; [now elim Hn|]. inversion Hg; subst. split; [split; [cbn; lia|split; [reflexivity|split; [lia|cbn; lia]]]|]. split; [reflexivity|]. split; [reflexivity|]. split; [reflexivity|]. split; [reflexivity|].
      unfold wait. rewrite andb_false_r. reflexivity. }
  rewrite E7. cbn [bind].
  destruct (all_out_ok C cr tp hs x W c grp ex Cok perm ins Pok gm lm Mok o Hinv) as (mss & ap & au & am & ms & lm' & proc & extra & ph & fl & ev5 & E8 & E9 & E10 & V1 & V2 & So & Sd).
  cbv zeta in E8. rewrite E8. cbn [bind]. destruct (prefix_blob _ _ _ _) as [blob|]; [|discriminate E9]. cbn [bind] in E9 |- *. apply Ok_inj in E9. rewrite E9, zlist_eqb_refl. cbn [guard bind].
  rewrite E10. cbn [bind]. rewrite zlist_eqb_refl. cbn [guard bind].
  destruct (signs_ok C cr tp hs x L W T c grp ex Cok perm ins Pok gm lm Mok proc (zsum (map de_amount (tc_dsts x))) (map (skipn 32) (os_out_pk C o)) am ms lm' _ ph fl ap au ev5 So Sd) as (sp & ev6 & sigs & E11 & L6).
  rewrite E11. cbn [bind].
  destruct (final_ok C cr tp x c ex perm proc (zsum (map de_amount (tc_dsts x))) (map (skipn 32) (os_out_pk C o)) am ms lm' (fold_left sc_add mss 0) sp ph fl ap au ev6) as (ev7 & r & E12).
  rewrite E12. cbn [bind]. eexists _, _. split; [reflexivity|]. cbn [sg_vin sg_sigs sg_pseudo_outs sg_vout sg_out_pk sg_fee]. rewrite !map_length. destruct Pok as (_ & P2 & _).
  repeat (split; [assumption|]). unfold get_fee. destruct Cok as (_ & _ & _ & _ & _ & _ & _ & _ & _ & C10 & _). rewrite C10.
  destruct W as (_ & _ & _ & _ & _ & _ & _ & _ & _ & Wsum). destruct (0 <? _) eqn:E; lia.
Qed.
