(** Completeness of the signing protocol: the outputs phase as a whole. *)
From Verif Require Import Py PyLemmas Protobuf_model Protobuf_spec Protobuf_proof Addr_model Addr_spec Addr_proof Lists_model Lists_spec Lists_proof
  Signer_model Signer_spec Signer_base Signer_inv2 Signer_props Signer_props2 Signer_props3 KeySep_proof Agent_model Complete_spec Complete_proof1 Complete_proof2.
From Coq Require Import Permutation.

Section Phase.
  Context (C : ops) (cr : creds C) (tp : nat -> tape) (hs : nat -> Z) (x : construction).
  Context (L : prim_laws C) (W : well_formed C cr x) (T : honest_tapes tp) (NZ : no_zero_mask C cr tp x) (NG : no_give_up C cr tp hs x).
  Notation n := (zlen (tc_sources x)).
  Notation m := (zlen (tc_dsts x)).
  Notation dsts := (tc_dsts x).
  Context (c : cfg C) (grp : list Z) (ex : list Z) (Cok : cfg_ok C cr tp x c grp) (Gok : grp_ok x grp).
  Context (perm : list Z) (tags : list (list Z)) (Tok : tags_ok C x c tags).
  Context (gm : list Z) (lmf : option Z) (Mok : det x = false -> masks_ok C tp x c gm lmf).
  Context (pf0 : list Z) (fee : Z).
  Notation det := (det x).
  Notation offl := (2 <? m).
  Notation Bo := (Bo C tp x c ex perm).

  Definition Core (i : nat) (o : out_st C) (mss : list Z) (am ms : option (list Z)) (proc : bool) : Prop :=
    exists lm h ap au ev ps,
      os_conn C o = (Some (Bo (st_of i) (Z.of_nat i - 1) proc (zsum (map de_amount (firstn i dsts))) (map (skipn 32) (os_out_pk C o)) am ms lm (fold_left sc_add mss 0)
                          (pf_of x pf0 i (os_vout C o)) h ap au), ev) /\
      fh_state h = match i with O => 2 | _ => 4 end /\ fh_master h = [] /\ fh_rct h = [ty0 x] ++ varint fee ++ concat (os_ecdh C o) /\
      mapM (parse_bp C) (os_rsigs C o) = Ok ps /\ fh_rsig h = concat (map (bp_bytes C) ps) /\
      length mss = i /\ Forall (fun g => 0 <= g < ell) mss /\ length (os_vout C o) = i /\ length (os_out_pk C o) = i /\
      (det = false -> mss = firstn i gm) /\ (det = false -> (i < length dsts)%nat -> lm = lmf) /\
      (det = false -> offl = true -> os_gamma C o = map (enc_int C) gm) /\ (det = true -> offl = true -> os_gamma C o = map (enc_int C) mss) /\
      (det = true -> forall t mk, nth_error mss t = Some mk -> batch_mask C cr tp x t mk).
  Definition at_batch (i k s : nat) : Prop :=
    (k < length grp)%nat /\ Z.of_nat s = zsum (firstn k grp) /\ (s <= i)%nat /\ Z.of_nat i < zsum (firstn (S k) grp).
  Definition Inv (i : nat) (o : out_st C) : Prop :=
    exists mss am ms proc, Core i o mss am ms proc /\
      ((i < length dsts)%nat -> exists k s, at_batch i k s /\ os_batch C o = Z.of_nat k /\ os_in_batch C o = Z.of_nat i - Z.of_nat s /\
         am = Some (map de_amount (skipn s (firstn i dsts))) /\ ms = Some (skipn s mss) /\ proc = wait x i s).

  Lemma pos_snoc (mss : list Z) (mask : Z) (P : nat -> Z -> Prop) : (forall t mk, nth_error mss t = Some mk -> P t mk) -> P (length mss) mask -> forall t mk, nth_error (mss ++ [mask]) t = Some mk -> P t mk.
  Proof.
    intros H1 H2 t mk H. destruct (Nat.lt_ge_cases t (length mss)) as [G|G]; [rewrite nth_error_app1 in H by exact G; exact (H1 _ _ H)|].
    rewrite nth_error_app2 in H by exact G. destruct (t - length mss)%nat as [|u] eqn:E; [|destruct u; discriminate H]. replace t with (length mss) by lia. cbn in H. congruence.
  Qed.
  Lemma nth_skipn (l : list Z) s t : nth_error (skipn s l) t = nth_error l (s + t).
  Proof. revert l. induction s as [|s IH]; intros [|a l]; cbn; try reflexivity; [destruct t; reflexivity|apply IH]. Qed.
  Lemma core_next i e mss mask am' ms' proc' lm' h' ap' au' ev' ps' tx_out pk ecdh (o o' : out_st C) :
    nth_error dsts i = Some e -> length mss = i -> Forall (fun g => 0 <= g < ell) mss -> length (os_vout C o) = i -> length (os_out_pk C o) = i ->
    (det = false -> mss = firstn i gm) -> 0 <= mask < ell -> (det = false -> nth_error gm i = Some mask /\ ((S i < length dsts)%nat -> lm' = lmf)) ->
    os_conn C o' = (Some (Bo OUTPUT (Z.of_nat i) proc' (zsum (map de_amount (firstn i dsts)) + de_amount e) (map (skipn 32) (os_out_pk C o) ++ [skipn 32 pk])
       am' ms' lm' (sc_add (fold_left sc_add mss 0) mask) (pf_of x pf0 (S i) (os_vout C o ++ [tx_out])) h' ap' au'), ev') ->
    os_vout C o' = os_vout C o ++ [tx_out] -> os_out_pk C o' = os_out_pk C o ++ [pk] -> os_ecdh C o' = os_ecdh C o ++ [ecdh] ->
    fh_state h' = 4 -> fh_master h' = [] -> fh_rct h' = [ty0 x] ++ varint fee ++ concat (os_ecdh C o) ++ ecdh ->
    mapM (parse_bp C) (os_rsigs C o') = Ok ps' -> fh_rsig h' = concat (map (bp_bytes C) ps') ->
    (det = false -> offl = true -> os_gamma C o' = map (enc_int C) gm) -> (det = true -> offl = true -> os_gamma C o' = map (enc_int C) (mss ++ [mask])) ->
    (det = true -> forall t mk, nth_error mss t = Some mk -> batch_mask C cr tp x t mk) -> (det = true -> batch_mask C cr tp x i mask) ->
    Core (S i) o' (mss ++ [mask]) am' ms' proc'.
  Proof.
    intros He H1 H2 H3 H4 H5 H6 H7 Hc Hv Hp Hd F1 F2 F3 F4 F5 G1 G2 K1 K2. exists lm', h', ap', au', ev', ps'.
    rewrite Hc, Hv, Hp, Hd. split.
    { rewrite (firstn_snoc_nth _ _ _ He), !map_app, Lists_proof.zsum_app, fold_left_app. cbn [map fold_left]. change (zsum [de_amount e]) with (de_amount e + 0).
      rewrite Z.add_0_r. replace (Z.of_nat (S i) - 1) with (Z.of_nat i) by lia. reflexivity. }
    split; [exact F1|]. split; [exact F2|]. split; [rewrite F3, concat_app; cbn [concat]; now rewrite app_nil_r|]. split; [exact F4|]. split; [exact F5|].
    rewrite !app_length. cbn [length]. split; [lia|]. split; [apply Forall_app; auto|]. split; [lia|]. split; [lia|].
    split; [intros D; rewrite (firstn_snoc_nth gm i mask) by (apply H7; exact D); now rewrite (H5 D)|]. split; [intros D; apply H7; exact D|]. split; [exact G1|]. split; [exact G2|].
    intros D. apply pos_snoc; [exact (K1 D)|]. rewrite H1. exact (K2 D).
  Qed.
  Lemma next_batch i k s : at_batch i k s -> Z.of_nat i + 1 = zsum (firstn (S k) grp) -> (S i < length dsts)%nat -> at_batch (S i) (S k) (S i).
  Proof.
    intros (B1 & B2 & B3 & B4) Hc Hi. assert (B : (S k < length grp)%nat).
    { destruct (Nat.lt_ge_cases (S k) (length grp)) as [|G]; [assumption|]. rewrite firstn_all2 in Hc by lia. destruct Gok as (G1 & _). unfold zlen in G1. lia. }
    pose proof (zsum_firstn_mono grp (grp_pos x grp Gok) (S k) (S (S k)) ltac:(lia)). repeat split; lia.
  Qed.
  Lemma one_batch i k s : at_batch i k s -> m <= 16 -> grp = [m] /\ k = 0%nat /\ s = 0%nat /\ zsum (firstn (S k) grp) = m.
  Proof.
    intros (B1 & B2 & B3 & B4) Hm. destruct Gok as (_ & _ & G). specialize (G Hm). split; [exact G|]. rewrite G in *. cbn in B1. assert (k = 0%nat) by lia. subst k. cbn in B2.
    split; [reflexivity|]. split; [lia|]. cbn. lia.
  Qed.
  Lemma skipn_snoc {A} s (l : list A) a : (s <= length l)%nat -> skipn s (l ++ [a]) = skipn s l ++ [a].
  Proof. intros H. rewrite skipn_app. now replace (s - length l)%nat with 0%nat by lia. Qed.

  Lemma win_next {B} (f : dst_entry -> B) i s e : nth_error dsts i = Some e -> (s <= i)%nat ->
    map f (skipn s (firstn (S i) dsts)) = map f (skipn s (firstn i dsts)) ++ [f e].
  Proof.
    intros He Hs. assert ((i < length dsts)%nat) by (apply nth_error_Some; congruence).
    rewrite (firstn_snoc_nth _ _ _ He), skipn_snoc, map_app by (rewrite firstn_length; lia). reflexivity.
  Qed.
  Lemma amounts_ok l : (forall e, In e l -> In e dsts) -> Forall (fun a => 0 <= a < 2 ^ 64) (map de_amount l).
  Proof.
    intros H. apply Forall_forall. intros a Ha. apply in_map_iff in Ha. destruct Ha as (e & <- & He). destruct (wf_dst C cr x W e (H e He)) as ((H1 & _) & H2 & _). lia.
  Qed.

  Lemma step i o : Inv i o -> (i < length dsts)%nat -> exists o', agent_output C cr tp hs x tags offl grp o (Z.of_nat i) = Ok o' /\ Inv (S i) o'.
  Proof.
    intros (mss & am & ms & proc & Hc & Hb) Hi. destruct (Hb Hi) as (k & s & AB & Ob & Oi & -> & -> & Hp). clear Hb.
    destruct (nth_error dsts i) as [e|] eqn:He; [|apply nth_error_None in He; lia].
    destruct (Tok i e He) as (tag & Htag & Hgen).
    destruct Hc as (lm & h & ap & au & ev & ps & Hconn & F1 & F2 & F3 & F4 & F5 & I1 & I2 & I3 & I4 & I5 & I6 & I7 & I8 & I9).
    assert (AB' := AB). destruct AB' as (B1 & B2 & B3 & B4).
    unfold agent_output. rewrite (proj2 (py_get_nat dsts i e) He). cbn [bind]. rewrite (proj2 (py_get_nat tags i tag) Htag). cbn [bind].
    set (q := length ev).
    pose proof (set_out_red C cr tp hs x L W NZ c grp ex Cok Gok perm gm lmf Mok q e tag i k s) as RED.
    assert (Hfh : fh_state h = 2 \/ fh_state h = 4) by (rewrite F1; destruct i; auto).
    assert (Hvo : i = 0%nat -> os_vout C o = []) by (intros E; rewrite E in I3; destruct (os_vout C o); [reflexivity|discriminate I3]).
    assert (Hwin := win_next de_amount i s e He B3).
    assert (Hlen : (s <= length mss)%nat) by lia.
    assert (Pok : forall mask, 0 <= mask < ell -> Forall (fun g => 0 <= g < ell) (mss ++ [mask])) by (intros; apply Forall_app; auto).
    destruct W as (_ & Wm & _ & _ & (Wh & Wv & Wc) & _).
    destruct offl eqn:Eo.
    2:{ (* the device proves *)
      rewrite andb_false_r. cbn [bind os_conn].
      destruct (RED None proc (zsum (map de_amount (firstn i dsts))) (map (skipn 32) (os_out_pk C o)) (map de_amount (skipn s (firstn i dsts))) (skipn s mss) lm (fold_left sc_add mss 0) pf0 (os_vout C o) h ap au
         He Hgen B1 B2 B3 B4 Hp (fun D => I6 D Hi) Hfh Hvo) as (mask & ap' & au' & lm' & pf1 & M1 & M2 & M3 & MB & M4). clear RED.
      rewrite <- Hwin, <- skipn_snoc in M4 by lia.
      destruct (one_batch i k s AB ltac:(lia)) as (Eg & -> & -> & En). rewrite ?skipn_O in M4. rewrite ?skipn_O in Hconn.
      destruct (Z.eq_dec (Z.of_nat i + 1) (zsum (firstn 1 grp))) as [E|E].
      - destruct (rp_prove C cr tp hs x L c grp ex Cok Gok perm (tp q) mask i 0 false (zsum (map de_amount (firstn i dsts)) + de_amount e) (map (skipn 32) (os_out_pk C o))
          (map de_amount (firstn (S i) dsts)) (mss ++ [mask]) lm' (fold_left sc_add mss 0) pf1 h ap' au' B1 ltac:(cbn; lia) E eq_refl Eo ltac:(lia)) as (p & bs & qq & am' & ms' & Q1 & Q2 & Q3 & Q4).
        2: { apply (NG 0%nat (S i) _ _ q _ eq_refl); [rewrite map_length, skipn_O, firstn_length; unfold zlen in *; lia|rewrite map_length, skipn_O, firstn_length, app_length; cbn [length]; unfold zlen in *; lia|auto| |left; reflexivity].
             intros D. assert (D' : det = true) by (unfold Complete_proof1.det; lia). apply pos_snoc; [exact (I9 D')|]. rewrite I1. exact (MB D'). }
        { unfold proofs_ok. rewrite map_length, firstn_length, app_length. cbn [length]. unfold zlen in *. split; [lia|]. split; [lia|]. split; [|auto].
          apply amounts_ok. intros e0. apply In_firstn. }
        destruct (M4 _ _ _ _ _ Q1 eq_refl) as (tx_out & vt & pk & ecdh & S1). clear M4.
        rewrite Hconn. rewrite (call_ok C cr tp (MSetOutput (Some e) tag None false) _ ev _ _ ltac:(exact (fun y => y)) (f_equal (fun y => let* (b, r) := y in Ok (b, Some r)) S1) ltac:(reflexivity) ltac:(discriminate)).
        cbn [bind]. rewrite andb_false_r. destruct bs as [|b0 bs]; [now elim Q2|]. cbn [os_conn os_gamma os_batch os_in_batch os_vout os_ecdh os_out_pk os_rsigs].
        eexists. split; [reflexivity|]. exists (mss ++ [mask]), am', ms', false. split; [|intros; unfold zlen in *; lia].
        eapply (core_next i e mss mask _ _ _ lm' _ ap' au' _ (ps ++ [qq]) tx_out pk ecdh o); try first [reflexivity | eassumption].
        + cbn [fh_rct h_ecdh h_rsig fh_rct_add]. rewrite F3, <- !app_assoc. reflexivity.
        + cbn [os_rsigs]. rewrite mapM_app, F4. cbn [bind mapM]. rewrite Q3. reflexivity.
        + cbn [fh_rsig h_ecdh h_rsig fh_rct_add]. rewrite F5, map_app, concat_app. cbn [map concat]. now rewrite app_nil_r, Q4.
        + congruence.
        + congruence.
      - pose proof (rp_keep C cr tp hs x c grp ex Cok Gok perm (tp q) mask i 0 false (zsum (map de_amount (firstn i dsts)) + de_amount e) (map (skipn 32) (os_out_pk C o))
          (Some (map de_amount (firstn (S i) dsts))) (Some (mss ++ [mask])) lm' (fold_left sc_add mss 0) pf1 h ap' au' B1 ltac:(cbn in *; lia) eq_refl (or_introl E)) as Q1. cbv zeta in Q1.
        destruct (M4 _ _ _ _ _ Q1 eq_refl) as (tx_out & vt & pk & ecdh & S1). clear M4.
        rewrite Hconn. rewrite (call_ok C cr tp (MSetOutput (Some e) tag None false) _ ev _ _ ltac:(exact (fun y => y)) (f_equal (fun y => let* (b, r) := y in Ok (b, Some r)) S1) ltac:(reflexivity) ltac:(discriminate)).
        cbn [bind]. rewrite andb_false_r. assert (ret_mask C x mask = None) as -> by (unfold ret_mask; rewrite Eo, andb_false_r; reflexivity). cbn [os_conn os_gamma os_batch os_in_batch os_vout os_ecdh os_out_pk os_rsigs].
        eexists. split; [reflexivity|]. eexists (mss ++ [mask]), _, _, false. split.
        + eapply (core_next i e mss mask _ _ _ lm' _ ap' au' _ ps tx_out pk ecdh o); try first [reflexivity | eassumption].
          * cbn [fh_rct h_ecdh fh_rct_add]. rewrite F3, <- !app_assoc. reflexivity.
          * congruence.
          * congruence.
        + intros Hi'. exists 0%nat, 0%nat. cbn [os_batch os_in_batch]. rewrite ?skipn_O. split; [unfold at_batch; cbn in *; repeat split; lia|]. split; [exact Ob|]. split; [lia|]. split; [reflexivity|]. split; [reflexivity|].
          unfold wait. rewrite Eo, andb_false_r. reflexivity. }
    destruct (tc_client_version x =? 0) eqn:Ev.
    - (* old client: the proof goes with the last output *)
      assert (Ecv : tc_client_version x = 0) by lia. destruct (Wc Ecv) as [Wc'|[Wc1 Wc2]]; [lia|].
      assert (Ed : det = false) by (unfold Complete_proof1.det; lia). cbn [andb].
      destruct (one_batch i k s AB ltac:(lia)) as (Eg & -> & -> & En).
      destruct (Mok Ed) as (G1 & G2 & _).
      destruct (rct_offload_ok C cr hs x L W grp Gok i 0 0
         {| os_conn := os_conn C o; os_gamma := os_gamma C o; os_batch := os_batch C o; os_in_batch := os_in_batch C o + 1;
            os_vout := os_vout C o; os_ecdh := os_ecdh C o; os_out_pk := os_out_pk C o; os_rsigs := os_rsigs C o |} (firstn (S i) gm) B1 B2 B3 Hi B4) as [[E Ro]|(E & bs & qq & Ro & Q2 & Q3 & Q4)].
      { exact Ob. } { cbn [os_in_batch]. lia. }
      { intros E. cbn [os_gamma]. rewrite (I7 Ed eq_refl), firstn_map. split; [reflexivity|]. split; [rewrite firstn_length; unfold zlen in *; lia|].
        assert (FG : Forall (fun g => 0 <= g < ell) (firstn (S i) gm)) by (apply Forall_forall; intros g Hg; apply In_firstn in Hg; rewrite Forall_forall in G2; auto).
        split; [exact FG|]. cbn [os_rsigs]. apply (NG 0%nat (S i) _ _ (length (os_rsigs C o)) _ eq_refl); [rewrite map_length, skipn_O, firstn_length; unfold zlen in *; lia|rewrite map_length, !skipn_O, !firstn_length; unfold zlen in *; lia|exact FG| |right; reflexivity].
        intros D. unfold Complete_proof1.det in Ed. lia. }
      + rewrite Ro. cbn [bind os_conn].
        destruct (RED None proc (zsum (map de_amount (firstn i dsts))) (map (skipn 32) (os_out_pk C o)) (map de_amount (skipn 0 (firstn i dsts))) (skipn 0 mss) lm (fold_left sc_add mss 0) pf0 (os_vout C o) h ap au
          He Hgen B1 B2 B3 B4 Hp (fun D => I6 D Hi) Hfh Hvo) as (mask & ap' & au' & lm' & pf1 & M1 & M2 & M3 & MB & M4). clear RED.
        rewrite <- Hwin in M4. rewrite ?skipn_O in M4. rewrite ?skipn_O in Hconn.
        pose proof (rp_keep C cr tp hs x c grp ex Cok Gok perm (tp q) mask i 0 false (zsum (map de_amount (firstn i dsts)) + de_amount e) (map (skipn 32) (os_out_pk C o))
          (Some (map de_amount (firstn (S i) dsts))) (Some (mss ++ [mask])) lm' (fold_left sc_add mss 0) pf1 h ap' au' B1 ltac:(cbn in *; lia) eq_refl (or_introl E)) as Q1. cbv zeta in Q1.
        destruct (M4 _ _ _ _ _ Q1 eq_refl) as (tx_out & vt & pk & ecdh & S1). clear M4.
        rewrite Hconn. rewrite (call_ok C cr tp (MSetOutput (Some e) tag None false) _ ev _ _ ltac:(exact (fun y => y)) (f_equal (fun y => let* (b, r) := y in Ok (b, Some r)) S1) ltac:(reflexivity) ltac:(discriminate)).
        cbn [bind]. replace (1 <=? tc_client_version x) with false by lia. cbn [andb].
        assert (ret_mask C x mask = None) as -> by (unfold ret_mask; rewrite Ed, andb_false_r; reflexivity). cbn [os_conn os_gamma os_batch os_in_batch os_vout os_ecdh os_out_pk os_rsigs].
        eexists. split; [reflexivity|]. eexists (mss ++ [mask]), _, _, false. split.
        * eapply (core_next i e mss mask _ _ _ lm' _ ap' au' _ ps tx_out pk ecdh o); try first [reflexivity | eassumption].
          -- cbn [fh_rct h_ecdh fh_rct_add]. rewrite F3, <- !app_assoc. reflexivity.
          -- cbn [os_gamma]. rewrite Eo. exact I7.
          -- congruence.
        * intros Hi'. exists 0%nat, 0%nat. cbn [os_batch os_in_batch]. rewrite ?skipn_O. split; [unfold at_batch; cbn in *; repeat split; lia|]. split; [exact Ob|]. split; [lia|]. split; [reflexivity|]. split; [reflexivity|].
          unfold wait. rewrite Ed. reflexivity.
      + rewrite Ro. cbn [bind os_conn].
        destruct (RED (Some bs) proc (zsum (map de_amount (firstn i dsts))) (map (skipn 32) (os_out_pk C o)) (map de_amount (skipn 0 (firstn i dsts))) (skipn 0 mss) lm (fold_left sc_add mss 0) pf0 (os_vout C o) h ap au
          He Hgen B1 B2 B3 B4 Hp (fun D => I6 D Hi) Hfh Hvo) as (mask & ap' & au' & lm' & pf1 & M1 & M2 & M3 & MB & M4). clear RED.
        rewrite <- Hwin in M4. rewrite ?skipn_O in M4. rewrite ?skipn_O in Hconn.
        assert (Egm : firstn (S i) gm = mss ++ [mask]) by (rewrite (firstn_snoc_nth gm i mask) by (apply M3; exact Ed); now rewrite (I5 Ed)).
        rewrite Egm, ?skipn_O in Q4.
        destruct (rp_check C cr tp hs x c grp ex Cok Gok perm (tp q) (Some mask) i 0 false (zsum (map de_amount (firstn i dsts)) + de_amount e) (map (skipn 32) (os_out_pk C o))
          (map de_amount (firstn (S i) dsts)) (mss ++ [mask]) lm' (fold_left sc_add mss 0) pf1 h ap' au' bs qq B1 ltac:(cbn; lia) E eq_refl Eo Ed ltac:(lia) Q2 Q3 Q4) as (am' & ms' & Q1 & _).
        destruct (M4 _ _ _ _ _ Q1 eq_refl) as (tx_out & vt & pk & ecdh & S1). clear M4.
        rewrite Hconn. rewrite (call_ok C cr tp (MSetOutput (Some e) tag (Some bs) false) _ ev _ _ ltac:(exact (fun y => y)) (f_equal (fun y => let* (b, r) := y in Ok (b, Some r)) S1) ltac:(reflexivity) ltac:(discriminate)).
        cbn [bind]. replace (1 <=? tc_client_version x) with false by lia. cbn [andb os_conn os_gamma os_batch os_in_batch os_vout os_ecdh os_out_pk os_rsigs].
        eexists. split; [reflexivity|]. exists (mss ++ [mask]), am', ms', false. split; [|intros; unfold zlen in *; lia].
        eapply (core_next i e mss mask _ _ _ lm' _ ap' au' _ (ps ++ [qq]) tx_out pk ecdh o); try first [reflexivity | eassumption].
        * cbn [fh_rct h_ecdh h_rsig fh_rct_add]. rewrite F3, <- !app_assoc. reflexivity.
        * cbn [os_rsigs]. rewrite mapM_app, F4. cbn [bind mapM]. rewrite Q3. reflexivity.
        * cbn [fh_rsig h_ecdh h_rsig fh_rct_add]. rewrite F5, map_app, concat_app. cbn [map concat]. now rewrite app_nil_r.
        * cbn [os_gamma]. rewrite Eo. exact I7.
        * congruence.
    - (* new client: the mask comes back, the proof has its own message *)
      assert (Ecv : 1 <= tc_client_version x) by lia. assert (Ed : det = true) by (unfold Complete_proof1.det; lia). cbn [andb bind os_conn].
      destruct (RED None proc (zsum (map de_amount (firstn i dsts))) (map (skipn 32) (os_out_pk C o)) (map de_amount (skipn s (firstn i dsts))) (skipn s mss) lm (fold_left sc_add mss 0) pf0 (os_vout C o) h ap au
         He Hgen B1 B2 B3 B4 Hp (fun D => I6 D Hi) Hfh Hvo) as (mask & ap' & au' & lm' & pf1 & M1 & M2 & M3 & MB & M4). clear RED.
      rewrite <- Hwin, <- skipn_snoc in M4 by lia.
      pose proof (rp_keep C cr tp hs x c grp ex Cok Gok perm (tp q) mask i k false (zsum (map de_amount (firstn i dsts)) + de_amount e) (map (skipn 32) (os_out_pk C o))
          (Some (map de_amount (skipn s (firstn (S i) dsts)))) (Some (skipn s (mss ++ [mask]))) lm' (fold_left sc_add mss 0) pf1 h ap' au' B1 ltac:(lia) eq_refl (or_intror (conj Eo Ed))) as Q1. cbv zeta in Q1.
      destruct (M4 _ _ _ _ _ Q1 eq_refl) as (tx_out & vt & pk & ecdh & S1). clear M4.
      rewrite Hconn. rewrite (call_ok C cr tp (MSetOutput (Some e) tag None false) _ ev _ _ ltac:(exact (fun y => y)) (f_equal (fun y => let* (b, r) := y in Ok (b, Some r)) S1) ltac:(reflexivity) ltac:(discriminate)).
      cbn [bind]. replace (1 <=? tc_client_version x) with true by lia. cbn [andb].
      assert (ret_mask C x mask = Some (enc_int C mask)) as -> by (unfold ret_mask; specialize (M2 Ed eq_refl); replace (mask =? 0) with false by lia; rewrite Ed, Eo; reflexivity).
      cbn [os_conn os_gamma os_batch os_in_batch os_vout os_ecdh os_out_pk os_rsigs].
      assert (Eg : os_gamma C o ++ [enc_int C mask] = map (enc_int C) (mss ++ [mask])) by (rewrite map_app, (I8 Ed eq_refl); reflexivity).
      match goal with |- context [rct_offload C hs dsts grp (Z.of_nat i) ?o1] =>
        destruct (rct_offload_ok C cr hs x L W grp Gok i k s o1 (mss ++ [mask]) B1 B2 B3 Hi B4 Ob) as [[E Ro]|(E & bs & qq & Ro & Q2 & Q3 & Q4)] end.
      { cbn [os_in_batch]. lia. }
      { intros _. cbn [os_gamma]. rewrite Eg. split; [rewrite firstn_all2 by (rewrite map_length, app_length; cbn; lia); reflexivity|]. split; [rewrite app_length; cbn; lia|]. split; [auto|].
        cbn [os_rsigs]. apply (NG s (S i) _ _ (length (os_rsigs C o)) _ eq_refl); [| |apply Forall_forall; intros a Ha; apply In_skipn in Ha; specialize (Pok _ M1); rewrite Forall_forall in Pok; auto| |right; reflexivity].
        - rewrite map_length, skipn_length, firstn_length. destruct (nth_error grp k) as [z|] eqn:Ez; [|apply nth_error_None in Ez; lia]. pose proof (zsum_firstn_S _ _ _ Ez).
          assert (Hz : 0 < z <= 16) by (destruct Gok as (_ & Hg & _); rewrite Forall_forall in Hg; apply Hg; eapply nth_error_In; exact Ez). lia.
        - rewrite map_length, !skipn_length, firstn_length, app_length. cbn [length]. lia.
        - intros _ t mk Hm. rewrite nth_skipn in Hm. revert t mk Hm. intros t mk. apply (pos_snoc mss mask (fun t mk => batch_mask C cr tp x t mk)); [exact (I9 Ed)|]. rewrite I1. exact (MB Ed). }
      + rewrite Ro. cbn [bind].
        eexists. split; [reflexivity|]. eexists (mss ++ [mask]), _, _, false. split.
        * eapply (core_next i e mss mask _ _ _ lm' _ ap' au' _ ps tx_out pk ecdh o); try first [reflexivity | eassumption].
          -- cbn [fh_rct h_ecdh fh_rct_add]. rewrite F3, <- !app_assoc. reflexivity.
          -- congruence.
          -- intros _ _. exact Eg.
        * intros Hi'. exists k, s. cbn [os_batch os_in_batch]. split; [repeat split; lia|]. split; [exact Ob|]. split; [lia|]. split; [reflexivity|]. split; [reflexivity|].
          unfold wait. rewrite Ed, Eo. cbn [andb]. symmetry. apply Nat.eqb_neq. lia.
      + rewrite Ro. cbn [bind].
        match goal with |- context [call C cr tp (MSetOutput None [] (Some bs) true) (_, ?ev2)] =>
          destruct (set_offl_ok C cr tp hs x c grp ex Cok Gok perm (length ev2) i k (zsum (map de_amount (firstn i dsts)) + de_amount e) (map (skipn 32) (os_out_pk C o) ++ [skipn 32 pk])
            (map de_amount (skipn s (firstn (S i) dsts))) (skipn s (mss ++ [mask])) lm' (sc_add (fold_left sc_add mss 0) mask) (pf_of x pf0 (S i) (os_vout C o ++ [tx_out])) (h_ecdh ecdh h) ap' au' bs qq
            B1 ltac:(lia) Hi E Eo Ed ltac:(discriminate) Q2 Q3 Q4) as (am' & ms' & S2 & Ham) end.
        rewrite (call_ok C cr tp (MSetOutput None [] (Some bs) true) _ _ _ _ ltac:(exact (fun y => y)) (f_equal (fun y => let* (b, r) := y in Ok (b, Some r)) S2) ltac:(reflexivity) ltac:(discriminate)).
        cbn [bind os_conn os_gamma os_batch os_in_batch os_vout os_ecdh os_out_pk os_rsigs].
        eexists. split; [reflexivity|]. exists (mss ++ [mask]), am', ms', true. split.
        * eapply (core_next i e mss mask _ _ _ lm' _ ap' au' _ (ps ++ [qq]) tx_out pk ecdh o); try first [reflexivity | eassumption].
          -- cbn [fh_rct h_ecdh h_rsig fh_rct_add]. rewrite F3, <- !app_assoc. reflexivity.
          -- cbn [os_rsigs]. rewrite mapM_app, F4. cbn [bind mapM]. rewrite Q3. reflexivity.
          -- cbn [fh_rsig h_ecdh h_rsig fh_rct_add]. rewrite F5, map_app, concat_app. cbn [map concat]. now rewrite app_nil_r.
          -- congruence.
          -- intros _ _. exact Eg.
        * intros Hi'. exists (S k), (S i). cbn [os_batch os_in_batch]. split; [eapply next_batch; eassumption|]. split; [lia|]. split; [lia|].
          destruct (Ham ltac:(unfold zlen; lia)) as [-> ->].
          rewrite (skipn_all2 (firstn (S i) dsts)) by (rewrite firstn_length; lia). rewrite (skipn_all2 (mss ++ [mask])) by (rewrite app_length; cbn; lia).
          split; [reflexivity|]. split; [reflexivity|]. unfold wait. rewrite Ed, Eo, Nat.eqb_refl. reflexivity.
  Qed.
  Lemma outputs_phase o0 : Inv 0 o0 -> exists o, foldM (agent_output C cr tp hs x tags offl grp) (zrange m) o0 = Ok o /\ Inv (length dsts) o.
  Proof.
    intros H0. assert (G : forall k, (k <= length dsts)%nat -> exists o, foldM (agent_output C cr tp hs x tags offl grp) (zrange (Z.of_nat k)) o0 = Ok o /\ Inv k o).
    { induction k as [|k IH]; intros Hk; [exists o0; split; [reflexivity|exact H0]|]. destruct IH as (o & E & Hv); [lia|].
      destruct (step k o Hv ltac:(lia)) as (o' & E' & Hv'). exists o'. split; [|exact Hv']. replace (Z.of_nat (S k)) with (Z.of_nat k + 1) by lia.
      rewrite zrange_S, foldM_app, E by lia. cbn [bind foldM]. rewrite E'. reflexivity. }
    destruct (G (length dsts) (le_n _)) as (o & E & Hv). exists o. split; [exact E|exact Hv].
  Qed.
End Phase.
