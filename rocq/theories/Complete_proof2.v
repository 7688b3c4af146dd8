(** Completeness of the signing protocol: the outputs and their range proofs. *)
From Verif Require Import Py PyLemmas Protobuf_model Protobuf_spec Protobuf_proof Addr_model Addr_spec Addr_proof Lists_model Lists_spec Lists_proof
  Signer_model Signer_spec Signer_base Signer_inv2 Signer_props Signer_props2 Signer_props3 KeySep_proof Agent_model Complete_spec Complete_proof1.
From Coq Require Import Permutation.

Lemma batch_at grp i k : Forall (fun g => 0 < g) grp -> (k < length grp)%nat -> 0 <= i -> zsum (firstn k grp) <= i < zsum (firstn (S k) grp) ->
  get_rsig_batch grp i = Ok (Z.of_nat k) /\ is_last_in_batch grp i (Z.of_nat k) = Ok (i + 1 =? zsum (firstn (S k) grp)).
Proof.
  intros Hg Hk Hi Hb. assert (zsum (firstn (S k) grp) <= zsum grp).
  { destruct (Nat.eq_dec (S k) (length grp)) as [->|]; [rewrite firstn_all; lia|]. pose proof (zsum_firstn_mono grp Hg (S k) (length grp) ltac:(lia)) as M. rewrite firstn_all in M. lia. }
  destruct (batch_partition grp i Hg ltac:(lia)) as (k' & last & H1 & H2 & H3 & H4 & H5 & H6).
  assert (k = k') as <- by (apply H6; assumption). split; [exact H1|]. rewrite H2. f_equal. destruct last; destruct (Z.eqb_spec (i + 1) (zsum (firstn (S k) grp))); intuition congruence.
Qed.
Lemma batch_minus1 grp : Forall (fun g => 0 < g) grp -> grp <> [] ->
  get_rsig_batch grp (-1) = Ok (-1) /\ is_last_in_batch grp (-1) (-1) = Ok false.
Proof.
  intros Hg Hn. split; [reflexivity|]. destruct (exists_last Hn) as (l & g & ->). unfold is_last_in_batch.
  assert (py_get (l ++ [g]) (-1) = Ok g) as ->.
  { unfold py_get, py_idx. rewrite zlen_app. change (zlen [g]) with 1. pose proof (zlen_nonneg l). replace ((0 <=? -1) && (-1 <? zlen l + 1)) with false by lia.
    replace ((-1 <? 0) && (0 <=? -1 + (zlen l + 1))) with true by lia. replace (Z.to_nat (-1 + (zlen l + 1))) with (length l) by (unfold zlen; lia).
    rewrite nth_error_app2, Nat.sub_diag by lia. reflexivity. }
  cbn [bind]. f_equal. rewrite py_upto_neg_app by (cbn; lia). rewrite fold_left_zsum. apply Forall_app in Hg. destruct Hg as [Hl Hg]. inversion Hg; subst.
  assert (0 <= zsum l). { clear -Hl. induction Hl as [|y g Hy _ IH]; [cbn; lia|]. rewrite zsum_cons. lia. } lia.
Qed.

Lemma In_skipn {A} (y : A) j l : In y (skipn j l) -> In y l.
Proof. intros H. rewrite <- (firstn_skipn j l). apply in_or_app. now right. Qed.
Lemma In_firstn {A} (y : A) j l : In y (firstn j l) -> In y l.
Proof. intros H. rewrite <- (firstn_skipn j l). apply in_or_app. now left. Qed.
Lemma mapM_app {A B} (f : A -> res B) l l' : mapM f (l ++ l') = let* a := mapM f l in let* b := mapM f l' in Ok (a ++ b).
Proof.
  induction l as [|y l IH]; cbn [mapM app bind]; [destruct (mapM f l'); reflexivity|]. destruct (f y); cbn [bind]; [|reflexivity]. rewrite IH.
  destruct (mapM f l); cbn [bind]; [|reflexivity]. destruct (mapM f l'); reflexivity.
Qed.
Lemma skipn_map {A B} (f : A -> B) j l : skipn j (map f l) = map f (skipn j l).
Proof. revert l. induction j as [|j IH]; intros [|y l]; cbn; try reflexivity. apply IH. Qed.

Section Outputs.
  Context (C : ops) (cr : creds C) (tp : nat -> tape) (hs : nat -> Z) (x : construction).
  Context (L : prim_laws C) (W : well_formed C cr x) (T : honest_tapes tp) (NZ : no_zero_mask C cr tp x).
  Notation n := (zlen (tc_sources x)).
  Notation m := (zlen (tc_dsts x)).
  Notation rr := (rnd (tp 0%nat) 0).
  Context (c : cfg C) (grp : list Z) (ex : list Z) (Cok : cfg_ok C cr tp x c grp) (Gok : grp_ok x grp).
  Context (perm : list Z) (tags : list (list Z)) (Tok : tags_ok C x c tags).
  Context (gm : list Z) (lmf : option Z) (Mok : det x = false -> masks_ok C tp x c gm lmf).
  Notation det := (det x).
  Notation offl := (2 <? m).

  Definition Bo (st : tstate) (out : Z) (proc : bool) (sout : Z) (opk : list (list Z)) (am ms : option (list Z)) (lm : option Z) (so : Z)
    (pf : list Z) (h : fhasher) (ap : list Z) (au : list (list Z)) : builder C :=
    Build_builder C c st (n - 1) out proc (last_amount x) (in_sum x (length (tc_sources x))) sout opk am ms lm so (asum tp (length (tc_sources x)))
      None ex perm (Some pf) [] (Some h) [] ap au.

  Lemma grp_pos : Forall (fun g => 0 < g) grp.
  Proof. destruct Gok as (_ & H & _). revert H. apply Forall_impl. lia. Qed.
  Lemma grp_ne : grp <> [].
  Proof. destruct Gok as (H & _), W as (_ & Wm & _). intros ->. cbn in H. lia. Qed.

  (** ** Keys and masks of an output *)
  Lemma tx_keys_ok t q e i proc sout opk am ms lm so pf h ap au : t = tp q -> nth_error (tc_dsts x) i = Some e ->
    (det = false -> lm = lmf) ->
    exists mask P ak ap' au' lm', s6_tx_keys C t e (Bo OUTPUT (Z.of_nat i) proc sout opk am (Some ms) lm so pf h ap au) =
        Ok (Bo OUTPUT (Z.of_nat i) proc sout opk am (Some (ms ++ [mask])) lm' so pf h ap' au', P, ak, mask) /\
      0 <= mask < ell /\ (det = true -> offl = true -> mask <> 0) /\ (det = false -> nth_error gm i = Some mask /\ ((S i < length (tc_dsts x))%nat -> lm' = lmf)) /\
      (det = true -> batch_mask C cr tp x i mask).
  Proof.
    intros Ht He Hlm. assert (Hi : (i < length (tc_dsts x))%nat) by (apply nth_error_Some; congruence).
    assert (Hin := nth_error_In _ _ He). destruct (wf_dst C cr x W e Hin) as (_ & _ & _ & _ & (B & HB) & (A & HA)).
    assert (Cok' := Cok). destruct Cok' as (C1 & C2 & C3 & C4 & C5 & C6 & C7 & C8 & C9 & C10 & C11 & C12 & C13 & C14).
    unfold s6_tx_keys.
    assert (exists ap' au' ak, s6_additional_keys C t e (Bo OUTPUT (Z.of_nat i) proc sout opk am (Some ms) lm so pf h ap au) =
       Ok (Bo OUTPUT (Z.of_nat i) proc sout opk am (Some ms) lm so pf h ap' au', ak) /\ (c_need_additional C c = true -> ak = Some (rnd (tp q) 0))) as (ap' & au' & ak & -> & Hak).
    { unfold s6_additional_keys. change (b_cfg C (Bo _ _ _ _ _ _ _ _ _ _ _ _ _)) with c. destruct (c_need_additional C c); cbn [negb].
      - subst t. destruct (truthy (de_is_subaddress e)); [rewrite HB|]; cbn [bind]; eexists _, _, _; (split; [reflexivity|reflexivity]).
      - exists ap, au, None. split; [reflexivity|discriminate]. }
    cbn [bind].
    assert (exists s, s6_derivation C e ak (Bo OUTPUT (Z.of_nat i) proc sout opk am (Some ms) lm so pf h ap' au') = Ok s /\
      shared_secret C cr tp x e s) as (s & -> & Hs).
    { unfold s6_derivation. change (b_cfg C (Bo _ _ _ _ _ _ _ _ _ _ _ _ _)) with c. destruct (match change_address C c with Some ch => addr_eqb (de_addr e) ch | None => false end).
      - rewrite C1. eexists. split; [reflexivity|]. left. exists (c_r_pub C c). split; [reflexivity|exact C5].
      - destruct (truthy (de_is_subaddress e) && c_need_additional C c) eqn:E.
        + apply andb_prop in E. destruct E as [E1 E2]. rewrite (Hak E2). cbn [bind]. rewrite HA. cbn [bind]. eexists. split; [reflexivity|]. right. exists A, q.
          split; [right; destruct (de_is_subaddress e) as [[]|]; try discriminate; reflexivity|]. auto.
        + cbn [bind]. rewrite HA. cbn [bind]. eexists. split; [reflexivity|]. right. exists A, 0%nat. rewrite C4. auto. }
    cbn [bind]. rewrite HB. cbn [bind]. change (b_cfg C (Bo _ _ _ _ _ _ _ _ _ _ _ _ _)) with c. change (b_out_idx C (Bo _ (Z.of_nat i) _ _ _ _ _ _ _ _ _ _ _)) with (Z.of_nat i).
    rewrite (det_ok C cr tp x c grp Cok). destruct det eqn:Ed.
    - cbn [bind]. eexists _, _, _, _, _, _. split; [reflexivity|]. split; [apply (pl_mask_range C L)|]. split; [|split; [discriminate|intros _; exists e, s; auto]].
      intros _ Ho. apply (NZ ltac:(lia) e (Z.of_nat i) s Hin); [unfold zlen; lia|exact Hs].
    - destruct (Mok eq_refl) as (M1 & M2 & M3 & M4 & (g & M5 & M6)). rewrite C8.
      destruct (Z.of_nat i + 1 <? m) eqn:E.
      + destruct (M4 i ltac:(unfold zlen in E; lia)) as (g' & G1 & G2). rewrite G2. cbn [bind]. eexists _, _, _, _, _, _. split; [reflexivity|].
        split; [rewrite Forall_forall in M2; apply M2; eapply nth_error_In; exact G1|]. split; [discriminate|]. split; [|discriminate]. intros _. split; [exact G1|]. intros _. apply Hlm. reflexivity.
      + change (b_last_mask C (Bo _ _ _ _ _ _ _ lm _ _ _ _ _)) with lm. rewrite (Hlm eq_refl), M6. cbn [bind]. eexists _, _, _, _, _, _. split; [reflexivity|].
        replace (length (tc_dsts x) - 1)%nat with i in M5 by (unfold zlen in E; lia).
        split; [rewrite Forall_forall in M2; apply M2; eapply nth_error_In; exact M5|]. split; [discriminate|]. split; [|discriminate]. intros _. split; [exact M5|]. unfold zlen in E. lia.
  Qed.

  (** ** Range proofs *)
  Definition ret_mask (mk : Z) : option (list Z) := if negb (mk =? 0) && det && offl then Some (enc_int C mk) else None.
  Lemma rp_keep t mk i k proc sout opk am ms lm so pf h ap au : (k < length grp)%nat -> zsum (firstn k grp) <= Z.of_nat i < zsum (firstn (S k) grp) ->
    proc = false -> Z.of_nat i + 1 <> zsum (firstn (S k) grp) \/ (offl = true /\ det = true) ->
    let b := Bo OUTPUT (Z.of_nat i) proc sout opk am ms lm so pf h ap au in
    s6_range_proof C t None (Some mk) b = Ok (b, None, ret_mask mk).
  Proof.
    intros Hk Hb Hp Hc b. destruct (batch_at grp (Z.of_nat i) k grp_pos Hk ltac:(lia) Hb) as [B1 B2].
    assert (Cok' := Cok). destruct Cok' as (C1 & C2 & C3 & C4 & C5 & C6 & C7 & C8 & C9 & C10 & C11 & C12 & C13 & C14).
    unfold s6_range_proof. change (b_cfg C b) with c. change (b_out_idx C b) with (Z.of_nat i). change (b_processing_offloaded C b) with proc. rewrite Hp.
    rewrite (det_ok C cr tp x c grp Cok), C13, C14, B1. rewrite andb_false_r. cbn [negb guard bind]. rewrite B2. cbn [bind]. rewrite !andb_false_r. cbn [andb negb guard bind orb].
    rewrite andb_true_r, orb_false_r. fold (ret_mask mk). destruct (Z.eqb_spec (Z.of_nat i + 1) (zsum (firstn (S k) grp))) as [E|E].
    - destruct Hc as [Hc|[H1 H2]]; [contradiction|]. rewrite H1, H2. cbn [negb andb orb guard bind]. change (b_processing_offloaded C b) with proc. rewrite Hp. cbn [orb andb negb]. rewrite andb_false_r.
      unfold ret_mask. rewrite H1, H2. reflexivity.
    - rewrite andb_false_r. cbn [andb negb guard bind]. reflexivity.
  Qed.
  Definition h_rsig (p : bp C) (h : fhasher) : fhasher :=
    {| fh_simple := fh_simple h; fh_state := fh_state h; fh_master := fh_master h; fh_rsig := fh_rsig h ++ bp_bytes C p; fh_rct := fh_rct h |}.
  Definition proofs_ok (am ms : list Z) : Prop :=
    (1 <= length am <= 16)%nat /\ length ms = length am /\ Forall (fun a => 0 <= a < 2 ^ 64) am /\ Forall (fun m => 0 <= m < ell) ms.
  Lemma rp_prove t mk i k proc sout opk am ms lm so pf h ap au : (k < length grp)%nat -> zsum (firstn k grp) <= Z.of_nat i ->
    Z.of_nat i + 1 = zsum (firstn (S k) grp) -> proc = false -> offl = false -> fh_state h <> 8 -> proofs_ok am ms -> (exists p, prove_bp C am ms (seed t) = Ok p) ->
    exists p bs q am' ms', s6_range_proof C t None (Some mk) (Bo OUTPUT (Z.of_nat i) proc sout opk (Some am) (Some ms) lm so pf h ap au) =
        Ok (Bo OUTPUT (Z.of_nat i) proc sout opk am' ms' lm so pf (h_rsig p h) ap au, Some bs, None) /\
      bs <> [] /\ parse_bp C bs = Ok q /\ bp_bytes C q = bp_bytes C p.
  Proof.
    intros Hk Hb1 Hb2 Hp Ho Hh (A1 & A2 & A3 & A4) [p Q1]. destruct (batch_at grp (Z.of_nat i) k grp_pos Hk ltac:(lia) ltac:(lia)) as [B1 B2].
    assert (Cok' := Cok). destruct Cok' as (C1 & C2 & C3 & C4 & C5 & C6 & C7 & C8 & C9 & C10 & C11 & C12 & C13 & C14).
    destruct (pl_bp C L am ms (seed t) p A1 A2 A3 A4 Q1) as (bs & q & Q2 & Q3 & Q4 & Q5 & _).
    set (b := Bo _ _ _ _ _ _ _ _ _ _ _ _ _).
    unfold s6_range_proof. change (b_cfg C b) with c. change (b_out_idx C b) with (Z.of_nat i). rewrite C13, C14, Ho, B1. cbn [negb andb guard bind]. rewrite B2. cbn [bind].
    replace (Z.of_nat i + 1 =? zsum (firstn (S k) grp)) with true by lia. cbn [negb andb guard bind]. rewrite !andb_false_r.
    unfold s6_rsig_bp. change (b_amounts C b) with (Some am). change (b_masks C b) with (Some ms). cbn iota. rewrite Q1. cbn [bind]. unfold full_do. change (b_full C b) with (Some h).
    unfold fh_rsig_val. replace (fh_state h =? 8) with false by lia. cbn [negb guard bind]. rewrite Q2. cbn [bind orb].
    rewrite andb_true_r. exists p, bs, q. destruct (_ =? c_output_count C c); eexists _, _; (split; [reflexivity|]; auto).
  Qed.
  Lemma rp_check t mk i k proc sout opk am ms lm so pf h ap au bs q : (k < length grp)%nat -> zsum (firstn k grp) <= Z.of_nat i ->
    Z.of_nat i + 1 = zsum (firstn (S k) grp) -> proc = match mk with Some _ => false | None => true end -> offl = true -> det = match mk with Some _ => false | None => true end -> fh_state h <> 8 ->
    bs <> [] -> parse_bp C bs = Ok q -> verify_bp C q am ms = Ok true ->
    exists am' ms', s6_range_proof C t (Some bs) mk (Bo OUTPUT (Z.of_nat i) proc sout opk (Some am) (Some ms) lm so pf h ap au) =
        Ok (Bo OUTPUT (Z.of_nat i) proc sout opk am' ms' lm so pf (h_rsig q h) ap au, None, None) /\
      (Z.of_nat i + 1 < m -> am' = Some [] /\ ms' = Some []).
  Proof.
    intros Hk Hb1 Hb2 Hp Ho Hd Hh Hbs Hq Hv. destruct (batch_at grp (Z.of_nat i) k grp_pos Hk ltac:(lia) ltac:(lia)) as [B1 B2].
    assert (Cok' := Cok). destruct Cok' as (C1 & C2 & C3 & C4 & C5 & C6 & C7 & C8 & C9 & C10 & C11 & C12 & C13 & C14).
    destruct bs as [|b0 bs]; [now elim Hbs|].
    set (b := Bo _ _ _ _ _ _ _ _ _ _ _ _ _).
    unfold s6_range_proof. change (b_cfg C b) with c. change (b_out_idx C b) with (Z.of_nat i). change (b_processing_offloaded C b) with proc. rewrite (det_ok C cr tp x c grp Cok), C13, C14, Ho, B1. cbn [negb andb guard bind]. rewrite B2. cbn [bind].
    replace (Z.of_nat i + 1 =? zsum (firstn (S k) grp)) with true by lia. cbn [negb andb guard bind].
    assert (E : det && negb proc = false) by (rewrite Hd, Hp; destruct mk; reflexivity). rewrite E.
    unfold s6_process_bp. rewrite Hq. cbn [bind]. unfold full_do. change (b_full C b) with (Some h).
    unfold fh_rsig_val. replace (fh_state h =? 8) with false by lia. cbn [negb guard bind]. bsr. change (b_amounts C b) with (Some am). change (b_masks C b) with (Some ms). cbn iota. rewrite Hv. cbn [guard bind orb].
    bsr. change (b_out_idx C b) with (Z.of_nat i). change (b_processing_offloaded C b) with proc. rewrite C8.
    assert (match mk with Some m0 => if negb (m0 =? 0) && det && true then Some (enc_int C m0) else None | None => None end = None) as ->.
    { destruct mk; [|reflexivity]. rewrite Hd, andb_false_r. reflexivity. }
    destruct (Z.eqb_spec (Z.of_nat i + 1) m) as [E1|E1]; cbn [andb].
    - destruct proc; eexists _, _; (split; [reflexivity|lia]).
    - eexists _, _. split; [reflexivity|auto].
  Qed.

  (** ** One output message *)
  Definition h_ecdh (e : list Z) (h : fhasher) : fhasher := fh_rct_add 4 e h.
  Definition st_of (i : nat) : tstate := match i with O => INPUT_ALL_DONE | _ => OUTPUT end.
  Definition wait (i s : nat) : bool := det && offl && match i with O => false | _ => true end && (i =? s)%nat.
  Lemma validate_ok e tag i k s proc sout opk am ms lm so pf h ap au : nth_error (tc_dsts x) i = Some e ->
    gen_hmac_tsxdest C c e (Z.of_nat i) = Ok tag -> (k < length grp)%nat -> Z.of_nat s = zsum (firstn k grp) -> (s <= i)%nat -> Z.of_nat i < zsum (firstn (S k) grp) ->
    proc = wait i s ->
    s6_validate C (Some e) tag false (Bo (st_of i) (Z.of_nat i - 1) proc sout opk am ms lm so pf h ap au) =
    Ok (Bo OUTPUT (Z.of_nat i) false sout opk am ms lm so pf h ap au, Some e).
  Proof.
    intros He Htag Hk Hs Hsi Hn Hp. assert (Hi : (i < length (tc_dsts x))%nat) by (apply nth_error_Some; congruence).
    assert (Ha : 0 <= de_amount e) by (destruct (wf_dst C cr x W e (nth_error_In _ _ He)) as ((H & _) & _); exact H).
    assert (Cok' := Cok). destruct Cok' as (C1 & C2 & C3 & C4 & C5 & C6 & C7 & C8 & C9 & C10 & C11 & C12 & C13 & C14).
    unfold s6_validate. set (b := Bo _ _ _ _ _ _ _ _ _ _ _ _ _). change (b_cfg C b) with c. cbn [andb negb guard bind].
    rewrite (det_ok C cr tp x c grp Cok), C14, C13. change (b_out_idx C b) with (Z.of_nat i - 1). change (b_processing_offloaded C b) with proc.
    assert (exists b1, (if det && offl then
                 let* bidx := get_rsig_batch grp (Z.of_nat i - 1) in
                 let* last := is_last_in_batch grp (Z.of_nat i - 1) bidx in
                 let* _ := guard (negb last || negb (Bool.eqb proc false)) AssertionError in
                 Ok (set_processing_offloaded C false b)
               else Ok b) = Ok b1 /\ b1 = Bo (st_of i) (Z.of_nat i - 1) false sout opk am ms lm so pf h ap au) as (b1 & -> & ->).
    { unfold wait in Hp. destruct (det && offl).
      - destruct i as [|i].
        + change (Z.of_nat 0 - 1) with (-1). destruct (batch_minus1 grp grp_pos grp_ne) as [-> E2]. cbn [bind]. rewrite E2. cbn [bind negb orb guard]. eexists. split; reflexivity.
        + replace (Z.of_nat (S i) - 1) with (Z.of_nat i) by lia. destruct (Nat.eq_dec (S i) s) as [E|E].
          * destruct k as [|k]; [cbn in Hs; lia|]. pose proof (zsum_firstn_mono grp grp_pos k (S k) ltac:(lia)).
            destruct (batch_at grp (Z.of_nat i) k grp_pos ltac:(lia) ltac:(lia) ltac:(lia)) as [-> E2]. cbn [bind]. rewrite E2. cbn [bind].
            rewrite Hp. replace (S i =? s)%nat with true by (symmetry; now apply Nat.eqb_eq). cbn [andb Bool.eqb negb]. rewrite orb_true_r. cbn [guard bind]. eexists. split; [reflexivity|]. unfold b. now replace (Z.of_nat (S i) - 1) with (Z.of_nat i) by lia.
          * destruct (batch_at grp (Z.of_nat i) k grp_pos Hk ltac:(lia) ltac:(lia)) as [-> E2]. cbn [bind]. rewrite E2. cbn [bind].
            replace (Z.of_nat i + 1 =? zsum (firstn (S k) grp)) with false by lia. cbn [negb orb guard bind]. eexists. split; [reflexivity|]. unfold b. now replace (Z.of_nat (S i) - 1) with (Z.of_nat i) by lia.
      - eexists. split; [reflexivity|]. unfold b. now rewrite Hp. }
    cbn [bind]. unfold Bo, transition. bsr. cbn [negb].
    assert (existsb (tstate_beq (st_of i)) [INPUT_ALL_DONE; OUTPUT] = true) as -> by (destruct i; reflexivity). cbn [guard bind]. bsr.
    replace (0 <=? de_amount e) with true by lia. rewrite C7, C8. replace (n - 1 + 1 =? n) with true by lia. replace (Z.of_nat i - 1 + 1) with (Z.of_nat i) by lia.
    replace (Z.of_nat i <? m) with true by (unfold zlen; lia). rewrite orb_true_r. cbn [guard bind negb]. rewrite Htag. cbn [bind]. rewrite zlist_eqb_refl. reflexivity.
  Qed.

  Definition pf_of (pf0 : list Z) (i : nat) (vout : list (list Z)) : list Z := pf0 ++ (match i with O => [] | _ => varint m end) ++ concat vout.
  Lemma set_out_red q e tag i k s pre proc sout opk am ms lm so pf0 vout h ap au : nth_error (tc_dsts x) i = Some e ->
    gen_hmac_tsxdest C c e (Z.of_nat i) = Ok tag -> (k < length grp)%nat -> Z.of_nat s = zsum (firstn k grp) -> (s <= i)%nat -> Z.of_nat i < zsum (firstn (S k) grp) ->
    proc = wait i s -> (det = false -> lm = lmf) -> (fh_state h = 2 \/ fh_state h = 4) -> (i = 0%nat -> vout = []) ->
    exists mask ap' au' lm' pf1, 0 <= mask < ell /\ (det = true -> offl = true -> mask <> 0) /\
      (det = false -> nth_error gm i = Some mask /\ ((S i < length (tc_dsts x))%nat -> lm' = lmf)) /\ (det = true -> batch_mask C cr tp x i mask) /\
      forall am' ms' h' rs mo, 
        s6_range_proof C (tp q) pre (Some mask) (Bo OUTPUT (Z.of_nat i) false (sout + de_amount e) opk (Some (am ++ [de_amount e])) (Some (ms ++ [mask])) lm' so pf1 h ap' au') =
          Ok (Bo OUTPUT (Z.of_nat i) false (sout + de_amount e) opk am' ms' lm' so pf1 h' ap' au', rs, mo) -> fh_state h' = fh_state h ->
        exists tx_out vt pk ecdh, 
          set_output C (tp q) (Some e) tag pre false (Bo (st_of i) (Z.of_nat i - 1) proc sout opk (Some am) (Some ms) lm so (pf_of pf0 i vout) h ap au) =
          Ok (Bo OUTPUT (Z.of_nat i) false (sout + de_amount e) (opk ++ [skipn 32 pk]) am' ms' lm' (sc_add so mask) (pf_of pf0 (S i) (vout ++ [tx_out])) (h_ecdh ecdh h') ap' au',
              RSetOutput tx_out vt rs mo pk ecdh).
  Proof.
    intros He Htag Hk Hs Hsi Hn Hp Hlm Hh Hv. assert (Hi : (i < length (tc_dsts x))%nat) by (apply nth_error_Some; congruence).
    assert (Cok' := Cok). destruct Cok' as (C1 & C2 & C3 & C4 & C5 & C6 & C7 & C8 & C9 & C10 & C11 & C12 & C13 & C14).
    set (pf1 := pf_of pf0 i vout ++ match i with O => varint m | _ => [] end).
    destruct (tx_keys_ok (tp q) q e i false (sout + de_amount e) opk (Some (am ++ [de_amount e])) ms lm so pf1 h ap au eq_refl He Hlm)
      as (mask & P & ak & ap' & au' & lm' & Ek & M1 & M2 & M3 & M4).
    exists mask, ap', au', lm', pf1. split; [exact M1|]. split; [exact M2|]. split; [exact M3|]. split; [exact M4|]. intros am' ms' h' rs mo Er Eh.
    unfold set_output. rewrite (validate_ok e tag i k s proc) by assumption. cbn [bind]. change (b_cfg C (Bo _ _ _ _ _ _ _ _ _ _ _ _ _)) with c.
    destruct W as (_ & Wm & _). rewrite C8, uvarint_ok by lia. cbn [bind].
    change (b_out_idx C (Bo _ (Z.of_nat i) _ _ _ _ _ _ _ _ _ _ _)) with (Z.of_nat i).
    assert ((if Z.of_nat i =? 0 then prefix_add C (varint m) (Bo OUTPUT (Z.of_nat i) false sout opk (Some am) (Some ms) lm so (pf_of pf0 i vout) h ap au)
       else Ok (Bo OUTPUT (Z.of_nat i) false sout opk (Some am) (Some ms) lm so (pf_of pf0 i vout) h ap au)) = Ok (Bo OUTPUT (Z.of_nat i) false sout opk (Some am) (Some ms) lm so pf1 h ap au)) as ->.
    { unfold pf1. destruct i as [|i]; [reflexivity|]. replace (Z.of_nat (S i) =? 0) with false by lia. now rewrite app_nil_r. }
    cbn [bind]. change (b_amounts C (Bo _ _ _ _ _ (Some am) _ _ _ _ _ _ _)) with (Some am). cbn iota. cbn [bind].
    change (set_sum_out C _ _) with (Bo OUTPUT (Z.of_nat i) false (sout + de_amount e) opk (Some (am ++ [de_amount e])) (Some ms) lm so pf1 h ap au).
    rewrite Ek. cbn [bind]. rewrite Er. cbn [bind].
    unfold prefix_add. change (b_prefix C (Bo _ _ _ _ _ _ _ _ _ pf1 _ _ _)) with (Some pf1). cbn iota. cbn [bind].
    unfold gen_hmac_vouti. destruct (dump_dst_ok e (proj1 (wf_dst C cr x W e (nth_error_In _ _ He)))) as (bs & ->). cbn [bind]. bsr.
    change (b_out_idx C (Bo _ (Z.of_nat i) _ _ _ _ _ _ _ _ _ _ _)) with (Z.of_nat i).
    destruct (tag_of_ok C (c_key_hmac C c) d_txout (Z.of_nat i) (cn_hash C (bs ++ [0; 2] ++ enc_pt C P)) C2 ltac:(cbn; lia) ltac:(unfold zlen in Wm; lia)) as (vt & Evt).
    cbn [app] in Evt |- *. rewrite Evt. cbn [bind]. unfold full_do. bsr. change (b_full C (Bo _ _ _ _ _ _ _ _ _ _ h' _ _)) with (Some h'). cbn iota.
    unfold fh_set_ecdh. replace ((fh_state h' =? 2) || (fh_state h' =? 3) || (fh_state h' =? 4)) with true by lia. cbn [guard bind].
    eexists _, _, _, _. rewrite skipn_app, (skipn_all2 (enc_pt C P)) by (rewrite (law_pt_len C (pl_codec C L)); lia). rewrite (law_pt_len C (pl_codec C L)). cbn [Nat.sub skipn app].
    assert (Epf : pf1 ++ 0 :: 2 :: enc_pt C P = pf_of pf0 (S i) (vout ++ [0 :: 2 :: enc_pt C P])).
    { unfold pf1, pf_of. rewrite concat_app. cbn [concat]. rewrite app_nil_r. destruct i as [|i].
      - rewrite (Hv eq_refl). cbn [concat app]. rewrite !app_nil_r, <- app_assoc. reflexivity.
      - rewrite app_nil_r, <- !app_assoc. reflexivity. }
    rewrite <- Epf. reflexivity.
  Qed.
  (** the message that carries an offloaded proof *)
  Lemma set_offl_ok q i k sout opk am ms lm so pf h ap au bs qq : (k < length grp)%nat -> zsum (firstn k grp) <= Z.of_nat i ->
    (i < length (tc_dsts x))%nat ->
    Z.of_nat i + 1 = zsum (firstn (S k) grp) -> offl = true -> det = true -> fh_state h <> 8 ->
    bs <> [] -> parse_bp C bs = Ok qq -> verify_bp C qq am ms = Ok true ->
    exists am' ms', set_output C (tp q) None [] (Some bs) true (Bo OUTPUT (Z.of_nat i) false sout opk (Some am) (Some ms) lm so pf h ap au) =
        Ok (Bo OUTPUT (Z.of_nat i) true sout opk am' ms' lm so pf (h_rsig qq h) ap au, ROffloaded) /\
      (Z.of_nat i + 1 < m -> am' = Some [] /\ ms' = Some []).
  Proof.
    intros Hk Hb1 Hi Hb2 Ho Hd Hh Hbs Hq Hv. destruct (batch_at grp (Z.of_nat i) k grp_pos Hk ltac:(lia) ltac:(lia)) as [B1 B2].
    destruct (rp_check (tp q) None i k true sout opk am ms lm so pf h ap au bs qq Hk Hb1 Hb2 eq_refl Ho Hd Hh Hbs Hq Hv) as (am' & ms' & Er & Ha).
    assert (Cok' := Cok). destruct Cok' as (C1 & C2 & C3 & C4 & C5 & C6 & C7 & C8 & C9 & C10 & C11 & C12 & C13 & C14).
    exists am', ms'. split; [|exact Ha]. unfold set_output, s6_validate. set (b := Bo _ _ _ _ _ _ _ _ _ _ _ _ _). change (b_cfg C b) with c.
    rewrite (det_ok C cr tp x c grp Cok), C14, C13, Ho, Hd. cbn [andb negb orb guard bind]. change (b_out_idx C b) with (Z.of_nat i). rewrite B1. cbn [bind]. rewrite B2. cbn [bind].
    change (b_processing_offloaded C b) with false. cbn [Bool.eqb negb]. rewrite orb_true_r. cbn [guard bind]. bsr. cbn [negb]. cbn [bind]. bsr.
    change (b_inp_idx C b) with (n - 1). change (b_out_idx C b) with (Z.of_nat i). rewrite C7, C8. replace (n - 1 + 1 =? n) with true by lia. replace (Z.of_nat i <? m) with true by (unfold zlen; lia).
    cbn [guard bind negb orb]. 
    change (set_processing_offloaded C true b) with (Bo OUTPUT (Z.of_nat i) true sout opk (Some am) (Some ms) lm so pf h ap au). rewrite Er. reflexivity.
  Qed.

  (** ** The proofs the agent makes *)
  Lemma mapM_window {A B} (f : A -> B) (l : list A) (base : Z) (s z : nat) : base = Z.of_nat s -> (s + z <= length l)%nat ->
    mapM (fun i => let* d := py_get l (base + i) in Ok (f d)) (zrange (Z.of_nat z)) = Ok (map f (skipn s (firstn (s + z) l))).
  Proof.
    intros -> H. induction z as [|z IH].
    - rewrite Nat.add_0_r, skipn_all2 by (rewrite firstn_length; lia). reflexivity.
    - destruct (nth_error l (s + z)) as [a|] eqn:Ea; [|apply nth_error_None in Ea; lia].
      replace (Z.of_nat (S z)) with (Z.of_nat z + 1) by lia. rewrite zrange_S by lia. rewrite mapM_app, IH by lia. cbn [bind mapM].
      assert (py_get l (Z.of_nat s + Z.of_nat z) = Ok a) as -> by (apply (py_get_nat l (s + z)) in Ea; rewrite <- Ea; f_equal; lia). cbn [bind].
      replace (s + S z)%nat with (S (s + z)) by lia. rewrite (firstn_snoc_nth _ _ _ Ea), skipn_app, map_app. f_equal. f_equal.
      rewrite firstn_length. replace (s - Nat.min (s + z) (length l))%nat with 0%nat by lia. reflexivity.
  Qed.
  Lemma rct_offload_ok i k s (o : out_st C) ms : (k < length grp)%nat -> Z.of_nat s = zsum (firstn k grp) -> (s <= i)%nat -> (i < length (tc_dsts x))%nat -> Z.of_nat i < zsum (firstn (S k) grp) ->
    os_batch C o = Z.of_nat k -> os_in_batch C o = Z.of_nat i - Z.of_nat s + 1 ->
    (Z.of_nat i + 1 = zsum (firstn (S k) grp) -> firstn (S i) (os_gamma C o) = map (enc_int C) ms /\ length ms = S i /\ Forall (fun g => 0 <= g < ell) ms /\
       (exists p, prove_bp C (map de_amount (skipn s (firstn (S i) (tc_dsts x)))) (skipn s ms) (hs (length (os_rsigs C o))) = Ok p)) ->
    (Z.of_nat i + 1 <> zsum (firstn (S k) grp) /\ rct_offload C hs (tc_dsts x) grp (Z.of_nat i) o = Ok None) \/
    (Z.of_nat i + 1 = zsum (firstn (S k) grp) /\ exists bs q, rct_offload C hs (tc_dsts x) grp (Z.of_nat i) o = Ok (Some bs) /\ bs <> [] /\ parse_bp C bs = Ok q /\
       verify_bp C q (map de_amount (skipn s (firstn (S i) (tc_dsts x)))) (skipn s ms) = Ok true).
  Proof.
    intros Hk Hs Hsi Hi Hn Ho Hin Hg. unfold rct_offload. destruct (nth_error grp k) as [z|] eqn:Ez; [|apply nth_error_None in Ez; lia].
    rewrite Ho, (proj2 (py_get_nat grp k z) Ez). cbn [bind]. pose proof (zsum_firstn_S _ _ _ Ez) as E1. rewrite Hin.
    destruct (Z.eq_dec (Z.of_nat i + 1) (zsum (firstn (S k) grp))) as [E|E].
    - right. split; [exact E|]. specialize (Hg E). destruct Hg as (G1 & G2 & G3 & p & Q1). replace (Z.of_nat i - Z.of_nat s + 1 <? z) with false by lia.
      assert (Hz : 0 < z <= 16) by (destruct Gok as (_ & H & _); rewrite Forall_forall in H; apply H; eapply nth_error_In; exact Ez).
      assert (El : (S i <= length (os_gamma C o))%nat). { assert (E2 : length (firstn (S i) (os_gamma C o)) = S i) by (now rewrite G1, map_length). rewrite firstn_length in E2. lia. }
      replace z with (Z.of_nat (S i - s)) by lia.
      rewrite (mapM_window de_amount (tc_dsts x) _ s (S i - s)) by lia. cbn [bind].
      rewrite (mapM_window (dec_int C) (os_gamma C o) _ s (S i - s)) by lia. cbn [bind]. replace (s + (S i - s))%nat with (S i) by lia.
      assert (map (dec_int C) (skipn s (firstn (S i) (os_gamma C o))) = skipn s ms) as ->.
      { rewrite G1, skipn_map, map_map. rewrite <- (map_id (skipn s ms)) at 2. apply map_ext_in. intros a Ha. apply (law_int C (pl_codec C L)).
        rewrite Forall_forall in G3. apply G3. eapply In_skipn. exact Ha. }
      assert (La : length (map de_amount (skipn s (firstn (S i) (tc_dsts x)))) = (S i - s)%nat) by (rewrite map_length, skipn_length, firstn_length; lia).
      destruct (pl_bp C L (map de_amount (skipn s (firstn (S i) (tc_dsts x)))) (skipn s ms) (hs (length (os_rsigs C o))) p) as (bs & q & Q2 & Q3 & Q4 & Q5 & Q6).
      + lia.
      + rewrite La, skipn_length. lia.
      + apply Forall_forall. intros a Ha. apply in_map_iff in Ha. destruct Ha as (e & <- & He). apply In_skipn in He. apply In_firstn in He.
        destruct (wf_dst C cr x W e He) as ((H & _) & H' & _). lia.
      + apply Forall_forall. intros a Ha. rewrite Forall_forall in G3. apply G3. eapply In_skipn. exact Ha.
      + exact Q1.
      + rewrite Q1. cbn [bind]. rewrite Q2. cbn [bind]. exists bs, q. auto.
    - left. split; [exact E|]. replace (Z.of_nat i - Z.of_nat s + 1 <? z) with true by lia. reflexivity.
  Qed.
End Outputs.
