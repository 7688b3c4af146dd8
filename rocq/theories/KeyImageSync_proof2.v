From Verif Require Import Py PyLemmas Protobuf_model Protobuf_spec Protobuf_proof Signer_model Signer_base Lists_model Lists_proof KeySep_proof
  KeyImageSync_model KeyImageSync_spec KeyImageSync_proof.

Section Honest.
  Context (O : kiops) (cr : K_creds O) (subs : list (Z * list Z)).
  Notation H := (K_hash O).

  (** every output exports *)
  Definition exports (td : transfer) : Prop := 0 <= out_index td /\ forall rnd, exists blob, K_export O cr (table O cr subs) td rnd = Ok blob.

  Lemma k_loop_ok t key : forall tdis n s acc, s_key O s = Some key -> s_subs O s = table O cr subs ->
    Forall exports tdis -> s_idx O s + zlen tdis < s_num O s ->
    exists s' kis, k_loop O cr t n tdis s acc = Ok (s', kis).
  Proof.
    induction tdis as [|td tdis IH]; intros n s acc Hk Hs F L; cbn [k_loop].
    - eauto.
    - inversion F as [|? ? [Hi He] F']; subst. rewrite zlen_cons in L. pose proof (zlen_nonneg tdis).
      assert (G : (s_idx O s + 1 <? s_num O s) = true) by (apply Z.ltb_lt; lia). rewrite G. cbn [guard bind].
      rewrite (compute_hash_ok O td Hi). cbn [bind]. rewrite Hs. destruct (He (k_rnd t n)) as [blob Eb]. rewrite Eb. cbn [bind]. rewrite Hk.
      apply IH; cbn; auto. lia.
  Qed.

  Definition at_pos (s : ksync O) (num : Z) (hash key : list Z) (done : list transfer) : Prop :=
    s_num O s = num /\ s_hash O s = Some hash /\ s_key O s = Some key /\ s_subs O s = table O cr subs /\
    s_idx O s + 1 = zlen done /\ s_fed O s = hashes O done.

  Lemma step_ok s num hash key done b t : at_pos s num hash key done -> b <> [] -> Forall exports b -> zlen (done ++ b) <= num ->
    exists s' kis, k_step O cr (Some s) t (KStep b) = (Some s', KStepAck kis) /\ at_pos s' num hash key (done ++ b) /\
      Forall2 (seal O cr (table O cr subs) key) b kis.
  Proof.
    intros (P1 & P2 & P3 & P4 & P5 & P6) Hb F L. rewrite zlen_app in L.
    destruct (k_loop_ok t key b 0 s [] P3 P4 F ltac:(lia)) as (s' & kis & E).
    pose proof (k_loop_inv O cr t key _ _ _ _ _ _ P3 E) as (E1 & E2 & E3 & E4 & E5 & E6 & E7 & new & E8 & E9). cbn [app] in E8. subst new.
    exists s', kis. cbn [k_step]. unfold k_sync. destruct b as [|td b]; [congruence|]. rewrite E. cbn [bind].
    split; [reflexivity|]. split; [|rewrite P4 in E9; exact E9]. repeat split; try congruence.
    - rewrite E5, zlen_app. lia.
    - rewrite E7, P6, hashes_app. reflexivity.
  Qed.

  Lemma batches_ok ts num hash key : forall bs n s done, at_pos s num hash key done -> Forall (fun b => b <> []) bs ->
    Forall exports (concat bs) -> zlen (done ++ concat bs) <= num ->
    exists s' n' kis, k_batches O cr (Some s) ts n bs = Ok (Some s', n', kis) /\ at_pos s' num hash key (done ++ concat bs) /\
      Forall2 (seal O cr (table O cr subs) key) (concat bs) kis.
  Proof.
    induction bs as [|b bs IH]; intros n s done P N F L; cbn [k_batches concat] in *.
    - exists s, n, []. rewrite app_nil_r. auto.
    - inversion N; subst. apply Forall_app in F. destruct F as [F1 F2]. rewrite app_assoc in L.
      pose proof L as L'. rewrite zlen_app in L'. pose proof (zlen_nonneg (concat bs)).
      destruct (step_ok s num hash key done b (ts n) P ltac:(assumption) F1 ltac:(lia)) as (s1 & kis & E & P1 & S1). rewrite E.
      destruct (IH (S n) s1 (done ++ b) P1 ltac:(assumption) F2 L) as (s' & n' & rest & E' & P' & S'). rewrite E'. cbn [bind].
      exists s', n', (kis ++ rest). split; [reflexivity|]. rewrite app_assoc. split; [exact P'|]. apply Forall2_app; assumption.
  Qed.

  Lemma commit_ok outs : Forall (fun td => 0 <= out_index td) outs -> k_commit O outs subs = Ok (KInit (zlen outs) (chain H outs) subs).
  Proof.
    intros F. unfold k_commit. assert (E : mapM (compute_hash O) outs = Ok (map (fun td => H (id_bytes td)) outs)).
    { induction F as [|td outs Hi F IH]; [reflexivity|]. cbn [mapM map]. rewrite (compute_hash_ok O td Hi). cbn [bind]. rewrite IH. reflexivity. }
    rewrite E. reflexivity.
  Qed.

  (** what the host gets for one output *)
  Definition result_of (td : transfer) (r : list Z * list Z * list Z) : Prop :=
    exists rnd blob, K_export O cr (table O cr subs) td rnd = Ok blob /\ r = (py_slice blob 0 32, py_slice blob 32 64, py_from blob 64).

  Lemma decrypt_all key : (forall k n p, K_dec O k n (K_enc O k n p) = Ok p) -> forall tds kis, Forall2 (seal O cr (table O cr subs) key) tds kis ->
    exists rs, mapM (fun '(iv, ct) => let* p := K_dec O key iv ct in Ok (py_slice p 0 32, py_slice p 32 64, py_from p 64)) kis = Ok rs /\ Forall2 result_of tds rs.
  Proof.
    intros D tds kis F. induction F as [|td [iv ct] tds kis (rnd & blob & E & Ec) F (rs & IH & G)]; [exists []; split; [reflexivity|constructor]|].
    cbn [fst snd] in Ec. subst ct. cbn [mapM]. rewrite D. cbn [bind]. rewrite IH. cbn [bind]. eexists. split; [reflexivity|]. constructor; [|exact G]. exists rnd, blob. auto.
  Qed.

  Lemma init_pos outs t : k_answer t = true -> exists s, k_step O cr None t (KInit (zlen outs) (chain H outs) subs) = (Some s, KInitAck) /\
    at_pos s (zlen outs) (chain H outs) (k_key t) [].
  Proof. intros A. cbn [k_step]. unfold k_init. rewrite A. cbn [negb]. eexists. split; [reflexivity|]. repeat split; reflexivity. Qed.

  Lemma chunks (outs : list transfer) : exists (full : list (list transfer)) (last : list transfer), chunk outs 10 = Ok (full ++ [last]) /\ concat full ++ last = outs /\ Forall (fun c => zlen c = 10) full /\ zlen last < 10.
  Proof. destruct (chunk_spec _ outs 10 ltac:(lia)) as (full & last & H1 & H2 & H3 & H4). exists full, last. repeat split; auto; lia. Qed.

  Theorem import_ok ts outs : k_answer (ts 0%nat) = true -> Forall exports outs -> (forall k n p, K_dec O k n (K_enc O k n p) = Ok p) ->
    zlen outs mod 10 <> 0 -> exists rs, import_outputs O cr ts outs subs = Ok rs /\ Forall2 result_of outs rs.
  Proof.
    intros A F D M. unfold import_outputs.
    assert (Fi : Forall (fun td => 0 <= out_index td) outs) by (eapply Forall_impl; [|exact F]; intros ? [? _]; assumption).
    rewrite (commit_ok outs Fi). cbn [bind]. destruct (init_pos outs (ts 0%nat) A) as (s & E & P). rewrite E.
    destruct (chunks outs) as (full & last & Ec & Eo & Ff & Ll). rewrite Ec. cbn [bind].
    assert (Len10 : zlen (concat full) mod 10 = 0).
    { clear - Ff. induction Ff as [|c full Hc Ff IH]; [reflexivity|]. cbn [concat]. rewrite zlen_app, Hc. lia. }
    assert (Hl : last <> []). { intros ->. apply M. rewrite <- Eo, app_nil_r. exact Len10. }
    assert (Eo' : concat (full ++ [last]) = outs) by (rewrite concat_app; cbn; rewrite app_nil_r; exact Eo).
    assert (Nb : Forall (fun b => b <> []) (full ++ [last])).
    { apply Forall_app. split; [|constructor; [exact Hl|constructor]]. eapply Forall_impl; [|exact Ff]. intros c Hc ->. discriminate Hc. }
    destruct (batches_ok ts (zlen outs) (chain H outs) (k_key (ts 0%nat)) (full ++ [last]) 1 s [] P Nb) as (s' & n' & kis & Eb & P' & S').
    { rewrite Eo'. exact F. } { cbn [app]. rewrite Eo'. lia. }
    rewrite Eb. cbn [bind]. rewrite Eo' in *. cbn [app] in P'. destruct P' as (Q1 & Q2 & Q3 & Q4 & Q5 & Q6).
    cbn [k_step]. unfold k_final. rewrite Q5, Q1, Z.eqb_refl. cbn [guard bind]. rewrite Q2, Q3.
    replace (K_hash O (s_fed O s')) with (chain H outs) by (rewrite Q6; reflexivity). rewrite zlist_eqb_refl. cbn [guard bind].
    apply decrypt_all; assumption.
  Qed.

  Lemma batches_empty_fails ts : forall full n st, exists e, k_batches O cr st ts n (full ++ [[]]) = Err e.
  Proof.
    induction full as [|b full IH]; intros n st.
    - cbn [app k_batches k_step]. destruct st as [s|]; cbn; eauto.
    - cbn [app k_batches]. destruct (k_step O cr st (ts n) (KStep b)) as [st' []]; eauto.
      destruct (IH (S n) st') as [e E]. rewrite E. cbn. eauto.
  Qed.
  Theorem import_fails ts outs : zlen outs mod 10 = 0 -> exists e, import_outputs O cr ts outs subs = Err e.
  Proof.
    intros M. unfold import_outputs. destruct (k_commit O outs subs) as [m|e]; cbn [bind]; [|eauto].
    destruct (k_step O cr None (ts 0%nat) m) as [st []]; eauto.
    destruct (chunks outs) as (full & last & Ec & Eo & Ff & Ll). rewrite Ec. cbn [bind].
    assert (Len10 : zlen (concat full) mod 10 = 0).
    { clear - Ff. induction Ff as [|c full Hc Ff IH]; [reflexivity|]. cbn [concat]. rewrite zlen_app, Hc. lia. }
    assert (last = []). { rewrite <- Eo, zlen_app in M. pose proof (zlen_nonneg last). assert (zlen last = 0) by lia. destruct last; [reflexivity|]. rewrite zlen_cons in *. pose proof (zlen_nonneg last). lia. }
    subst last. destruct (batches_empty_fails ts full 1 st) as [e E]. rewrite E. cbn. eauto.
  Qed.
End Honest.
