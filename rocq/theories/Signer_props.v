(** The session properties derived from the invariants. *)
From Verif Require Import Py PyLemmas Protobuf_model Protobuf_spec Protobuf_proof Addr_model Addr_spec Addr_proof Lists_model Lists_spec
  Signer_model Signer_spec Signer_base Signer_inv Signer_step Signer_inv2 Signer_inv3.
From Coq Require Import Permutation.

Section Props.
  Context {C : ops}.

  (** * Histories *)
  Lemma run_snd_app cr (h1 h2 : list (tape * msg)) st : snd (run C cr st (h1 ++ h2)) = snd (run C cr st h1) ++ snd (run C cr (fst (run C cr st h1)) h2).
  Proof. rewrite run_app. destruct (run C cr st h1) as [s1 r1]. cbn [fst snd]. destruct (run C cr s1 h2). reflexivity. Qed.

  Lemma history_session cr H t m r : history C cr (H ++ [(t, m, r)]) -> ~ is_init m -> r <> RFailure ->
    exists H1 t0 d r0 tr, H = H1 ++ (t0, MInit d, r0) :: tr /\ answer t0 = true /\ session C cr t0 d r0 (tr ++ [(t, m, r)]).
  Proof.
    unfold history. intros Hh Hm Hr. rewrite !map_app in Hh. cbn [map fst snd] in Hh.
    destruct (run C cr None (map fst H ++ [(t, m)])) as [st' rs'] eqn:E. cbn [snd] in Hh. subst rs'.
    destruct (acked_in_session _ _ _ _ _ _ _ E Hm Hr) as (h1 & t0 & d & h2 & rs1 & r0 & rs2 & E1 & E2 & Hl & Ha & Hf & Hg).
    assert (exists H1 tr, H = H1 ++ (t0, MInit d, r0) :: tr /\ map fst H1 = h1 /\ map fst tr = h2 /\ map snd tr = rs2) as (H1 & tr & -> & F1 & F2 & F3).
    { exists (firstn (length h1) H), (skipn (S (length h1)) H).
      assert (Hlen : (length h1 < length H)%nat) by (pose proof (f_equal (@length _) E1) as X; rewrite map_length, app_length in X; cbn in X; lia).
      assert (Hn : nth_error H (length h1) = Some (t0, MInit d, r0)).
      { destruct (nth_error H (length h1)) as [[tm r1]|] eqn:En; [|apply nth_error_None in En; lia].
        pose proof (map_nth_error fst _ _ En) as X1. rewrite E1, nth_error_app2, Nat.sub_diag in X1 by lia. cbn in X1.
        pose proof (map_nth_error snd _ _ En) as X2. rewrite E2, <- Hl, nth_error_app2, Nat.sub_diag in X2 by lia. cbn in X2. congruence. }
      split. { rewrite <- (firstn_skipn (length h1) H) at 1. f_equal. clear - Hn. revert H Hn. induction (length h1) as [|n IH]; intros [|x H] Hn; try discriminate; cbn in *; [congruence|auto]. }
      split. { rewrite <- firstn_map, E1, firstn_app, Nat.sub_diag, firstn_all. cbn. apply app_nil_r. }
      split. { rewrite <- skipn_map, E1, skipn_app. replace (S (length h1) - length h1)%nat with 1%nat by lia. rewrite skipn_all2 by lia. reflexivity. }
      { rewrite <- skipn_map, E2, <- Hl, skipn_app. replace (S (length rs1) - length rs1)%nat with 1%nat by lia. rewrite skipn_all2 by lia. reflexivity. } }
    exists H1, t0, d, r0, tr. split; [reflexivity|]. split; [exact Ha|].
    rewrite map_app in E. cbn [map fst] in E. rewrite <- app_assoc in E. rewrite run_app in E. destruct (run C cr None (map fst H1)) as [s1 rr1] eqn:E3.
    exists s1, st'. split; [|split].
    - cbn [app] in E. rewrite map_app in *. cbn [map fst snd app] in *. destruct (run C cr s1 _) as [s2 rr2]. apply pair_inj in E. destruct E as [-> E].
      f_equal. rewrite <- app_assoc in E. rewrite map_app. cbn [map snd app] in E |- *.
      assert (length rr1 = length (map snd H1)) as Hlr by (pose proof (run_length cr None (map fst H1)) as X; rewrite E3 in X; cbn in X; rewrite X, !map_length; reflexivity).
      clear - E Hlr. revert E Hlr. generalize (map snd H1) as l. intros l. revert rr1. induction l as [|a l IH]; intros [|x rr1] E Hl; try discriminate; cbn in *; [exact E|]. injection E as _ E. injection Hl as Hl. eauto.
    - now inversion Hg.
    - apply Forall_app. split; [|constructor; [cbn; auto|constructor]]. inversion Hg; subst. clear - Hf H3.
      induction tr as [|[tm r1] tr IH]; [constructor|]. cbn [map fst snd] in *. inversion Hf; inversion H3; subst. constructor; [cbn; auto|auto].
  Qed.

  Lemma failure_ends cr H t m tr : history C cr (H ++ (t, m, RFailure) :: tr) ->
    Forall (fun e => ~ is_init (snd (fst e))) tr -> Forall (fun e => snd e = RFailure) tr.
  Proof.
    unfold history. rewrite !map_app. cbn [map fst snd]. rewrite run_snd_app. intros Hh Hf.
    destruct (run C cr None (map fst H)) as [s1 rs1] eqn:E. cbn [fst snd run] in Hh.
    assert (length rs1 = length (map snd H)) as Hl by (pose proof (run_length cr None (map fst H)) as X; rewrite E in X; cbn in X; rewrite X, !map_length; reflexivity).
    destruct (tsx_sign C cr s1 t m) as [s2 r2] eqn:E2. destruct (run C cr s2 (map fst tr)) as [s3 rs3] eqn:E3. cbn [snd] in Hh.
    assert (r2 :: rs3 = RFailure :: map snd tr) as X.
    { clear - Hh Hl. revert Hh Hl. generalize (map snd H) as l. intros l. revert rs1. induction l as [|a l IH]; intros [|x rr1] E Hl; try discriminate; cbn in *; [exact E|]. injection E as _ E. injection Hl as Hl. eauto. }
    injection X as -> ->. apply failure_dead in E2.
    pose proof (dead_run cr s2 (map fst tr) E2) as Y. rewrite E3 in Y. cbn [snd] in Y.
    assert (Hm : map snd tr = repeat RFailure (length (map fst tr))) by (apply Y; clear - Hf; induction Hf; cbn; constructor; auto).
    clear - Hm. rewrite map_length in Hm. induction tr as [|e tr IH]; [constructor|]. cbn in Hm. injection Hm as H1 H2. constructor; auto.
  Qed.

  (** * Order *)
  Lemma params_counts t cr d c extra : init_params C t cr d = Ok (c, extra) ->
    c_input_count C c = td_num_inputs d /\ c_output_count C c = zlen (td_outputs d) /\ c_fee C c = td_fee d /\ c_rsig_grp C c = td_grouping d /\
    c_rsig_offload C c = (0 <? td_rsig_type d) && (2 <? zlen (td_outputs d)) /\ c_creds C c = cr /\ c_change C c = td_change d.
  Proof.
    unfold init_params. intros H. bnd H x Hx. destruct (classify_subaddresses _ _) as [[nstd nsub] single]. bnd H rp Hr. bnd H y Hy. destruct y as [pid ex].
    destruct (sec_keys C d pid _ _) as [kh ke]. apply Ok_inj in H. apply pair_inj in H. destruct H as [<- _]. cbn. auto 10.
  Qed.

  Lemma prefix_refl {A} (a b : list A) : prefix a (a ++ b).
  Proof. now exists b. Qed.
  Lemma prefix_cons {A} (x : A) a b : prefix a b -> prefix (x :: a) (x :: b).
  Proof. intros [c ->]. now exists c. Qed.
  Lemma prefix_app {A} (x a b : list A) : prefix a b -> prefix (x ++ a) (x ++ b).
  Proof. intros [c ->]. exists c. now rewrite app_assoc. Qed.
  Lemma prefix_nil {A} (a : list A) : prefix [] a.
  Proof. now exists a. Qed.
  Lemma prefix_repeat {A} (x : A) i n r : (i <= n)%nat -> prefix (repeat x i) (repeat x n ++ r).
  Proof. intros H. exists (repeat x (n - i) ++ r). rewrite app_assoc, <- repeat_app. do 2 f_equal. lia. Qed.

  Lemma session_order cr t0 d r0 tr : session C cr t0 d r0 tr ->
    order_ok (Z.to_nat (td_num_inputs d)) (length (td_outputs d)) (KInit :: kinds tr) /\
    (In KFinal (kinds tr) -> KInit :: kinds tr = protocol (Z.to_nat (td_num_inputs d)) (Z.to_nat (td_num_inputs d)) (length (td_outputs d))).
  Proof.
    intros H. apply session_sess in H. destruct H as (b & H). apply sess_phase in H. destruct H as (c & extra & Hp & Hc & He & Hph).
    apply params_counts in Hp. destruct Hp as (E1 & E2 & _). rewrite E1, E2 in Hph. unfold zlen in Hph. rewrite <- (Nat2Z.id (length (td_outputs d))).
    set (n := td_num_inputs d) in *. set (m := Z.of_nat (length (td_outputs d))) in *. clearbody n m. unfold phase in Hph. unfold order_ok, protocol.
    assert (NF : forall k j l, In KFinal (repeat KInput j ++ l) -> In KFinal l -> k = KFinal -> True) by auto. clear NF.
    assert (R : forall (x : kind) q, x <> KFinal -> ~ In KFinal (repeat x q)) by (intros x q Hx Hi; apply repeat_spec in Hi; now apply Hx).
    assert (nofin : forall l, (forall x, In x l -> x <> KFinal) -> ~ In KFinal l) by (intros l Hl Hi; now apply (Hl _ Hi)).
    destruct (b_state C b); try contradiction;
      repeat match goal with H : exists _, _ |- _ => destruct H as [? H] | H : _ /\ _ |- _ => destruct H end;
      match goal with H : kinds tr = _ |- _ => rewrite H end; rewrite <- ?app_assoc; cbn [app].
    - split; [|intros []]. right. apply prefix_cons, prefix_nil.
    - split; [|intros X; exfalso; revert X; now apply R]. right. apply prefix_cons, prefix_repeat. lia.
    - split; [|intros X; exfalso; revert X; now apply R]. right. apply prefix_cons, prefix_repeat. lia.
    - split; [right; apply prefix_cons, prefix_app, prefix_cons, prefix_nil|]. intros X. exfalso. revert X. rewrite in_app_iff. intros [X|[X|[]]]; [|discriminate]. revert X. now apply R.
    - split; [left; eexists; apply prefix_cons, prefix_app, prefix_cons, prefix_refl|]. intros X. exfalso. revert X. rewrite in_app_iff. intros [X|[X|X]]; [|discriminate|]; revert X; now apply R.
    - split; [left; eexists; apply prefix_cons, prefix_app, prefix_cons; exists []; now rewrite app_nil_r|].
      intros X. exfalso. revert X. rewrite in_app_iff. intros [X|[X|X]]; [|discriminate|]; revert X; [now apply R|]. rewrite in_app_iff. intros [X|[X|[]]]; [|discriminate]. revert X. now apply R.
    - split; [right; apply prefix_cons, prefix_app, prefix_cons, prefix_app, prefix_cons, prefix_repeat; lia|].
      intros X. exfalso. revert X. rewrite !in_app_iff. cbn [In]. rewrite !in_app_iff. cbn [In]. intros [X|[X|[X|[X|X]]]]; try discriminate; revert X; now apply R.
    - split; [right; apply prefix_cons, prefix_app, prefix_cons, prefix_app, prefix_cons, prefix_app, prefix_cons, prefix_nil|].
      intros X. exfalso. revert X. rewrite !in_app_iff. cbn [In]. rewrite !in_app_iff. cbn [In]. rewrite !in_app_iff. cbn [In]. intros [X|[X|[X|[X|[X|[X|[]]]]]]]; try discriminate; revert X; now apply R.
    - split; [right; apply prefix_cons, prefix_app, prefix_cons, prefix_app, prefix_cons, prefix_app, prefix_cons, prefix_repeat; lia|].
      intros X. exfalso. revert X. rewrite !in_app_iff. cbn [In]. rewrite !in_app_iff. cbn [In]. rewrite !in_app_iff. cbn [In]. intros [X|[X|[X|[X|[X|[X|X]]]]]]; try discriminate; revert X; now apply R.
    - split; [right; apply prefix_cons, prefix_app, prefix_cons, prefix_app, prefix_cons, prefix_app, prefix_cons, prefix_refl|].
      intros X. exfalso. revert X. rewrite !in_app_iff. cbn [In]. rewrite !in_app_iff. cbn [In]. rewrite !in_app_iff. cbn [In]. intros [X|[X|[X|[X|[X|[X|X]]]]]]; try discriminate; revert X; now apply R.
    - split; [right; exists []; now rewrite app_nil_r|]. reflexivity.
  Qed.

  (** * A session cut at one of its messages *)
  Lemma sess_split cr t0 d r0 tr1 t m r tr2 b : sess cr t0 d r0 (tr1 ++ (t, m, r) :: tr2) b ->
    exists b1 b2, sess cr t0 d r0 tr1 b1 /\ ~ is_init m /\ sign C t m b1 = Ok (b2, Some r) /\ step (b_cfg C b1) b1 t m r b2.
  Proof.
    remember (tr1 ++ (t, m, r) :: tr2) as tr eqn:E. intros H. revert tr1 tr2 E. induction H as [b H|tr b t' m' r' b' H IH Hm Hs]; intros tr1 tr2 E.
    - now destruct tr1.
    - destruct tr2 as [|e tr2 _] using rev_ind.
      + apply app_inj_tail in E. destruct E as [<- E]. injection E as <- <- <-. exists b, b'. split; [exact H|]. split; [exact Hm|]. split; [exact Hs|]. now apply sign_step.
      + rewrite app_comm_cons, app_assoc in E. apply app_inj_tail in E. destruct E as [E _]. eauto.
  Qed.
  Lemma in_allouts x tr : In x (allouts tr) -> exists tr1 t ex ph fee ty fm tr2,
    x = (ex, ph, fee, ty, fm) /\ tr = tr1 ++ (t, MAllOut, RAllOut ex ph fee ty fm) :: tr2.
  Proof.
    unfold allouts. rewrite in_flat_map. intros (e & He & Hx). apply in_split in He. destruct He as (tr1 & tr2 & ->).
    destruct e as [[t m] r]. destruct m; try contradiction. destruct r; try contradiction. cbn in Hx. destruct Hx as [<-|[]].
    repeat eexists.
  Qed.
  Lemma nil_of_len {A} (a b : list A) : length a = length (a ++ b) -> b = [].
  Proof. rewrite app_length. intros. apply length_zero_iff_nil. lia. Qed.

  (** at the all-outputs-set message everything but the signatures is complete *)
  Lemma allout_cut cr t0 d r0 tr1 t r tr2 b : sess cr t0 d r0 (tr1 ++ (t, MAllOut, r) :: tr2) b ->
    exists b1 b2 c extra, init_params C t0 cr d = Ok (c, extra) /\ sess cr t0 d r0 tr1 b1 /\ b_cfg C b1 = c /\ b_extra C b1 = extra /\ b_state C b1 = OUTPUT /\
      step c b1 t MAllOut r b2 /\ inputs tr2 = [] /\ outputs tr2 = [] /\ vinis tr2 = [] /\ perms tr2 = [] /\ allouts tr2 = [] /\ allouts tr1 = [] /\ signs tr1 = [] /\
      length (inputs tr1) = Z.to_nat (c_input_count C c) /\ length (vinis tr1) = Z.to_nat (c_input_count C c) /\ length (outputs tr1) = Z.to_nat (c_output_count C c) /\
      perms tr1 = [b_perm C b] /\ 0 < c_input_count C c.
  Proof.
    intros H. destruct (sess_split _ _ _ _ _ _ _ _ _ _ H) as (b1 & b2 & H1 & _ & _ & Hst).
    pose proof (sess_phase _ _ _ _ _ _ H1) as (c & extra & Hp & Hc & He & Hph1).
    pose proof (sess_phase _ _ _ _ _ _ H) as (c' & extra' & Hp' & Hc' & _ & Hph).
    rewrite Hp in Hp'. apply Ok_inj in Hp'. apply pair_inj in Hp'. destruct Hp' as [<- <-]. rewrite Hc in Hst.
    exists b1, b2, c, extra. split; [exact Hp|]. split; [exact H1|]. split; [exact Hc|]. split; [exact He|].
    assert (Es : b_state C b1 = OUTPUT /\ b_out_idx C b1 + 1 = c_output_count C c /\ exists ex ph fee ty fm, r = RAllOut ex ph fee ty fm) by (inversion Hst; subst; repeat split; eauto 8).
    destruct Es as (Es & Eo & ex & ph & fee & ty & fm & ->). split; [exact Es|]. split; [exact Hst|].
    unfold phase, lens in Hph1. rewrite Es in Hph1. destruct Hph1 as (j & Hn & Hj & Hjm & Hk & Hi & Ho & (L1 & L2 & L3 & L4) & Hpm & Hal).
    unfold phase, lens in Hph. rewrite inputs_app, vinis_app, outputs_app, signs_app, perms_app, allouts_app in Hph.
    cbn [inputs vinis outputs signs perms allouts flat_map app] in Hph. fold inputs vinis outputs signs perms allouts in Hph.
    fold (inputs tr2) (vinis tr2) (outputs tr2) (signs tr2) (perms tr2) (allouts tr2) in Hph. rewrite Hal, Hpm in Hph. cbn [app length] in Hph.
    destruct (b_state C b); try contradiction;
      repeat match goal with H : exists _, _ |- _ => destruct H as [? H] | H : _ /\ _ |- _ => destruct H end; try discriminate;
      repeat match goal with H : length (?x ++ ?y) = _ |- _ => rewrite app_length in H end;
      (split; [apply length_zero_iff_nil; lia|]); (split; [apply length_zero_iff_nil; lia|]); (split; [apply length_zero_iff_nil; lia|]);
      match goal with H : _ :: perms tr2 = [_] |- _ => injection H as HA HB end; (split; [exact HB|]);
      (split; [apply length_zero_iff_nil; lia|]); (split; [exact Hal|]); (split; [apply length_zero_iff_nil; lia|]); repeat (split; [lia|]); (split; [rewrite Hpm, HA; reflexivity|lia]).
  Qed.

  Lemma signs_need_allout (cr : creds C) t0 d r0 tr b : sess cr t0 d r0 tr b -> signs tr <> [] -> allouts tr <> [].
  Proof.
    intros H Hs. apply sess_phase in H. destruct H as (c & extra & _ & _ & _ & Hph). unfold phase, lens in Hph.
    destruct (b_state C b); try contradiction;
      repeat match goal with H : exists _, _ |- _ => destruct H as [? H] | H : _ /\ _ |- _ => destruct H end;
      try (exfalso; apply Hs; apply length_zero_iff_nil; assumption); intros E; rewrite E in *; discriminate.
  Qed.

  (** * Amounts *)
  Lemma session_balance cr t0 d r0 tr ex ph fee ty fm : session C cr t0 d r0 tr -> In (ex, ph, fee, ty, fm) (allouts tr) ->
    zsum (in_amounts tr) = zsum (out_amounts tr) + fee /\ fee = td_fee d /\ 0 <= fee /\
    Z.of_nat (length (inputs tr)) = td_num_inputs d /\ length (outputs tr) = length (td_outputs d).
  Proof.
    intros H Hin. apply session_sess in H. destruct H as (b & H). apply in_allouts in Hin. destruct Hin as (tr1 & t & ex' & ph' & fee' & ty' & fm' & tr2 & E & ->).
    injection E as <- <- <- <- <-.
    destruct (allout_cut _ _ _ _ _ _ _ _ _ H) as (b1 & b2 & c & extra & Hp & H1 & Hc & He & Hs & Hst & N1 & N2 & N3 & N4 & N5 & N6 & N7 & L1 & L2 & L3 & _ & Hn).
    destruct (params_counts _ _ _ _ _ Hp) as (P1 & P2 & P3 & _).
    pose proof (sess_in _ _ _ _ _ _ H1) as (c1 & e1 & Hp1 & _ & _ & _ & (_ & Hsi & _)).
    pose proof (sess_out _ _ _ _ _ _ H1) as (c2 & e2 & Hp2 & _ & _ & _ & (mks & B & (_ & Hso & _) & _)).
    unfold in_amounts, out_amounts in *. hist. fold (inputs tr2) (outputs tr2).
    rewrite N1, N2, !app_nil_r. inversion Hst; subst.
    match goal with H : c_fee C _ = _ |- _ => rename H into Hf end. match goal with H : b_sum_out C b1 <= _ |- _ => rename H into Hle end.
    rewrite <- Hsi, <- Hso, L1, L3, P1, P2. unfold get_fee. rewrite Hf, <- P3, Hf. unfold zlen.
    destruct (0 <? b_sum_in C b1 - b_sum_out C b1) eqn:E; repeat split; lia.
  Qed.

  (** * Destinations *)
  Lemma dst_fits u e : dst_ok e -> message_fits u dst_schema (dst_message e).
  Proof.
    intros (H1 & H2 & H3 & H4). constructor.
    - split; [|repeat constructor; cbn; lia]. repeat (constructor; [cbn; intuition lia|]). constructor.
    - unfold dst_message, dst_schema. repeat (apply Forall2_cons; [cbn [fst snd]; split; [intros _|]|]); try apply Forall2_nil; try (cbn; lia); try (repeat constructor; assumption).
      + constructor; [|constructor]. constructor.
        * split; [|repeat constructor; cbn; lia]. repeat (constructor; [cbn; intuition lia|]). constructor.
        * repeat (apply Forall2_cons; [cbn [fst snd]; split; [intros _; cbn; lia|repeat constructor; assumption]|]). apply Forall2_nil.
      + destruct (de_is_subaddress e); cbn; lia.
      + destruct (de_is_subaddress e); cbn; repeat constructor.
      + destruct (de_original e); cbn; lia.
      + destruct (de_original e); cbn; repeat constructor. assumption.
      + destruct (de_is_integrated e); cbn; lia.
      + destruct (de_is_integrated e); cbn; repeat constructor.
  Qed.
  Lemma opt_inj {A} (f : A -> value) (a b : option A) : (forall x y, f x = f y -> x = y) -> opt f a = opt f b -> a = b.
  Proof. intros Hf. destruct a, b; cbn; intros E; try discriminate; [|reflexivity]. injection E as E. f_equal. auto. Qed.
  Lemma dst_message_inj e e' : dst_message e = dst_message e' -> e = e'.
  Proof.
    unfold dst_message. intros E. injection E as E1 E2 E3 E4 E5 E6. destruct e as [a [s v] su og it], e' as [a' [s' v'] su' og' it'].
    cbn [de_amount de_addr spend_public_key view_public_key de_is_subaddress de_original de_is_integrated] in *.
    apply (opt_inj VBool) in E4; [|congruence]. apply (opt_inj VBytes) in E5; [|congruence]. apply (opt_inj VBool) in E6; [|congruence]. congruence.
  Qed.
  Lemma dump_dst_inj e e' x : dst_ok e -> dst_ok e' -> dump_dst e = Ok x -> dump_dst e' = Ok x -> e = e'.
  Proof.
    intros H H' E E'. destruct (message_round_trip (fun _ => true) _ _ (dst_fits (fun _ => true) _ H)) as (b1 & D1 & L1). destruct (message_round_trip (fun _ => true) _ _ (dst_fits (fun _ => true) _ H')) as (b2 & D2 & L2).
    unfold dump_dst in *. assert (b1 = b2) as -> by congruence. apply dst_message_inj. congruence.
  Qed.
  Lemma derivation_secret c e add b der : b_cfg C b = c -> s6_derivation C e add b = Ok der -> shared_secret C c e der.
  Proof.
    intros <- H. unfold s6_derivation in H. unfold shared_secret. destruct (change_address C (b_cfg C b)) as [ch|] eqn:Ech.
    - destruct (addr_eqb (de_addr e) ch) eqn:Ea.
      + apply addr_eqb_spec in Ea. apply Ok_inj in H. left. split; congruence.
      + right. split; [intros X; injection X as ->; rewrite (proj2 (addr_eqb_spec _ _) eq_refl) in Ea; discriminate|].
        bnd H k Hk. bnd H A HA. apply Ok_inj in H. exists A, k. split; [exact HA|]. split; [now symmetry|].
        destruct (truthy (de_is_subaddress e) && c_need_additional C (b_cfg C b)) eqn:Et; [right|left; symmetry; exact (Ok_inj _ _ Hk)].
        apply andb_prop in Et. destruct (de_is_subaddress e) as [[]|]; cbn in Et; intuition congruence.
    - right. split; [discriminate|]. bnd H k Hk. bnd H A HA. apply Ok_inj in H. exists A, k. split; [exact HA|]. split; [now symmetry|].
      destruct (truthy (de_is_subaddress e) && c_need_additional C (b_cfg C b)) eqn:Et; [right|left; symmetry; exact (Ok_inj _ _ Hk)].
      apply andb_prop in Et. destruct (de_is_subaddress e) as [[]|]; cbn in Et; intuition congruence.
  Qed.
  Lemma tag_of_inv key disc i m tag : tag_of C key disc i m = Ok tag -> exists k, build_key C key disc (Some i) = Ok k /\ tag = hmac C k m.
  Proof. unfold tag_of. intros H. bnd H k Hk. apply Ok_inj in H. eauto. Qed.

  Lemma session_dest cr t0 d r0 tr i o : session C cr t0 d r0 tr -> Forall dst_ok (td_outputs d) -> dst_ok (oa_dst o) ->
    nth_error (outputs tr) i = Some o ->
    exists c extra e, init_params C t0 cr d = Ok (c, extra) /\ nth_error (td_outputs d) i = Some e /\
      ((oa_dst o = e /\ pays C c (Z.of_nat i) e o) \/ forgery C c d tr).
  Proof.
    intros H Hok Hoo Ho. apply session_sess in H. destruct H as (b & H).
    pose proof (sess_out _ _ _ _ _ _ H) as (c & extra & Hp & Hc & He & Hph & (mks & B & ((Hl & Hat) & _) & _)).
    destruct (params_counts _ _ _ _ _ Hp) as (P1 & P2 & _).
    assert (Hi : (i < length (outputs tr))%nat) by (apply nth_error_Some; congruence).
    assert (Hlen : (length (outputs tr) <= length (td_outputs d))%nat).
    { unfold phase, lens in Hph. rewrite P2 in Hph. unfold zlen in Hph. destruct (b_state C b); try contradiction;
      repeat match goal with H : exists _, _ |- _ => destruct H as [? H] | H : _ /\ _ |- _ => destruct H end; lia. }
    destruct (nth_error (td_outputs d) i) as [e|] eqn:Ee; [|apply nth_error_None in Ee; lia].
    destruct (nth_error mks i) as [mask|] eqn:Em; [|apply nth_error_None in Em; lia].
    exists c, extra, e. split; [exact Hp|]. split; [reflexivity|].
    destruct (Hat _ _ _ Ho Em) as (add & der & Bp & akey & lm & b1 & Hb1 & Ha & Ht & Hd & HB & -> & Hm & O1 & O2 & O3).
    unfold gen_hmac_tsxdest in Ht. bnd Ht x Hx. apply tag_of_inv in Ht. destruct Ht as (k & Hk & Htag).
    assert (Hoe : dst_ok e) by (eapply Forall_forall; [exact Hok|]; eapply nth_error_In; exact Ee).
    destruct (message_round_trip (fun _ => true) _ _ (dst_fits (fun _ => true) _ Hoe)) as (y & Hy & _).
    destruct (list_eq_dec Z.eq_dec x y) as [->|Hne].
    - left. assert (oa_dst o = e) as <- by (eapply dump_dst_inj; eassumption). split; [reflexivity|]. exists der, Bp, mask.
      split; [eapply derivation_secret; eassumption|]. auto.
    - right. destruct (list_eq_dec Z.eq_dec (cn_hash C x) (cn_hash C y)) as [Eh|Eh].
      + eapply (collision C c d tr x y Hne Eh). left. exists i, o, e. auto.
      + eapply (forged_destination C c d tr i o e x y); eauto. exists k. auto.
  Qed.
End Props.
