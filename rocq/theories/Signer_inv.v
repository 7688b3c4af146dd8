(** Invariants of a session: phase and counters. *)
From Verif Require Import Py PyLemmas Addr_model Lists_model Lists_spec Signer_model Signer_spec Signer_base.

Lemma kinds_app a b : kinds (a ++ b) = kinds a ++ kinds b.
Proof. apply flat_map_app. Qed.
Lemma inputs_app a b : inputs (a ++ b) = inputs a ++ inputs b.
Proof. apply flat_map_app. Qed.
Lemma perms_app a b : perms (a ++ b) = perms a ++ perms b.
Proof. apply flat_map_app. Qed.
Lemma vinis_app a b : vinis (a ++ b) = vinis a ++ vinis b.
Proof. apply flat_map_app. Qed.
Lemma outputs_app a b : outputs (a ++ b) = outputs a ++ outputs b.
Proof. apply flat_map_app. Qed.
Lemma signs_app a b : signs (a ++ b) = signs a ++ signs b.
Proof. apply flat_map_app. Qed.
Lemma allouts_app a b : allouts (a ++ b) = allouts a ++ allouts b.
Proof. apply flat_map_app. Qed.
Lemma repeat_snoc {A} (x : A) n : repeat x n ++ [x] = repeat x (S n).
Proof. induction n; cbn; [reflexivity|]. now rewrite IHn. Qed.

Section Inv.
  Context {C : ops}.

  Lemma range_proof_frame t rsig mask b b' out mo : s6_range_proof C t rsig mask b = Ok (b', out, mo) ->
    exists am ms fu, b' = set_amounts C am (set_masks C ms (set_full C fu b)).
  Proof.
    intros H. apply s6_range_proof_inv in H. destruct H as (bidx & lst & _ & _ & [(_ & _ & ->)|(am & ms & p & h & h' & _ & _ & _ & _ & _ & _ & _ & E)]).
    - exists (b_amounts C b), (b_masks C b), (b_full C b). now destruct b.
    - cbv zeta in E. eexists _, _, _. exact E.
  Qed.

  (** the nine messages at once: [step] holds of every step of a session *)
  Definition lens (tr : list event) (ni nv no ns : nat) : Prop :=
    length (inputs tr) = ni /\ length (vinis tr) = nv /\ length (outputs tr) = no /\ length (signs tr) = ns.

  (** [n] inputs, [m] outputs; the history since init *)
  Definition phase (n m : Z) (tr : list event) (b : builder C) : Prop :=
    let N := Z.to_nat n in let M := Z.to_nat m in
    let ks1 := repeat KInput N ++ [KPerm] in
    let ks2 k := ks1 ++ repeat KVini k ++ [KAllIn] in
    let ks3 := ks2 N ++ repeat KOutput M ++ [KAllOut] in
    let ks := kinds tr in let inp := b_inp_idx C b in let out := b_out_idx C b in
    match b_state C b with
    | INP_CNT => ks = [] /\ inp = -1 /\ out = -1 /\ lens tr 0 0 0 0 /\ perms tr = [] /\ allouts tr = []
    | INPUT => exists i, (0 < i)%nat /\ Z.of_nat i < n /\ ks = repeat KInput i /\ inp + 1 = Z.of_nat i /\ out = -1 /\ lens tr i 0 0 0 /\
        perms tr = [] /\ allouts tr = []
    | INPUT_DONE => 0 < n /\ ks = repeat KInput N /\ inp + 1 = n /\ out = -1 /\ lens tr N 0 0 0 /\ perms tr = [] /\ allouts tr = []
    | INPUT_PERM => 0 < n /\ ks = ks1 /\ inp = -1 /\ out = -1 /\ lens tr N 0 0 0 /\ perms tr = [b_perm C b] /\ allouts tr = []
    | INPUT_VINS => exists k, 0 < n /\ (0 < k)%nat /\ ks = ks1 ++ repeat KVini k /\ inp + 1 = Z.of_nat k /\ out = -1 /\ lens tr N k 0 0 /\
        perms tr = [b_perm C b] /\ allouts tr = []
    | INPUT_ALL_DONE => exists k, 0 < n /\ ks = ks2 k /\ inp + 1 = Z.of_nat k /\ out = -1 /\ lens tr N k 0 0 /\ perms tr = [b_perm C b] /\ allouts tr = []
    | OUTPUT => exists j, 0 < n /\ (0 < j)%nat /\ Z.of_nat j <= m /\ ks = ks2 N ++ repeat KOutput j /\ inp + 1 = n /\ out + 1 = Z.of_nat j /\
        lens tr N N j 0 /\ perms tr = [b_perm C b] /\ allouts tr = []
    | FINAL_MESSAGE => 0 < n /\ ks = ks3 /\ inp = -1 /\ out = -1 /\ lens tr N N M 0 /\ perms tr = [b_perm C b] /\ length (allouts tr) = 1%nat
    | SIGNATURE => exists s, 0 < n /\ (0 < s)%nat /\ Z.of_nat s < n /\ ks = ks3 ++ repeat KSign s /\ inp + 1 = Z.of_nat s /\ out = -1 /\ lens tr N N M s /\
        perms tr = [b_perm C b] /\ length (allouts tr) = 1%nat
    | SIGNATURE_DONE => 0 < n /\ ks = ks3 ++ repeat KSign N /\ inp + 1 = n /\ out = -1 /\ lens tr N N M N /\ perms tr = [b_perm C b] /\ length (allouts tr) = 1%nat
    | FINAL => 0 < n /\ ks = ks3 ++ repeat KSign N ++ [KFinal] /\ inp + 1 = n /\ out = -1 /\ lens tr N N M N /\ perms tr = [b_perm C b] /\ length (allouts tr) = 1%nat
    | _ => False
    end.
  (** what a step adds to the history *)
  Ltac hist := rewrite ?kinds_app, ?inputs_app, ?vinis_app, ?outputs_app, ?signs_app, ?perms_app, ?allouts_app;
    cbn [kinds inputs perms vinis outputs signs allouts flat_map kind_of fst snd app].
  Lemma lens_add tr e ni nv no ns di dv do ds :
    lens tr ni nv no ns -> length (inputs [e]) = di -> length (vinis [e]) = dv -> length (outputs [e]) = do -> length (signs [e]) = ds ->
    lens (tr ++ [e]) (di + ni) (dv + nv) (do + no) (ds + ns).
  Proof. intros (H1 & H2 & H3 & H4) E1 E2 E3 E4. unfold lens. rewrite inputs_app, vinis_app, outputs_app, signs_app, !app_length. lia. Qed.

  Lemma sess_phase cr t0 d r0 tr b : sess cr t0 d r0 tr b ->
    exists c extra, init_params C t0 cr d = Ok (c, extra) /\ b_cfg C b = c /\ b_extra C b = extra /\
      phase (c_input_count C c) (c_output_count C c) tr b.
  Proof.
    induction 1 as [b H|tr b t m r b' Hs IH Hm Hstep].
    - apply init_inv in H. destruct H as (c&extra&v&u&n&rv&h&h'&tags&sb&_&Hp&_&_&_&_&_&_&_&_&E).
      exists c, extra. split; [exact Hp|]. subst b. split; [reflexivity|]. split; [reflexivity|]. cbn. repeat split.
    - destruct IH as (c & extra & Hp & Hc & He & Hph). exists c, extra. split; [exact Hp|]. clear Hs Hp.
      set (n := c_input_count C c) in *. set (m' := c_output_count C c) in *.
      destruct m; cbn [is_init] in Hm; try (now exfalso; apply Hm); cbn [sign] in Hstep; bnd Hstep x Hx; destruct x as [b1 r1];
        apply Ok_inj in Hstep; apply pair_inj in Hstep; destruct Hstep as [-> Hr]; apply Some_inj in Hr; subst r1.
      + (* set_input *)
        apply set_input_inv in Hx. cbv zeta in Hx. rewrite Hc in Hx. fold n in Hx.
        destruct Hx as (?&?&?&?&?&?&?&?&?&?&?&?&?&Hst&Hi&?&?&?&?&?&?&?&?&?&?&?&?&Hr&E).
        assert (Hb : b_cfg C b' = c /\ b_extra C b' = extra) by (rewrite E; destruct (b_inp_idx C b + 1 + 1 =? n); split; [exact Hc|exact He|exact Hc|exact He]).
        split; [exact (proj1 Hb)|]. split; [exact (proj2 Hb)|].
        assert (exists i, b_inp_idx C b + 1 = Z.of_nat i /\ kinds tr = repeat KInput i /\ b_out_idx C b = -1 /\ lens tr i 0 0 0 /\ perms tr = [] /\ allouts tr = []) as (i & Ei & Ek & Eo & El & Ep & Ea).
        { unfold phase in Hph. destruct Hst as [Hst|Hst]; rewrite Hst in Hph.
          - destruct Hph as (P1 & P2 & P3 & P4 & P5 & P6). exists 0%nat. split; [lia|]. auto.
          - destruct Hph as (i & P1 & P2 & P3 & P4 & P5 & P6 & P7 & P8). exists i. auto 10. }
        assert (El' : lens (tr ++ [(t, MSetInput src, r)]) (S i) 0 0 0).
        { apply (lens_add tr _ i 0 0 0 1 0 0 0); subst r; try reflexivity. exact El. }
        destruct (b_inp_idx C b + 1 + 1 =? n) eqn:En.
        * apply Z.eqb_eq in En. rewrite E. unfold phase. bsr. hist. rewrite Ek, Ep, Ea. subst r. cbn [kind_of app].
          rewrite repeat_snoc. replace (Z.to_nat n) with (S i) by lia.
          split; [lia|]. split; [reflexivity|]. split; [lia|]. split; [assumption|]. split; [exact El'|]. auto.
        * apply Z.eqb_neq in En. rewrite E. unfold phase. bsr. hist. rewrite Ek, Ep, Ea. subst r. cbn [kind_of app]. exists (S i).
          rewrite repeat_snoc. split; [lia|]. split; [lia|]. split; [reflexivity|]. split; [lia|]. split; [assumption|]. split; [exact El'|]. auto.
      + (* permutation *)
        apply inputs_permutation_inv in Hx. destruct Hx as (Hst & Hr & E). split; [subst b'; exact Hc|]. split; [subst b'; exact He|].
        unfold phase in Hph. rewrite Hst in Hph. destruct Hph as (Hn & Ek & Ei & Eo & El & Ep & Ea).
        rewrite E. unfold phase. bsr. hist. rewrite Ek, Ep, Ea. subst r. cbn [kind_of app].
        split; [assumption|]. split; [reflexivity|]. split; [reflexivity|]. split; [assumption|].
        split; [apply (lens_add tr _ _ 0 0 0 0 0 0 0); try reflexivity; exact El|]. auto.
      + (* vini *)
        apply input_vini_inv in Hx. cbv zeta in Hx. rewrite Hc in Hx. fold n in Hx. destruct Hx as (idx & p & Hi & Hst & _ & _ & _ & _ & Hr & E).
        split; [subst b'; exact Hc|]. split; [subst b'; exact He|].
        assert (exists k, 0 < n /\ kinds tr = (repeat KInput (Z.to_nat n) ++ [KPerm]) ++ repeat KVini k /\ b_inp_idx C b + 1 = Z.of_nat k /\ b_out_idx C b = -1 /\
          lens tr (Z.to_nat n) k 0 0 /\ perms tr = [b_perm C b] /\ allouts tr = []) as (k & Hn & Ek & Ei & Eo & El & Ep & Ea).
        { unfold phase in Hph. destruct Hst as [Hst|Hst]; rewrite Hst in Hph.
          - destruct Hph as (? & ? & ? & ? & ? & ? & ?). exists 0%nat. split; [assumption|]. split; [cbn [repeat]; now rewrite app_nil_r|]. split; [lia|]. auto.
          - destruct Hph as (k & ? & ? & ? & ? & ? & ? & ? & ?). exists k. auto 10. }
        rewrite E. unfold phase. bsr. hist. rewrite Ek, Ep, Ea. subst r. cbn [kind_of app]. exists (S k).
        split; [assumption|]. split; [lia|]. split; [now rewrite <- app_assoc, repeat_snoc|]. split; [lia|]. split; [assumption|].
        split; [apply (lens_add tr _ _ k 0 0 0 1 0 0); try reflexivity; exact El|]. auto.
      + (* all in *)
        apply all_in_set_inv in Hx. destruct Hx as (o & lm & Hst & Hr & E & _ & _). split; [rewrite E; exact Hc|]. split; [rewrite E; exact He|].
        unfold phase in Hph. rewrite Hst in Hph. destruct Hph as (k & Hn & Hk & Ek & Ei & Eo & El & Ep & Ea).
        rewrite E. unfold phase. bsr. hist. rewrite Ek, Ep, Ea. subst r. cbn [kind_of app]. exists k.
        split; [assumption|]. split; [now rewrite !app_assoc|]. split; [assumption|]. split; [assumption|].
        split; [apply (lens_add tr _ _ _ 0 0 0 0 0 0); try reflexivity; exact El|]. auto.
      + (* output *)
        apply set_output_inv in Hx. cbv zeta in Hx. rewrite Hc in Hx. fold n m' in Hx. destruct Hx as (Hinp & [(Hr & _ & _ & _ & mo & out & b1 & Hrp & E)|Hx]).
        * subst b1. apply range_proof_frame in Hrp. destruct Hrp as (am & ms & fu & E). split; [rewrite E; exact Hc|]. split; [rewrite E; exact He|].
          assert (Hl : forall q1 q2 q3 q4, lens tr q1 q2 q3 q4 -> lens (tr ++ [(t, MSetOutput dst tag rsig offloaded_bp, r)]) q1 q2 q3 q4).
          { intros. apply (lens_add tr _ q1 q2 q3 q4 0 0 0 0); subst r; try reflexivity; try assumption. destruct dst; reflexivity. }
          assert (Hpm : perms (tr ++ [(t, MSetOutput dst tag rsig offloaded_bp, r)]) = perms tr) by (rewrite perms_app; cbn; apply app_nil_r).
          assert (Hao : allouts (tr ++ [(t, MSetOutput dst tag rsig offloaded_bp, r)]) = allouts tr) by (rewrite allouts_app; cbn; apply app_nil_r).
          assert (Hki : kinds (tr ++ [(t, MSetOutput dst tag rsig offloaded_bp, r)]) = kinds tr) by (rewrite kinds_app; subst r; cbn; apply app_nil_r).
          rewrite E. unfold phase in *. bsr. rewrite Hpm, Hao, Hki. clear E Hpm Hao Hki.
          destruct (b_state C b); try exact Hph; repeat match goal with H : exists _, _ |- _ => destruct H as [? H] | H : _ /\ _ |- _ => destruct H end; repeat match goal with H : lens tr _ _ _ _ |- _ => apply Hl in H end; eauto 15.
        * destruct Hx as (e&nn&am0&p1&b2&key&akey&mask&b3&ro&mo&p3&vt&h4&h5&Hd&Ho&Hst&Ha&Hi&Ht&_&Ham&_&Htk&Hrp&_&_&_&_&Hr&E).
          apply s6_tx_keys_inv in Htk. destruct Htk as (ap&aq&lm&mks&add&der&B&_&_&_&_&_&_&_&_&E2). apply range_proof_frame in Hrp. destruct Hrp as (am & ms & fu & E3).
          rewrite E2 in E3. clear E2. rewrite E3 in E. clear E3.
          split; [rewrite E; exact Hc|]. split; [rewrite E; exact He|].
          assert (exists j, 0 < n /\ Z.of_nat j < m' /\ kinds tr = ((repeat KInput (Z.to_nat n) ++ [KPerm]) ++ repeat KVini (Z.to_nat n) ++ [KAllIn]) ++ repeat KOutput j /\ b_out_idx C b + 1 = Z.of_nat j /\
            lens tr (Z.to_nat n) (Z.to_nat n) j 0 /\ perms tr = [b_perm C b] /\ allouts tr = []) as (j & Hn & Hj & Ek & Eo & El & Ep & Ea).
          { unfold phase in Hph. destruct Hst as [Hst|Hst]; rewrite Hst in Hph.
            - destruct Hph as (k & ? & ? & ? & ? & ? & ? & ?). exists 0%nat. assert (k = Z.to_nat n) by lia. subst k.
              split; [assumption|]. split; [lia|]. split; [cbn [repeat]; now rewrite app_nil_r|]. split; [lia|]. auto.
            - destruct Hph as (j & ? & ? & ? & ? & ? & ? & ? & ? & ?). exists j. split; [assumption|]. split; [lia|]. auto 10. }
          rewrite E. unfold phase. bsr. hist. rewrite Ek, Ep, Ea. subst r. cbn [kind_of app]. exists (S j).
          split; [assumption|]. split; [lia|]. split; [lia|]. split; [now rewrite <- app_assoc, repeat_snoc|]. split; [assumption|]. split; [lia|].
          split; [subst dst; apply (lens_add tr _ _ _ j 0 0 0 1 0); try reflexivity; exact El|]. auto.
      + (* all out *)
        apply all_out_set_inv in Hx. cbv zeta in Hx. rewrite Hc in Hx. fold n m' in Hx. destruct Hx as (ex&nn&p&h&rv&Hst&Ho&_&_&_&_&_&_&_&_&Hr&h0&E).
        split; [rewrite E; exact Hc|]. split; [rewrite E; exact He|].
        unfold phase in Hph. rewrite Hst in Hph. destruct Hph as (j & Hn & Hj & Hj' & Ek & Ei & Eo & El & Ep & Ea).
        assert (j = Z.to_nat m') by lia. subst j. rewrite E. unfold phase. bsr. hist. rewrite Ek, Ep, Ea. subst r. cbn [kind_of app].
        split; [assumption|]. split; [now rewrite !app_assoc|]. split; [reflexivity|]. split; [reflexivity|].
        split; [apply (lens_add tr _ _ _ _ 0 0 0 0 0); try reflexivity; exact El|]. auto.
      + (* sign *)
        apply sign_input_inv in Hx. cbv zeta in Hx. rewrite Hc in Hx. fold n in Hx.
        destruct Hx as (act'&po'&?&?&?&?&?&?&?&?&?&?&?&?&sg&Hact&Hpo&Hst&Hi&?&?&?&?&?&?&?&?&?&?&?&?&?&?&Hr&E).
        assert (Hb : b_cfg C b' = c /\ b_extra C b' = extra) by (rewrite E; destruct (b_inp_idx C b + 1 + 1 =? n); split; [exact Hc|exact He|exact Hc|exact He]).
        split; [exact (proj1 Hb)|]. split; [exact (proj2 Hb)|].
        assert (exists s, 0 < n /\ kinds tr = (((repeat KInput (Z.to_nat n) ++ [KPerm]) ++ repeat KVini (Z.to_nat n) ++ [KAllIn]) ++ repeat KOutput (Z.to_nat m') ++ [KAllOut]) ++ repeat KSign s /\
           b_inp_idx C b + 1 = Z.of_nat s /\ b_out_idx C b = -1 /\ lens tr (Z.to_nat n) (Z.to_nat n) (Z.to_nat m') s /\ perms tr = [b_perm C b] /\ length (allouts tr) = 1%nat)
           as (s & Hn & Ek & Ei & Eo & El & Ep & Ea).
        { unfold phase in Hph. destruct Hst as [Hst|Hst]; rewrite Hst in Hph.
          - destruct Hph as (? & ? & ? & ? & ? & ? & ?). exists 0%nat. split; [assumption|]. split; [cbn [repeat]; now rewrite app_nil_r|]. split; [lia|]. auto.
          - destruct Hph as (s & ? & ? & ? & ? & ? & ? & ? & ? & ?). exists s. auto 10. }
        assert (El' : lens (tr ++ [(t, MSign src vini tag pseudo_out pseudo_tag alpha_ct spend_ct, r)]) (Z.to_nat n) (Z.to_nat n) (Z.to_nat m') (S s)).
        { apply (lens_add tr _ _ _ _ s 0 0 0 1); subst r alpha_ct pseudo_out; try reflexivity. exact El. }
        assert (Ea' : length (allouts (tr ++ [(t, MSign src vini tag pseudo_out pseudo_tag alpha_ct spend_ct, r)])) = 1%nat) by (rewrite allouts_app, app_length; cbn; lia).
        destruct (b_inp_idx C b + 1 + 1 =? n) eqn:En.
        * apply Z.eqb_eq in En. rewrite E. unfold phase. bsr. rewrite kinds_app, perms_app, Ek, Ep. subst r. cbn [kinds perms flat_map kind_of fst snd app].
          replace (repeat KSign (Z.to_nat n)) with (repeat KSign (S s)) by (f_equal; lia). replace (lens _ _ _ _ (Z.to_nat n)) with (lens (tr ++ [(t, MSign src vini tag pseudo_out pseudo_tag alpha_ct spend_ct, RSign sg (enc_pt C x4))]) (Z.to_nat n) (Z.to_nat n) (Z.to_nat m') (S s)) by (f_equal; lia).
          split; [assumption|]. split; [now rewrite <- app_assoc, repeat_snoc|]. split; [lia|]. split; [assumption|]. split; [exact El'|]. split; [reflexivity|]. exact Ea'.
        * apply Z.eqb_neq in En. rewrite E. unfold phase. bsr. rewrite kinds_app, perms_app, Ek, Ep. subst r. cbn [kinds perms flat_map kind_of fst snd app]. exists (S s).
          split; [assumption|]. split; [lia|]. split; [lia|]. split; [now rewrite <- app_assoc, repeat_snoc|]. split; [lia|]. split; [assumption|]. split; [exact El'|]. split; [reflexivity|]. exact Ea'.
      + (* final *)
        apply final_msg_inv in Hx. destruct Hx as (Hst & E & salt & rm & ks & Hr). split; [rewrite E; exact Hc|]. split; [rewrite E; exact He|].
        unfold phase in Hph. rewrite Hst in Hph. destruct Hph as (Hn & Ek & Ei & Eo & El & Ep & Ea).
        rewrite E. unfold phase. bsr. hist. rewrite Ek, Ep. subst r. cbn [kind_of app].
        split; [assumption|]. split; [now rewrite <- !app_assoc|]. split; [assumption|]. split; [assumption|].
        split; [apply (lens_add tr _ _ _ _ _ 0 0 0 0); try reflexivity; exact El|]. split; [reflexivity|]. now rewrite app_nil_r.
  Qed.
End Inv.
