(** The session properties derived from the invariants: inputs, commitments. *)
From Verif Require Import Py PyLemmas Addr_model Lists_model Lists_spec
  Signer_model Signer_spec Signer_base Signer_inv Signer_step Signer_inv2 Signer_inv3 Signer_props.
From Coq Require Import Permutation.

Lemma all_or {A} (P : nat -> A -> Prop) (F : Prop) (l : list A) :
  (forall k a, nth_error l k = Some a -> P k a \/ F) -> (forall k a, nth_error l k = Some a -> P k a) \/ F.
Proof.
  revert P. induction l as [|x l IH]; intros P H.
  - left. intros [|k] a E; discriminate.
  - destruct (H O x eq_refl) as [H0|HF]; [|now right]. destruct (IH (fun k => P (S k))) as [H1|HF]; [|left|now right].
    + intros k a E. exact (H (S k) a E).
    + intros [|k] a E; [injection E as <-; exact H0|auto].
Qed.
Lemma py_get_nat {A} (l : list A) k x : py_get l (Z.of_nat k) = Ok x <-> nth_error l k = Some x.
Proof.
  split; intros H.
  - apply py_get_inv in H; [|lia]. now rewrite Nat2Z.id in H.
  - apply py_get_nonneg; [lia|]. now rewrite Nat2Z.id.
Qed.

Section Props2.
  Context {C : ops}.

  Lemma key_index_nonneg fuel : forall buff off i x, key_index fuel buff off i = Ok x -> 0 <= i.
  Proof.
    induction fuel as [|fuel IH]; intros buff off i x H; [discriminate|]. cbn [key_index] in H. bnd H b1 H1.
    destruct (Z.shiftr i 7 =? 0) eqn:E; [|apply IH in H]; rewrite Z.shiftr_div_pow2 in * by lia; change (2 ^ 7) with 128 in *; lia.
  Qed.
  Lemma build_key_nonneg s disc i k : build_key C s disc (Some i) = Ok k -> 0 <= i.
  Proof. unfold build_key, key_buffer. intros H. bnd H b H1. bnd H1 b1 H2. bnd H1 b2 H3. eapply key_index_nonneg. exact H1. Qed.

  (** a presented input is one the device has tagged, or a primitive was broken *)
  Definition presented (tr : list event) := vinis tr ++ map (fun a => (sa_src a, sa_vini a, sa_tag a)) (signs tr).
  Lemma presented_ok c d tr s v tag idx : at_each (in_at c) (inputs tr) -> In (s, v, tag) (presented tr) ->
    gen_hmac_vini C c s v idx = Ok tag ->
    0 <= idx /\ ((exists a, nth_error (inputs tr) (Z.to_nat idx) = Some a /\ same_input s v a) \/ forgery C c d tr).
  Proof.
    intros Hat Hin Ht. unfold gen_hmac_vini in Ht. bnd Ht sb Hs. apply tag_of_inv in Ht. destruct Ht as (k & Hk & Etag).
    pose proof (build_key_nonneg _ _ _ _ Hk) as Hi. split; [exact Hi|].
    assert (Hx : in_payload s v (sb ++ v)) by (exists sb; auto).
    assert (Hv : valid_tag C c d_txin idx (cn_hash C (sb ++ v)) tag) by (exists k; auto).
    destruct (nth_error (inputs tr) (Z.to_nat idx)) as [a|] eqn:Ea.
    - pose proof (Hat _ _ Ea) as (?&?&?&?&?&?&?&?&?&?&_&_&_&_&_&_&_&Hg&_).
      unfold gen_hmac_vini in Hg. bnd Hg sa Hsa. assert (Hy : in_payload (ia_src a) (ia_vini a) (sa ++ ia_vini a)) by (exists sa; auto).
      destruct (list_eq_dec Z.eq_dec (sb ++ v) (sa ++ ia_vini a)) as [E|Hne].
      + left. exists a. split; [reflexivity|]. exists (sb ++ v). rewrite E in *. auto.
      + right. destruct (list_eq_dec Z.eq_dec (cn_hash C (sb ++ v)) (cn_hash C (sa ++ ia_vini a))) as [Eh|Eh].
        * apply (collision C c d tr _ _ Hne Eh). right. exists s, v, tag, a. split; [exact Hin|]. split; [eapply nth_error_In; exact Ea|]. auto.
        * eapply (forged_input C c d tr s v tag idx); eauto. intros a' y E' (b' & Hb' & ->). rewrite Ea in E'. injection E' as <-. rewrite Hsa in Hb'. injection Hb' as <-. exact Eh.
    - right. eapply (forged_input C c d tr s v tag idx); eauto. intros a y E. congruence.
  Qed.

  Lemma in_vinis_presented tr x : In x (vinis tr) -> In x (presented tr).
  Proof. intros. apply in_or_app. now left. Qed.
  Lemma in_signs_presented tr s : In s (signs tr) -> In (sa_src s, sa_vini s, sa_tag s) (presented tr).
  Proof. intros H. apply in_or_app. right. apply (in_map (fun a => (sa_src a, sa_vini a, sa_tag a))) in H. exact H. Qed.

  (** the permutation message as a rearrangement of the inputs *)
  Lemma perm_list {A} (l : list A) (p : list Z) : Permutation p (zrange (Z.of_nat (length l))) ->
    exists l', Permutation l' l /\ length l' = length l /\ forall j i, nth_error p j = Some i -> 0 <= i /\ nth_error l' j = nth_error l (Z.to_nat i).
  Proof.
    intros Hp. destruct l as [|x l0] eqn:El.
    - exists []. unfold zrange in Hp. cbn in Hp. apply Permutation_sym, Permutation_nil in Hp. subst p. split; [constructor|]. split; [reflexivity|]. intros [|j] i E; discriminate.
    - rewrite <- El in *. exists (map (fun i => nth (Z.to_nat i) l x) p).
      assert (Hr : map (fun i => nth (Z.to_nat i) l x) (zrange (Z.of_nat (length l))) = l).
      { unfold zrange. rewrite Nat2Z.id, map_map. transitivity (map (fun k => nth k l x) (seq 0 (length l))); [apply map_ext; intros; now rewrite Nat2Z.id|].
        clear. induction l as [|a l IH]; [reflexivity|]. cbn [length seq map nth]. f_equal. rewrite <- seq_shift, map_map. exact IH. }
      split; [|split].
      + apply (Permutation_trans (l' := map (fun i => nth (Z.to_nat i) l x) (zrange (Z.of_nat (length l))))); [now apply Permutation_map|]. rewrite Hr. apply Permutation_refl.
      + rewrite map_length. apply Permutation_length in Hp. rewrite Hp. unfold zrange. now rewrite map_length, seq_length, Nat2Z.id.
      + intros j i E. assert (In i (zrange (Z.of_nat (length l)))) as Hi by (eapply Permutation_in; [exact Hp|]; eapply nth_error_In; exact E).
        unfold zrange in Hi. rewrite in_map_iff in Hi. destruct Hi as (k & <- & Hk). rewrite in_seq in Hk. split; [lia|].
        rewrite (map_nth_error _ _ _ E). rewrite Nat2Z.id. symmetry. apply nth_error_nth'. lia.
  Qed.

  Lemma final_counts cr t0 d r0 tr b : sess (C := C) cr t0 d r0 tr b -> In KFinal (kinds tr) ->
    exists c extra, init_params C t0 cr d = Ok (c, extra) /\ b_cfg C b = c /\ b_state C b = FINAL /\
      let N := Z.to_nat (c_input_count C c) in length (inputs tr) = N /\ length (vinis tr) = N /\ length (signs tr) = N /\ length (outputs tr) = length (td_outputs d) /\
      perms tr = [b_perm C b] /\ length (allouts tr) = 1%nat.
  Proof.
    intros H Hf. pose proof (sess_phase _ _ _ _ _ _ H) as (c & extra & Hp & Hc & He & Hph). exists c, extra. split; [exact Hp|]. split; [exact Hc|].
    destruct (params_counts _ _ _ _ _ Hp) as (_ & P2 & _).
    assert (Nk : forall k l, kinds tr = l -> k = KFinal -> In k l -> True) by auto. clear Nk.
    assert (R : forall (x : kind) q, In KFinal (repeat x q) -> x = KFinal) by (intros x q Hi; now apply repeat_spec in Hi).
    unfold phase, lens in Hph. destruct (b_state C b) eqn:Es; try contradiction;
      repeat match goal with H : exists _, _ |- _ => destruct H as [? H] | H : _ /\ _ |- _ => destruct H end;
      try (exfalso; match goal with H : kinds tr = _ |- _ => rewrite H in Hf end; repeat (rewrite in_app_iff in Hf || cbn [In] in Hf);
           repeat match goal with H : _ \/ _ |- _ => destruct H end; try contradiction; try discriminate;
           match goal with H : In KFinal _ |- _ => apply R in H; discriminate end).
    split; [reflexivity|]. cbv zeta. rewrite P2 in *. unfold zlen in *. rewrite Nat2Z.id in *. auto 10.
  Qed.

  (** ** every input once *)
  Lemma session_inputs cr t0 d r0 tr p : session C cr t0 d r0 tr -> In KFinal (kinds tr) -> perms tr = [p] ->
    Permutation p (zrange (td_num_inputs d)) ->
    exists c extra, init_params C t0 cr d = Ok (c, extra) /\
    ((exists ins, Permutation ins (inputs tr) /\ Forall2 (fun v a => same_input (fst (fst v)) (snd (fst v)) a) (vinis tr) ins /\
                  Forall2 (fun s a => same_input (sa_src s) (sa_vini s) a) (signs tr) ins) \/ forgery C c d tr).
  Proof.
    intros H Hf Hpm Hp. apply session_sess in H. destruct H as (b & H).
    destruct (final_counts _ _ _ _ _ _ H Hf) as (c & extra & Hpa & Hc & Hs & L1 & L2 & L3 & L4 & L5 & L6). exists c, extra. split; [exact Hpa|].
    rewrite Hpm in L5. injection L5 as L5.
    pose proof (params_counts _ _ _ _ _ Hpa) as (P1 & _). rewrite <- P1 in Hp.
    pose proof (sess_in _ _ _ _ _ _ H) as (c1 & e1 & Hp1 & _ & _ & Hph & (Hin & _)).
    pose proof (sess_vini _ _ _ _ _ _ H) as (c2 & e2 & Hp2 & _ & _ & _ & Hvi).
    pose proof (sess_sign _ _ _ _ _ _ H) as (c3 & e3 & Hp3 & _ & _ & _ & (S & (Hsl & Hsi) & _)).
    rewrite Hpa in Hp1, Hp2, Hp3. apply Ok_inj in Hp1, Hp2, Hp3. apply pair_inj in Hp1, Hp2, Hp3. destruct Hp1 as [<- _], Hp2 as [<- _], Hp3 as [<- _].
    unfold inv_vini in Hvi. rewrite <- L5 in Hvi, Hsi.
    assert (Hn : 0 < c_input_count C c) by (unfold phase in Hph; rewrite Hs in Hph; tauto).
    assert (Hlen : Z.of_nat (length (inputs tr)) = c_input_count C c) by lia. rewrite <- Hlen in Hp.
    destruct (perm_list (inputs tr) p Hp) as (ins & Hins & Hil & Hnth).
    assert (H2 : forall T (Q : T -> input_ack -> Prop) l, length l = length ins -> (forall j v, nth_error l j = Some v -> exists a, nth_error ins j = Some a /\ Q v a) -> Forall2 Q l ins).
    { clear. intros T Q l. revert ins. induction l as [|v l IH]; intros [|a ins] Hl Hq; try discriminate; [constructor|].
      constructor; [destruct (Hq O v eq_refl) as (a' & Ea & ?); injection Ea as <-; assumption|]. apply IH; [now injection Hl|]. intros j. exact (Hq (S j)). }
    destruct (all_or (fun j v => exists a, nth_error ins j = Some a /\ same_input (fst (fst v)) (snd (fst v)) a) (forgery C c d tr) (vinis tr)) as [Hv|]; [| |right; assumption].
    { intros j v E. destruct (Hvi _ _ E) as (idx & Hg & Ht). apply py_get_nat in Hg. destruct (Hnth _ _ Hg) as (Hi & ->).
      destruct v as [[s v] tag]. cbn [fst snd] in *. destruct (presented_ok c d tr s v tag idx Hin) as (_ & X); [apply in_vinis_presented; eapply nth_error_In; exact E|exact Ht|exact X]. }
    destruct (all_or (fun j s => exists a, nth_error ins j = Some a /\ same_input (sa_src s) (sa_vini s) a) (forgery C c d tr) (signs tr)) as [Hv'|]; [| |right; assumption].
    { intros j s E. destruct (nth_error S j) as [[[[idx a0] a1] pc]|] eqn:Ex.
      2: { apply nth_error_None in Ex. assert (j < length (signs tr))%nat by (apply nth_error_Some; congruence). lia. }
      destruct (Hsi _ _ _ E Ex) as (Hg & Ht & _). apply py_get_nat in Hg. destruct (Hnth _ _ Hg) as (Hi & ->).
      destruct (presented_ok c d tr (sa_src s) (sa_vini s) (sa_tag s) idx Hin) as (_ & X); [apply in_signs_presented; eapply nth_error_In; exact E|exact Ht|exact X]. }
    left. exists ins. split; [exact Hins|]. split; apply H2; auto; lia.
  Qed.
End Props2.

(** * Commitments *)
Lemma perm_list_map {A B} (l l' : list A) (p : list Z) (f : A -> B) : 
  (forall j i, nth_error p j = Some i -> 0 <= i /\ nth_error l' j = nth_error l (Z.to_nat i)) ->
  forall j i, nth_error p j = Some i -> nth_error (map f l') j = nth_error (map f l) (Z.to_nat i).
Proof. intros H j i E. destruct (H _ _ E) as [_ H1]. now rewrite !nth_error_map, H1. Qed.
Lemma nth_ext_error {A} (l m : list A) : length l = length m -> (forall j a b, nth_error l j = Some a -> nth_error m j = Some b -> a = b) -> l = m.
Proof.
  revert m. induction l as [|x l IH]; intros [|y m] Hl H; try discriminate; [reflexivity|]. f_equal; [exact (H O x y eq_refl eq_refl)|].
  apply IH; [now injection Hl|]. intros j. exact (H (S j)).
Qed.
Lemma nth_combine {A B} (l : list A) (m : list B) j x y : nth_error l j = Some x -> nth_error m j = Some y -> nth_error (combine l m) j = Some (x, y).
Proof. revert m j. induction l as [|a l IH]; intros [|b m] [|j]; cbn; try discriminate; [now intros [= ->] [= ->]|]. apply IH. Qed.
Lemma zsum_permutation l m : Permutation l m -> zsum l = zsum m.
Proof. unfold zsum. induction 1; cbn; lia. Qed.
Lemma fold_sc_add l : forall a, fold_left sc_add l a mod ell = (a + zsum l) mod ell.
Proof.
  induction l as [|x l IH]; intros a; cbn [fold_left zsum fold_right]; [now rewrite Z.add_0_r|]. rewrite IH. unfold sc_add. fold (zsum l).
  rewrite Z.add_mod_idemp_l by discriminate. f_equal. lia.
Qed.

Section Commit.
  Context {C : ops}.

  Lemma session_commitments cr t0 d r0 tr p : codec_laws C -> session C cr t0 d r0 tr -> In KFinal (kinds tr) -> perms tr = [p] ->
    Permutation p (zrange (td_num_inputs d)) -> Forall (fun a => 0 <= rnd (ia_tape a) 0 < ell) (inputs tr) ->
    exists c extra, init_params C t0 cr d = Ok (c, extra) /\
    ((exists ins a m, Permutation ins (inputs tr) /\ Forall2 (fun s i => same_input (sa_src s) (sa_vini s) i) (signs tr) ins /\
        commitments_balance C tr (map (fun i => se_amount (ia_src i)) ins) a m) \/ forgery C c d tr).
  Proof.
    intros HL H Hf Hpm Hp Hr. apply session_sess in H. destruct H as (b & H).
    destruct (final_counts _ _ _ _ _ _ H Hf) as (c & extra & Hpa & Hc & Hs & L1 & L2 & L3 & L4 & L5 & L6). exists c, extra. split; [exact Hpa|].
    rewrite Hpm in L5. injection L5 as L5.
    pose proof (params_counts _ _ _ _ _ Hpa) as (P1 & _). rewrite <- P1 in Hp.
    pose proof (sess_in _ _ _ _ _ _ H) as (c1 & e1 & Hp1 & _ & _ & Hph & (Hin & _ & _ & Hlast)).
    pose proof (sess_out _ _ _ _ _ _ H) as (c2 & e2 & Hp2 & _ & _ & _ & (mks & Bt & (Hout & _ & _ & Hmo) & _)).
    pose proof (sess_sign _ _ _ _ _ _ H) as (c3 & e3 & Hp3 & _ & _ & _ & (S & (Hsl & Hsi) & Hsum & Hso & _)).
    rewrite Hpa in Hp1, Hp2, Hp3. apply Ok_inj in Hp1, Hp2, Hp3. apply pair_inj in Hp1, Hp2, Hp3. destruct Hp1 as [<- _], Hp2 as [<- _], Hp3 as [<- _].
    rewrite <- L5 in Hsi.
    assert (Hn : 0 < c_input_count C c) by (unfold phase in Hph; rewrite Hs in Hph; tauto).
    assert (Hlen : Z.of_nat (length (inputs tr)) = c_input_count C c) by lia. rewrite <- Hlen in Hp.
    destruct (perm_list (inputs tr) p Hp) as (ins & Hins & Hil & Hnth).
    (* each signature against the input it names *)
    destruct (all_or (fun j s => exists i x, nth_error ins j = Some i /\ nth_error S j = Some x /\ same_input (sa_src s) (sa_vini s) i /\
        snd (fst (fst x)) = rnd (ia_tape i) 0 /\ snd x = gen_c C (snd (fst x)) (se_amount (ia_src i)) /\ sa_pseudo_out s = enc_pt C (snd x))
      (forgery C c d tr) (signs tr)) as [Hv|]; [| |right; assumption].
    { intros j s E. destruct (nth_error S j) as [[[[idx a0] a1] pc]|] eqn:Ex.
      2: { apply nth_error_None in Ex. assert (j < length (signs tr))%nat by (apply nth_error_Some; congruence). lia. }
      destruct (Hsi _ _ _ E Ex) as (Hg & Ht & (ka & ab & Hka & Hab & Ea0) & Hps & Epo & _). apply py_get_nat in Hg. destruct (Hnth _ _ Hg) as (Hi & Enth).
      destruct (presented_ok c d tr (sa_src s) (sa_vini s) (sa_tag s) idx Hin) as (_ & [(a & Ea & Hsame)|X]); [apply in_signs_presented; eapply nth_error_In; exact E|exact Ht| |right; exact X].
      pose proof (Hin _ _ Ea) as (real & ok & tk & ad & sb & xi & ki & off & ka' & ks' & _ & _ & _ & _ & _ & _ & _ & _ & Ipo & Ipt & Ika & _ & Ict & _).
      rewrite Z2Nat.id in Ika, Ipt by exact Hi. rewrite Hka in Ika. apply Ok_inj in Ika. subst ka'.
      destruct (list_eq_dec Z.eq_dec (sa_alpha_ct s) (ia_alpha_ct a)) as [Ect|Hne].
      2: { right. apply (forged_alpha C c d tr s (Z.to_nat idx) a ka ab); [eapply nth_error_In; exact E|exact Ea|now rewrite Z2Nat.id|exact Hab|exact Hne]. }
      rewrite Ect, Ict, (law_aead C HL) in Hab. apply Ok_inj in Hab. subst ab.
      rewrite (law_int C HL) in Ea0 by (rewrite Forall_forall in Hr; apply Hr; eapply nth_error_In; exact Ea).
      destruct (is_det_mask C c && (idx + 1 =? c_input_count C c)) eqn:Elast.
      - left. exists a, (idx, a0, a1, pc). rewrite Enth. cbn [fst snd]. split; [exact Ea|]. split; [reflexivity|]. split; [exact Hsame|]. split; [exact Ea0|]. split; [|exact Epo].
        destruct (exists_last (l := inputs tr)) as (l & a' & El); [intros X; rewrite X in L1; cbn in L1; lia|].
        rewrite (Hlast L1 _ _ El) in Hps. assert (a = a'); [|now subst].
        assert (Z.to_nat idx = length l) as Eidx by (rewrite El, app_length in L1; cbn in L1; lia).
        rewrite El, Eidx, nth_error_app2, Nat.sub_diag in Ea by lia. now injection Ea.
      - destruct Hps as (-> & Hpt & Hdec).
        destruct (list_eq_dec Z.eq_dec (sa_pseudo s) (ia_pseudo a)) as [Eps|Hne].
        2: { right. apply tag_of_inv in Hpt. destruct Hpt as (k & Hk & Ek). apply (forged_pseudo_out C c d tr s (Z.to_nat idx) a); [eapply nth_error_In; exact E|exact Ea| |exact Hne].
             rewrite Z2Nat.id by exact Hi. exists k. split; [exact Hk|exact Ek]. }
        rewrite Eps, Ipo, (law_pt C HL) in Hdec. apply Ok_inj in Hdec.
        left. exists a, (idx, a0, a0, pc). rewrite Enth. cbn [fst snd]. split; [exact Ea|]. split; [reflexivity|]. split; [exact Hsame|]. split; [exact Ea0|]. split; [|exact Epo].
        now rewrite <- Hdec, Ea0. }
    left. exists ins, (map (fun x => snd (fst x)) S), mks. split; [exact Hins|].
    assert (Hl3 : length (signs tr) = length ins) by lia.
    split.
    { clear -Hv Hl3. revert Hv Hl3. generalize (signs tr) as l. intros l. revert S ins. induction l as [|v l IH]; intros S [|a ins] Hq Hl; try discriminate; [constructor|].
      constructor; [destruct (Hq O v eq_refl) as (a' & x & Ea & _ & ? & _); injection Ea as <-; assumption|]. 
      destruct S as [|y S]; [destruct (Hq O v eq_refl) as (a' & x & _ & X & _); discriminate|].
      apply (IH S); [|now injection Hl]. intros j. exact (Hq (Datatypes.S j)). }
    assert (Esum : zsum (map (fun x => snd (fst (fst x))) S) = zsum (alphas tr)).
    { transitivity (zsum (map (fun i => rnd (ia_tape i) 0) ins)); [|apply zsum_permutation; unfold alphas; now apply Permutation_map].
      f_equal. apply nth_ext_error; [rewrite !map_length; lia|]. intros j x y Ex Ey. rewrite nth_error_map in Ex, Ey.
      destruct (nth_error S j) as [sx|] eqn:ES; [|discriminate]. destruct (nth_error ins j) as [i|] eqn:Ei; [|discriminate]. cbn in Ex, Ey. injection Ex as <-. injection Ey as <-.
      destruct (nth_error (signs tr) j) as [s|] eqn:Esg; [|apply nth_error_None in Esg; assert (j < length S)%nat by (apply nth_error_Some; congruence); lia].
      destruct (Hv _ _ Esg) as (i' & x' & E1 & E2 & _ & E4 & _). congruence. }
    destruct Hout as [Hol Hoi]. unfold commitments_balance, out_amounts. rewrite !map_length. repeat split.
    - apply nth_ext_error; [rewrite !map_length, combine_length, !map_length; lia|]. intros j x y Ex Ey. rewrite nth_error_map in Ex, Ey.
      destruct (nth_error (signs tr) j) as [s|] eqn:Esg; [|discriminate]. cbn in Ex. injection Ex as <-.
      destruct (Hv _ _ Esg) as (i' & x' & E1 & E2 & _ & E4 & E5 & E6). rewrite (nth_combine _ _ _ (snd (fst x')) (se_amount (ia_src i'))) in Ey.
      + cbn in Ey. injection Ey as <-. now rewrite E6, E5.
      + now rewrite nth_error_map, E2.
      + now rewrite nth_error_map, E1.
    - lia.
    - apply nth_ext_error; [rewrite !map_length, combine_length, !map_length; lia|]. intros j x y Ex Ey. rewrite nth_error_map in Ex, Ey.
      destruct (nth_error (outputs tr) j) as [o|] eqn:Eo; [|discriminate]. cbn [option_map] in Ex. apply Some_inj in Ex. subst x.
      destruct (nth_error mks j) as [mk|] eqn:Em; [|apply nth_error_None in Em; assert (j < length (outputs tr))%nat by (apply nth_error_Some; congruence); lia].
      rewrite (nth_combine _ _ _ mk (de_amount (oa_dst o))) in Ey; [|exact Em|now rewrite nth_error_map, Eo]. cbn [option_map fst snd] in Ey. apply Some_inj in Ey. subst y.
      destruct (Hoi _ _ _ Eo Em) as (add & der & B & akey & lm & b1 & _ & _ & _ & _ & _ & _ & _ & _ & Epk & _). rewrite Epk.
      rewrite skipn_app, skipn_all2, (law_pt_len C HL), Nat.sub_diag by (rewrite (law_pt_len C HL); lia). reflexivity.
    - lia.
    - rewrite Hsum, Esum, Hso by auto. rewrite Hmo.
      rewrite Zminus_mod, (Zplus_mod (zsum (alphas tr))), !fold_sc_add, !Z.add_0_l, <- Zplus_mod, <- Zminus_mod. f_equal. lia.
  Qed.

  (** the equation a verifier of the transaction checks, in any commutative group *)
  Lemma psum_gen_c (add : pt C -> pt C -> pt C) : (forall a b x y, gen_c C (a + b) (x + y) = add (gen_c C a x) (gen_c C b y)) ->
    forall a x, length a = length x -> psum add (gen_c C 0 0) (map (fun y => gen_c C (fst y) (snd y)) (combine a x)) = gen_c C (zsum a) (zsum x).
  Proof.
    intros H. induction a as [|u a IH]; intros [|v x] Hl; try discriminate; [reflexivity|]. cbn [combine map psum fold_right fst snd]. fold (psum add (gen_c C 0 0)).
    unfold psum in IH. rewrite IH by (now injection Hl). cbn [zsum fold_right]. now rewrite <- H.
  Qed.
End Commit.

Section Equation.
  Context {C : ops}.
  Lemma session_equation cr t0 d r0 tr p (add : pt C -> pt C -> pt C) : codec_laws C ->
    (forall a b x y, gen_c C (a + b) (x + y) = add (gen_c C a x) (gen_c C b y)) -> (forall a x, gen_c C (a mod ell) x = gen_c C a x) ->
    session C cr t0 d r0 tr -> In KFinal (kinds tr) -> perms tr = [p] ->
    Permutation p (zrange (td_num_inputs d)) -> Forall (fun a => 0 <= rnd (ia_tape a) 0 < ell) (inputs tr) ->
    exists c extra, init_params C t0 cr d = Ok (c, extra) /\
    ((exists Ps Qs, map sa_pseudo_out (signs tr) = map (enc_pt C) Ps /\ map (fun o => skipn 32 (oa_out_pk o)) (outputs tr) = map (enc_pt C) Qs /\
        psum add (gen_c C 0 0) Ps = add (psum add (gen_c C 0 0) Qs) (gen_c C 0 (td_fee d))) \/ forgery C c d tr).
  Proof.
    intros HL Hh Hm H Hf Hpm Hp Hr. destruct (session_commitments _ _ _ _ _ _ HL H Hf Hpm Hp Hr) as (c & extra & Hpa & [(ins & a & m & Hi & _ & E1 & L1 & E2 & L2 & E3)|X]);
      exists c, extra; (split; [exact Hpa|]); [left|now right].
    exists (map (fun x => gen_c C (fst x) (snd x)) (combine a (map (fun i => se_amount (ia_src i)) ins))), (map (fun x => gen_c C (fst x) (snd x)) (combine m (out_amounts tr))).
    rewrite !map_map. split; [exact E1|]. split; [exact E2|]. rewrite !(psum_gen_c add Hh) by assumption.
    rewrite <- Hh, Z.add_0_r, <- (Hm (zsum a)), E3, Hm. f_equal.
    rewrite (zsum_permutation _ (in_amounts tr)) by (now apply Permutation_map).
    assert (exists ex ph fee ty fm, In (ex, ph, fee, ty, fm) (allouts tr)) as (ex & ph & fee & ty & fm & Hin).
    { apply session_sess in H. destruct H as (b & H). destruct (final_counts _ _ _ _ _ _ H Hf) as (c' & extra' & _ & _ & _ & _ & _ & _ & _ & _ & L6).
      destruct (allouts tr) as [|[[[[ex ph] fee] ty] fm] l]; [discriminate|]. exists ex, ph, fee, ty, fm. now left. }
    destruct (session_balance _ _ _ _ _ _ _ _ _ _ H Hin) as (E & -> & _). exact E.
  Qed.
End Equation.
