(** The additional transaction keys of a session, and the secrets the outputs are made from. *)
From Verif Require Import Py PyLemmas Digits Protobuf_spec Protobuf_proof Addr_model Addr_spec Addr_proof Extra_model Extra_spec Extra_proof Signer_model Signer_spec Signer_base Signer_inv Signer_step Signer_inv2 Signer_props Complete_proof1 Keys_spec.

Section Keys.
  Context {C : ops}.

  Definition key_at (c : cfg C) (L : list (Z * pt C)) (i : Z) (o : output_ack) : Prop :=
    exists add der B mask lm b1, b_cfg C b1 = c /\
      (c_need_additional C c = true -> exists k K D, nth_error L (Z.to_nat i) = Some (k, K) /\ add = Some k /\
         (truthy (de_is_subaddress (oa_dst o)) = true -> dec_pt C (spend_public_key (de_addr (oa_dst o))) = Ok D /\ K = smul C D k) /\
         (truthy (de_is_subaddress (oa_dst o)) = false -> K = smul_base C k)) /\
      s6_derivation C (oa_dst o) add b1 = Ok der /\ dec_pt C (spend_public_key (de_addr (oa_dst o))) = Ok B /\
      out_mask c i lm (derivation_to_sc C der i) mask /\
      oa_tx_out o = [0; 2] ++ enc_pt C (derive_pub C der i B) /\
      oa_out_pk o = enc_pt C (derive_pub C der i B) ++ enc_pt C (gen_c C mask (de_amount (oa_dst o))) /\
      oa_ecdh o = ecdh_bytes C c mask (de_amount (oa_dst o)) (enc_int C (derivation_to_sc C der i)).
  Definition inv_keys (c : cfg C) (extra : list Z) (tr : list event) (b : builder C) : Prop :=
    exists L : list (Z * pt C), b_add_priv C b = map fst L /\ b_add_pub C b = map (fun x => enc_pt C (snd x)) L /\
      (c_need_additional C c = false -> L = []) /\ (c_need_additional C c = true -> length L = length (outputs tr)) /\
      at_each (key_at c L) (outputs tr).

  Lemma key_at_snoc c L x i o : key_at c L i o -> key_at c (L ++ [x]) i o.
  Proof.
    intros (add & der & B & mask & lm & b1 & H1 & H2 & H). exists add, der, B, mask, lm, b1. split; [exact H1|]. split; [|exact H].
    intros Hn. destruct (H2 Hn) as (k & K & D & E & H3). exists k, K, D. split; [|exact H3]. rewrite nth_error_app1; [exact E|]. apply nth_error_Some. congruence.
  Qed.
  Lemma at_each_impl {A} (P Q : Z -> A -> Prop) l : (forall i a, P i a -> Q i a) -> at_each P l -> at_each Q l.
  Proof. intros H1 H2 k a H. apply H1, H2, H. Qed.

  Lemma additional_inv t e (b : builder C) ap aq add : s6_additional_keys C t e b = Ok (set_add_pub C aq (set_add_priv C ap b), add) ->
    if c_need_additional C (b_cfg C b) then
      exists K D, ap = b_add_priv C b ++ [rnd t 0] /\ aq = b_add_pub C b ++ [enc_pt C K] /\ add = Some (rnd t 0) /\
       (truthy (de_is_subaddress e) = true -> dec_pt C (spend_public_key (de_addr e)) = Ok D /\ K = smul C D (rnd t 0)) /\
       (truthy (de_is_subaddress e) = false -> K = smul_base C (rnd t 0))
    else ap = b_add_priv C b /\ aq = b_add_pub C b /\ add = None.
  Proof.
    unfold s6_additional_keys. destruct (c_need_additional C (b_cfg C b)); cbn [negb]; intros H.
    - bnd H K HK. apply Ok_inj in H. apply pair_inj in H. destruct H as [E1 E2].
      pose proof (f_equal (b_add_priv C) E1) as Ea. pose proof (f_equal (b_add_pub C) E1) as Eb. bsr_in Ea. bsr_in Eb.
      destruct (truthy (de_is_subaddress e)).
      + bnd HK D HD. apply Ok_inj in HK. exists K, D. repeat split; auto. discriminate.
      + apply Ok_inj in HK. exists K, K. repeat split; auto; discriminate.
    - apply Ok_inj in H. apply pair_inj in H. destruct H as [E1 E2].
      pose proof (f_equal (b_add_priv C) E1) as Ea. pose proof (f_equal (b_add_pub C) E1) as Eb. bsr_in Ea. bsr_in Eb. auto.
  Qed.

  Ltac sub := repeat match goal with E : ?b = _ |- _ => is_var b; match type of E with @eq (builder _) _ _ => subst b end end.

  Lemma sess_keys cr t0 d r0 tr b : sess cr t0 d r0 tr b -> exists c extra, init_params C t0 cr d = Ok (c, extra) /\ b_cfg C b = c /\ b_extra C b = extra /\
      phase (c_input_count C c) (c_output_count C c) tr b /\ inv_keys c extra tr b.
  Proof.
    revert tr b. apply sess_invariant.
    - intros. exists []. repeat split; auto. apply at_each_nil.
    - intros c extra tr b t m r b' Hp Hs Hc He Hph H Hst. unfold inv_keys in *.
      destruct Hst as [? ? ? ? ? ? ? ? ? ? ? ? ? ? ? ? S1 S2 S3 S4 S5 S6 S7 S8 S9 S10 S11 S12 S13 S14 Eb|? ? S1|? ? ? ? ? ? S1 S2 S3 S4 S5 S6|? ? ? S1 S2 S3
        |? dst tag rsig offl am' ms' fu out pr S1 S2 S3 S4 S5
        |? e tag rsig n am ms p1 key akey mask add der B lm ap aq ro mo vtag h4 h4' h5 am' ms' pr b1 b2 b3 b' S1 S2 S3 S4 S5 S6 S7 S8 S9 S10 S11 S12 S13 S14 S15 S16 S17 S18 S19 S20 S21 S22 Eb
        |? ? ? ? ? ? h0 ? ? S1 S2 S3 S4 S5 S6 S7 S8 S9 S10 S11 S12
        |? ? ? ? ? ? ? ? ? ? ? ? ? ? ? ? ? ? ? ? ? b' S1 S2 S3 S4 S5 S6 S7 S8 S9 S10 S11 S12 S13 S14 S15 S16 Eb|? ? ? ? S1]; cbv zeta in *; hist;
        try (bsr; exact H).
      + destruct (b_inp_idx C b + 1 + 1 =? c_input_count C c); subst b'; bsr; exact H.
      + destruct dst; hist; bsr; exact H.
      + destruct H as (L & I1 & I2 & I3 & I4 & I5).
        destruct (phase_outputs _ _ _ _ Hph S2) as (Hl & _).
        assert (Ec1 : b_cfg C b1 = c) by (rewrite S10; exact Hc).
        assert (Ea1 : b_add_priv C b1 = b_add_priv C b) by (rewrite S10; reflexivity).
        assert (Eq1 : b_add_pub C b1 = b_add_pub C b) by (rewrite S10; reflexivity).
        apply additional_inv in S11. rewrite Ec1, Ea1, Eq1 in S11.
        assert (Ea : b_add_priv C b' = ap) by (rewrite Eb, S22, S21; reflexivity).
        assert (Eq : b_add_pub C b' = aq) by (rewrite Eb, S22, S21; reflexivity).
        rewrite Ea, Eq. 
        assert (Hrest : exists der0 B0 mask0 lm0 b0, b_cfg C b0 = c /\ s6_derivation C e add b0 = Ok der0 /\ dec_pt C (spend_public_key (de_addr e)) = Ok B0 /\
           out_mask c (b_out_idx C b + 1) lm0 (derivation_to_sc C der0 (b_out_idx C b + 1)) mask0 /\
           [0; 2] ++ enc_pt C key = [0; 2] ++ enc_pt C (derive_pub C der0 (b_out_idx C b + 1) B0) /\
           enc_pt C key ++ enc_pt C (gen_c C mask (de_amount e)) = enc_pt C (derive_pub C der0 (b_out_idx C b + 1) B0) ++ enc_pt C (gen_c C mask0 (de_amount e)) /\
           ecdh_bytes C c mask (de_amount e) (enc_int C akey) = ecdh_bytes C c mask0 (de_amount e) (enc_int C (derivation_to_sc C der0 (b_out_idx C b + 1)))).
        { exists der, B, mask, (b_last_mask C b), b1. subst key akey. auto 10. }
        destruct Hrest as (der0 & B0 & mask0 & lm0 & b0 & R1 & R2 & R3 & R4 & R5 & R6 & R7).
        destruct (c_need_additional C c) eqn:En.
        * destruct S11 as (K & D & -> & -> & Eadd & K1 & K2). exists (L ++ [(rnd t 0, K)]). rewrite !map_app, I1, I2. cbn [map fst snd].
          split; [reflexivity|]. split; [reflexivity|]. split; [discriminate|]. split; [intros _; rewrite !app_length; cbn [length]; now rewrite I4|].
          apply at_each_snoc. { eapply at_each_impl; [|exact I5]. intros i a. apply key_at_snoc. }
          rewrite Hl. exists add, der0, B0, mask0, lm0, b0. cbn [oa_dst oa_tx_out oa_out_pk oa_ecdh]. split; [exact R1|]. split; [|auto 10].
          intros _. exists (rnd t 0), K, D. split; [|auto]. replace (Z.to_nat (b_out_idx C b + 1)) with (length L) by (rewrite I4 by reflexivity; lia).
          rewrite nth_error_app2, Nat.sub_diag by lia. reflexivity.
        * destruct S11 as (-> & -> & Eadd). exists L. split; [exact I1|]. split; [exact I2|]. split; [exact I3|]. split; [discriminate|].
          apply at_each_snoc; [exact I5|]. rewrite Hl. exists add, der0, B0, mask0, lm0, b0. cbn [oa_dst oa_tx_out oa_out_pk oa_ecdh]. split; [exact R1|].
          split; [|auto 10]. intros X. congruence.
      + destruct (b_inp_idx C b + 1 + 1 =? c_input_count C c); subst b'; bsr; exact H.
  Qed.

  (** ** The extra field *)
  Lemma pid_extra d ch r pid extra : dh_laws C -> process_payment_id C d ch r = Ok (pid, extra) ->
    exists f0, extra = extra_bytes f0 /\ Forall (fun f => exists n, f = FNonce n) f0.
  Proof.
    intros HL H. unfold process_payment_id in H. match type of H with (let (_, _) := ?q in _) = _ => destruct q as [vk p] end.
    destruct p as [[|p0 p]|]; [apply Ok_inj in H; apply pair_inj in H; destruct H as [_ <-]; exists []; split; [reflexivity|constructor]| |
      apply Ok_inj in H; apply pair_inj in H; destruct H as [_ <-]; exists []; split; [reflexivity|constructor]].
    bnd H x Hx. destruct x as [nonce pre]. bnd_guard H G. apply Ok_inj in H. apply pair_inj in H. destruct H as [_ <-].
    assert (Hn : zlen nonce < 127).
    { destruct (zlen (p0 :: p) =? 8) eqn:E8.
      - bnd_guard Hx G2. bnd Hx V HV. apply Ok_inj in Hx. apply pair_inj in Hx. destruct Hx as [<- _]. unfold zlen in *.
        rewrite dh_pid_len; [lia|exact HL|lia].
      - destruct (zlen (p0 :: p) =? 32) eqn:E32; [|discriminate]. apply Ok_inj in Hx. apply pair_inj in Hx. destruct Hx as [<- _]. lia. }
    exists [FNonce (pre :: nonce)]. split; [|constructor; [eauto|constructor]].
    unfold extra_bytes. cbn [map concat field_bytes]. rewrite app_nil_r, zlen_cons. pose proof (zlen_nonneg nonce). rewrite varint_small by lia.
    cbn [app]. f_equal. f_equal. lia.
  Qed.

  (** the parameters: which transaction public key, and when additional keys are used *)
  Lemma params_keys t0 cr d c extra : init_params C t0 cr d = Ok (c, extra) ->
    c_creds C c = cr /\ c_change C c = td_change d /\ c_r C c = rnd t0 0 /\
    let ch := match td_change d with Some e => Some (de_addr e) | None => None end in
    let '(nstd, nsub, single) := classify_subaddresses (map to_dest (td_outputs d)) ch in
    c_need_additional C c = (0 <? nsub) && ((0 <? nstd) || (1 <? nsub)) /\
    (if (nstd =? 0) && (nsub =? 1) then exists a D, single = Some a /\ dec_pt C (spend_public_key a) = Ok D /\ c_r_pub C c = smul C D (rnd t0 0)
     else c_r_pub C c = smul_base C (rnd t0 0)) /\
    exists pid, process_payment_id C d ch (rnd t0 0) = Ok (pid, extra).
  Proof.
    unfold init_params. intros H. bnd H u Hu. set (ch := match td_change d with Some e => Some (de_addr e) | None => None end) in *.
    destruct (classify_subaddresses (map to_dest (td_outputs d)) ch) as [[nstd nsub] single]. bnd H rp Hr. bnd H pe Hpe. destruct pe as [pid ex].
    destruct (sec_keys C d pid (rnd t0 0) (rnd t0 1)) as [kh ke]. apply Ok_inj in H. apply pair_inj in H. destruct H as [<- <-]. cbn [c_creds c_change c_r c_need_additional c_r_pub].
    split; [reflexivity|]. split; [reflexivity|]. split; [reflexivity|]. split; [reflexivity|]. split; [|eauto].
    destruct ((nstd =? 0) && (nsub =? 1)).
    - destruct single as [a|]; [|discriminate]. bnd Hr D HD. apply Ok_inj in Hr. eauto.
    - now apply Ok_inj in Hr.
  Qed.

  Lemma distinct_incl ds : forall seen ch x, In x (distinct_from seen ch ds) -> In x ds.
  Proof.
    induction ds as [|y ds IH]; intros seen ch x; cbn [distinct_from]; [auto|]. destruct (existsb _ _); cbn [In]; [eauto|]. intros [->|H]; eauto.
  Qed.
  Lemma count_none f l : (forall x : dest, In x l -> f x = false) -> count (A := dest) f l = 0.
  Proof. unfold count. induction l as [|x l IH]; intros H; [reflexivity|]. cbn [filter]. rewrite (H x) by (left; reflexivity). apply IH. intros y Hy. apply H. now right. Qed.
  Lemma count_in f l x : In x l -> f x = true -> 0 < count (A := dest) f l.
  Proof. intros H Hf. unfold count. assert (In x (filter f l)) by (apply filter_In; auto). destruct (filter f l); [contradiction|]. rewrite zlen_cons. pose proof (zlen_nonneg l0). lia. Qed.

  (** every destination but the change is counted; its own flag is the one counted *)
  Lemma classify_at ds ch e nstd nsub single : Forall (fun e => length (spend_public_key (de_addr e)) = 32%nat) ds ->
    (forall e1 e2, In e1 ds -> In e2 ds -> de_addr e1 = de_addr e2 -> truthy (de_is_subaddress e1) = truthy (de_is_subaddress e2)) ->
    classify_subaddresses (map to_dest ds) ch = (nstd, nsub, single) ->
    In e ds -> ch <> Some (de_addr e) ->
    (truthy (de_is_subaddress e) = false -> 0 < nstd) /\ (truthy (de_is_subaddress e) = true -> 0 < nsub /\ (nstd = 0 -> nsub = 1 -> single = Some (de_addr e))) /\ 0 <= nstd.
  Proof.
    intros H32 Hflag Hcl Hin Hch. rewrite classify_spec in Hcl by (apply Forall_map; exact H32). cbv zeta in Hcl.
    apply pair_inj in Hcl. destruct Hcl as [Hcl E3]. apply pair_inj in Hcl. destruct Hcl as [E1 E2].
    destruct (distinct_from_spec (map to_dest ds) [] ch) as [Hnd Hmem]. fold (distinct_dests ch (map to_dest ds)) in Hnd, Hmem.
    set (l := distinct_dests ch (map to_dest ds)) in *.
    assert (Hd : exists y, In y l /\ d_addr y = de_addr e /\ d_is_subaddress y = truthy (de_is_subaddress e)).
    { assert (In (de_addr e) (map d_addr l)) as Ha.
      { apply Hmem. split; [|split; [intros []|exact Hch]]. rewrite map_map. apply in_map_iff. exists e. auto. }
      apply in_map_iff in Ha. destruct Ha as (y & Ey & Hy). exists y. split; [exact Hy|]. split; [exact Ey|].
      apply distinct_incl in Hy. apply in_map_iff in Hy. destruct Hy as (e' & <- & He'). apply Hflag; assumption. }
    destruct Hd as (y & Hy & Ey & Fy). split; [|split].
    - intros F. rewrite <- E1. apply (count_in _ l y Hy). now rewrite Fy, F.
    - intros F. split; [rewrite <- E2; apply (count_in _ l y Hy); now rewrite Fy, F|]. intros -> ->.
      destruct (last_sub_single l None E2) as (z & Hz & Fz & Ez). rewrite <- E3, Ez. f_equal. rewrite <- Ey.
      pose proof (count_split l) as Hs. rewrite E1, E2 in Hs. destruct l as [|x0 [|x1 l']]; cbn [In] in Hy, Hz; [contradiction| |rewrite !zlen_cons in Hs; pose proof (zlen_nonneg l'); lia].
      destruct Hy as [<-|[]], Hz as [<-|[]]. reflexivity.
    - rewrite <- E1. unfold count. apply zlen_nonneg.
  Qed.

  (** the extra field: payment id, transaction public key, additional keys *)
  Lemma extra_fields (c : cfg C) (b1 : builder C) f0 (L : list (Z * pt C)) ex : dh_laws C -> b_cfg C b1 = c -> b_extra C b1 = extra_bytes f0 ->
    Forall (fun f => exists n, f = FNonce n) f0 -> b_add_pub C b1 = map (fun x => enc_pt C (snd x)) L -> extra_with_keys C b1 = Ok ex ->
    parse_extra_fields ex = Ok (f0 ++ [FPub (enc_pt C (c_r_pub C c))] ++
      (if c_need_additional C c then [FAdditional (map (fun x => enc_pt C (snd x)) L)] else [])).
  Proof.
    intros HL Hc Hx Hf0 K2 E. unfold extra_with_keys in E. cbv zeta in E. rewrite Hx, Hc, K2 in E.
    assert (Ok0 : Forall field_ok f0) by (eapply Forall_impl; [|exact Hf0]; intros f (n & ->); exact I).
    assert (Hpk : length (enc_pt C (c_r_pub C c)) = 32%nat) by apply (dh_len C HL).
    destruct (c_need_additional C c).
    - rewrite uvarint_ok in E by apply zlen_nonneg. cbn [bind] in E. apply Ok_inj in E.
      rewrite <- (parse_extra_ok (f0 ++ _)).
      + f_equal. rewrite <- E. unfold extra_bytes. rewrite map_app, concat_app. cbn [app map concat field_bytes]. rewrite app_nil_r, <- !app_assoc. reflexivity.
      + apply Forall_app. split; [exact Ok0|]. constructor; [exact Hpk|]. constructor; [|constructor]. cbn. apply Forall_map, Forall_forall. intros x _. apply (dh_len C HL).
    - apply Ok_inj in E. rewrite <- (parse_extra_ok (f0 ++ _)).
      + f_equal. rewrite <- E. unfold extra_bytes. rewrite map_app, concat_app. cbn [app map concat field_bytes]. rewrite app_nil_r. reflexivity.
      + apply Forall_app. split; [exact Ok0|]. constructor; [exact Hpk|constructor].
  Qed.

  Lemma recipient cr t0 d r0 tr1 t ex ph fee ty fm tr2 i o D a : dh_laws C ->
    session C cr t0 d r0 (tr1 ++ (t, MAllOut, RAllOut ex ph fee ty fm) :: tr2) ->
    nth_error (outputs tr1) i = Some o -> In (oa_dst o) (td_outputs d) ->
    Forall (fun e => length (spend_public_key (de_addr e)) = 32%nat) (td_outputs d) ->
    (forall e1 e2, In e1 (td_outputs d) -> In e2 (td_outputs d) -> de_addr e1 = de_addr e2 -> truthy (de_is_subaddress e1) = truthy (de_is_subaddress e2)) ->
    address_of C (oa_dst o) a D ->
    (forall ch, td_change d = Some ch -> de_addr ch = de_addr (oa_dst o) -> a = view_priv C cr) ->
    exists c extra s, init_params C t0 cr d = Ok (c, extra) /\ can_compute C ex a i s /\ opens_output C c i o D s (de_amount (oa_dst o)).
  Proof.
    intros HL H Ho Hin H32 Hflag [HD HA] Hch. apply session_sess in H. destruct H as (b & H).
    destruct (allout_cut _ _ _ _ _ _ _ _ _ H) as (b1 & b2 & c & extra & Hp & H1 & Hc & He & Hst & Hstep & _).
    pose proof (sess_keys _ _ _ _ _ _ H1) as (c' & extra' & Hp' & _ & _ & _ & (L & K1 & K2 & K3 & K4 & K5)).
    rewrite Hp in Hp'. apply Ok_inj in Hp'. apply pair_inj in Hp'. destruct Hp' as [<- <-].
    pose proof (params_keys _ _ _ _ _ Hp) as (P1 & P2 & P3 & P4). cbv zeta in P4.
    set (ch := match td_change d with Some e => Some (de_addr e) | None => None end) in *.
    destruct (classify_subaddresses (map to_dest (td_outputs d)) ch) as [[nstd nsub] single] eqn:Ecl.
    destruct P4 as (P4 & P5 & (pid & P6)). destruct (pid_extra _ _ _ _ _ HL P6) as (f0 & Ef0 & Hf0).
    assert (E : extra_with_keys C b1 = Ok ex) by (inversion Hstep; assumption).
    rewrite Ef0 in He. pose proof (extra_fields c b1 f0 L ex HL Hc He Hf0 K2 E) as Hfs. rewrite <- Ef0 in He.
    match type of Hfs with _ = Ok ?f => set (fs := f) in * end.
    assert (Hpub : In (FPub (enc_pt C (c_r_pub C c))) fs) by (apply in_or_app; right; left; reflexivity).
    assert (Hadd : c_need_additional C c = true -> In (FAdditional (map (fun x => enc_pt C (snd x)) L)) fs)
      by (intros X; unfold fs; rewrite X; apply in_or_app; right; right; left; reflexivity).
    clearbody fs.
    pose proof (K5 i o Ho) as (add & der & B & mask & lm & b0 & Hb0 & Hk & Hder & HB & Hm & O1 & O2 & O3).
    rewrite HD in HB. apply Ok_inj in HB. subst B.
    assert (Hrdec : dec_pt C (enc_pt C (c_r_pub C c)) = Ok (c_r_pub C c)).
    { destruct ((nstd =? 0) && (nsub =? 1)); [destruct P5 as (a0 & D0 & _ & Hd0 & ->); apply (dh_dec C HL _ _ _ Hd0)|rewrite P5; apply (dh_dec_base C HL)]. }
    exists c, extra, der. split; [exact Hp|]. split.
    2:{ exists mask. cbv zeta. repeat (split; [assumption|]). intros Hdet. unfold out_mask in Hm. now rewrite Hdet in Hm. }
    exists fs. split; [exact Hfs|].
    unfold s6_derivation in Hder. rewrite Hb0 in Hder. cbv zeta in Hder.
    assert (Hca : change_address C c = ch) by (unfold change_address; rewrite P2; reflexivity). rewrite Hca in Hder.
    destruct (match ch with Some x => addr_eqb (de_addr (oa_dst o)) x | None => false end) eqn:Ech.
    - left. apply Ok_inj in Hder. exists (enc_pt C (c_r_pub C c)), (c_r_pub C c). split; [exact Hpub|]. split; [exact Hrdec|].
      rewrite <- Hder, P1. f_equal. symmetry. unfold ch in Ech. destruct (td_change d) as [x|]; [|discriminate]. apply (Hch x eq_refl). apply addr_eqb_spec in Ech. auto.
    - assert (Hnc : ch <> Some (de_addr (oa_dst o))).
      { intros X. rewrite X in Ech. assert (addr_eqb (de_addr (oa_dst o)) (de_addr (oa_dst o)) = true) by now apply addr_eqb_spec. congruence. }
      destruct (classify_at _ _ _ _ _ _ H32 Hflag Ecl Hin Hnc) as (Q1 & Q2 & Q3).
      bnd Hder k Hkk. rewrite HA in Hder. cbn [bind] in Hder. apply Ok_inj in Hder.
      destruct (truthy (de_is_subaddress (oa_dst o))) eqn:Es; cbn [andb] in Hkk.
      + destruct (c_need_additional C c) eqn:En.
        * right. destruct (Hk eq_refl) as (k0 & K & D0 & Hnth & Eadd & HK & _). rewrite Eadd in Hkk. apply Ok_inj in Hkk. subst k0.
          destruct (HK eq_refl) as [HD0 EK]. rewrite HD in HD0. apply Ok_inj in HD0. subst D0. rewrite Nat2Z.id in Hnth.
          exists (map (fun x => enc_pt C (snd x)) L), (enc_pt C K), K. split; [auto|]. split; [now rewrite nth_error_map, Hnth|].
          rewrite EK. split; [apply (dh_dec C HL _ _ _ HD)|]. rewrite <- Hder. apply (dh_point C HL).
        * left. apply Ok_inj in Hkk. destruct (Q2 eq_refl) as [Q4 Q5]. symmetry in P4.
          assert (nstd = 0 /\ nsub = 1) as [N0 N1] by (apply andb_false_iff in P4; destruct P4 as [P4|P4]; [|apply orb_false_iff in P4]; lia).
          rewrite N0, N1 in P5. cbn [Z.eqb andb Pos.eqb] in P5. destruct P5 as (a0 & D0 & Esg & HD0 & Er). specialize (Q5 N0 N1). rewrite Esg in Q5. apply Some_inj in Q5. subst a0.
          rewrite HD in HD0. apply Ok_inj in HD0. subst D0.
          exists (enc_pt C (c_r_pub C c)), (c_r_pub C c). split; [exact Hpub|]. split; [exact Hrdec|]. rewrite <- Hder, Er, <- Hkk, P3. apply (dh_point C HL).
      + left. apply Ok_inj in Hkk. exists (enc_pt C (c_r_pub C c)), (c_r_pub C c). split; [exact Hpub|]. split; [exact Hrdec|].
        specialize (Q1 eq_refl). replace ((nstd =? 0) && (nsub =? 1)) with false in P5 by lia. rewrite <- Hder, P5, <- Hkk, P3. apply (dh_base C HL).
  Qed.

  (** ** The keys handed over at the end *)
  Definition inv_ph (c : cfg C) (extra : list Z) (tr : list event) (b : builder C) : Prop :=
    allouts tr = [] \/ exists ex ph fee ty fm, allouts tr = [(ex, ph, fee, ty, fm)] /\ b_prefix_hash C b = ph /\
      exists b1, b_cfg C b1 = c /\ b_extra C b1 = extra /\ b_add_pub C b1 = b_add_pub C b /\ extra_with_keys C b1 = Ok ex.
  Lemma sess_ph cr t0 d r0 tr b : sess cr t0 d r0 tr b -> exists c extra, init_params C t0 cr d = Ok (c, extra) /\ b_cfg C b = c /\ b_extra C b = extra /\
      phase (c_input_count C c) (c_output_count C c) tr b /\ inv_ph c extra tr b.
  Proof.
    revert tr b. apply sess_invariant.
    - intros. now left.
    - intros c extra tr b t m r b' Hp Hs Hc He Hph H Hst. unfold inv_ph in *.
      destruct Hst as [? ? ? ? ? ? ? ? ? ? ? ? ? ? ? ? S1 S2 S3 S4 S5 S6 S7 S8 S9 S10 S11 S12 S13 S14 Eb|? ? S1|? ? ? ? ? ? S1 S2 S3 S4 S5 S6|? ? ? S1 S2 S3
        |? dst tag rsig offl am' ms' fu out pr S1 S2 S3 S4 S5
        |? e tag rsig n am ms p1 key akey mask add der B lm ap aq ro mo vtag h4 h4' h5 am' ms' pr b1 b2 b3 b' S1 S2 S3 S4 S5 S6 S7 S8 S9 S10 S11 S12 S13 S14 S15 S16 S17 S18 S19 S20 S21 S22 Eb
        |? ? ? ? ? ? h0 ? ? S1 S2 S3 S4 S5 S6 S7 S8 S9 S10 S11 S12
        |? ? ? ? ? ? ? ? ? ? ? ? ? ? ? ? ? ? ? ? ? b' S1 S2 S3 S4 S5 S6 S7 S8 S9 S10 S11 S12 S13 S14 S15 S16 Eb|? ? ? ? S1]; cbv zeta in *; hist;
        try (bsr; exact H).
      + destruct (b_inp_idx C b + 1 + 1 =? c_input_count C c); subst b'; bsr; exact H.
      + left. now destruct (phase_outputs _ _ _ _ Hph S2) as (_ & _ & Ha & _).
      + destruct (phase_outputs _ _ _ _ Hph (or_intror S1)) as (_ & _ & Ha & _). right. rewrite Ha. cbn [app]. do 5 eexists. split; [reflexivity|]. split; [bsr; reflexivity|]. exists b. bsr. auto.
      + destruct (b_inp_idx C b + 1 + 1 =? c_input_count C c); subst b'; bsr; exact H.
  Qed.

  Lemma allouts_in tr ex ph fee ty fm : allouts tr = [(ex, ph, fee, ty, fm)] -> exists tr1 t tr2, tr = tr1 ++ (t, MAllOut, RAllOut ex ph fee ty fm) :: tr2.
  Proof.
    intros H. assert (In (ex, ph, fee, ty, fm) (allouts tr)) as Hin by (rewrite H; left; reflexivity). apply in_allouts in Hin.
    destruct Hin as (tr1 & t & ex' & ph' & fee' & ty' & fm' & tr2 & E & ->). injection E as <- <- <- <- <-. eauto.
  Qed.

  Lemma single_in ds ch : forall seen nstd nsub s0 a b x, classify_loop (map to_dest ds) ch seen nstd nsub s0 = (a, b, Some x) ->
    s0 = Some x \/ exists e, In e ds /\ truthy (de_is_subaddress e) = true /\ de_addr e = x.
  Proof.
    induction ds as [|e ds IH]; intros seen nstd nsub s0 a b x; cbn [map classify_loop]; [intros E; apply pair_inj in E; destruct E as [_ ->]; auto|].
    assert (Hw : (s0 = Some x \/ exists e0, In e0 ds /\ truthy (de_is_subaddress e0) = true /\ de_addr e0 = x) -> s0 = Some x \/ exists e0, In e0 (e :: ds) /\ truthy (de_is_subaddress e0) = true /\ de_addr e0 = x).
    { intros [->|(e0 & H1 & H2)]; [auto|]. right. exists e0. split; [now right|exact H2]. }
    destruct (match ch with Some c => _ | None => false end); [intros E; apply Hw; eapply IH, E|].
    destruct (existsb _ _); [intros E; apply Hw; eapply IH, E|]. destruct (d_is_subaddress (to_dest e)) eqn:Es; intros E; [|apply Hw; eapply IH, E].
    apply IH in E. destruct E as [E|(e0 & H1 & H2)]; right; [exists e|exists e0; split; [now right|exact H2]].
    apply Some_inj in E. split; [now left|]. split; [exact Es|exact E].
  Qed.

  Lemma final_keys cr t0 d r0 tr t salt rm keys : session C cr t0 d r0 (tr ++ [(t, MFinal, RFinal salt rm keys)]) ->
    exists c extra L ex ph fee ty fm, init_params C t0 cr d = Ok (c, extra) /\ allouts tr = [(ex, ph, fee, ty, fm)] /\
      salt = rndb t 0 /\ rm = enc_int C (rnd t 0) /\
      keys = aead_enc C (hmac C salt (keccak2 C (enc_int C (sc_add (spend_priv C cr) (rnd t 0)) ++ ph))) (rndb t 1)
               (enc_int C (rnd t0 0) ++ concat (map (enc_int C) (map fst L))) /\
      (c_need_additional C c = false -> L = []) /\ (c_need_additional C c = true -> length L = length (outputs tr)) /\
      at_each (key_at c L) (outputs tr) /\
      exists b1, b_cfg C b1 = c /\ b_extra C b1 = extra /\ b_add_pub C b1 = map (fun x => enc_pt C (snd x)) L /\ extra_with_keys C b1 = Ok ex.
  Proof.
    intros H. apply session_sess in H. destruct H as (b & H).
    destruct (sess_split _ _ _ _ _ _ _ _ _ _ H) as (b1 & b2 & H1 & _ & Hs & Hst).
    pose proof (sess_keys _ _ _ _ _ _ H1) as (c & extra & Hp & Hc & _ & Hph & (L & K1 & K2 & K3 & K4 & K5)).
    pose proof (sess_ph _ _ _ _ _ _ H1) as (c' & extra' & Hp' & _ & _ & _ & Hq).
    rewrite Hp in Hp'. apply Ok_inj in Hp'. apply pair_inj in Hp'. destruct Hp' as [<- <-].
    assert (Est : b_state C b1 = SIGNATURE_DONE) by (inversion Hst; assumption).
    assert (Hal : exists ex ph fee ty fm, allouts tr = [(ex, ph, fee, ty, fm)] /\ b_prefix_hash C b1 = ph /\
      exists b2, b_cfg C b2 = c /\ b_extra C b2 = extra /\ b_add_pub C b2 = b_add_pub C b1 /\ extra_with_keys C b2 = Ok ex).
    { destruct Hq as [Hq|Hq]; [|exact Hq]. exfalso. unfold phase in Hph. rewrite Est in Hph. unfold lens in Hph. rewrite Hq in Hph.
      repeat match goal with H : exists _, _ |- _ => destruct H as [? H] | H : _ /\ _ |- _ => destruct H end; cbn in *; lia. }
    destruct Hal as (ex & ph & fee & ty & fm & Ea & Eph & Hb2). rewrite K2 in Hb2.
    cbn [sign] in Hs. bnd Hs x Hx. destruct x as [b3 r]. apply Ok_inj in Hs. apply pair_inj in Hs. destruct Hs as [_ Hr]. apply Some_inj in Hr.
    unfold final_msg in Hx. cbv zeta in Hx. bnd Hx b4 Hb4. apply transition_inv in Hb4. destruct Hb4 as [_ Eb4]. apply Ok_inj in Hx. apply pair_inj in Hx. destruct Hx as [_ Hx].
    pose proof (params_keys _ _ _ _ _ Hp) as (P1 & _ & P3 & _).
    rewrite Hr, Hc, P1, P3 in Hx. subst b4. bsr_in Hx. rewrite K1, Eph in Hx.
    exists c, extra, L, ex, ph, fee, ty, fm. injection Hx as X1 X2 X3.
    split; [exact Hp|]. split; [exact Ea|]. split; [now symmetry|]. split; [now symmetry|]. split; [|auto]. rewrite <- X3, <- X1. reflexivity.
  Qed.

  Lemma final_keys_extra cr t0 d r0 tr t salt rm keys : dh_laws C -> session C cr t0 d r0 (tr ++ [(t, MFinal, RFinal salt rm keys)]) ->
    exists ex ph fee ty fm fs r R add, allouts tr = [(ex, ph, fee, ty, fm)] /\ rm = enc_int C (rnd t 0) /\
      keys = aead_enc C (hmac C salt (keccak2 C (enc_int C (sc_add (spend_priv C cr) (rnd t 0)) ++ ph))) (rndb t 1)
               (enc_int C r ++ concat (map (fun x => enc_int C (fst x)) add)) /\
      parse_extra_fields ex = Ok fs /\ pub_of C d r R /\ (forall k, In (FPub k) fs <-> k = enc_pt C R) /\
      (add = [] /\ (forall ks, ~ In (FAdditional ks) fs) \/
       (forall ks, In (FAdditional ks) fs <-> ks = map (fun x => enc_pt C (snd x)) add) /\ length add = length (outputs tr) /\
       forall i o k P, nth_error (outputs tr) i = Some o -> nth_error add i = Some (k, P) -> add_pub_of C (oa_dst o) k P).
  Proof.
    intros HL H. destruct (final_keys _ _ _ _ _ _ _ _ _ H) as (c & extra & L & ex & ph & fee & ty & fm & Hp & Ha & Es & Erm & Ek & L1 & L2 & L3 & (b1 & B1 & B2 & B3 & B4)).
    pose proof (params_keys _ _ _ _ _ Hp) as (P1 & P2 & P3 & P4). cbv zeta in P4.
    set (ch := match td_change d with Some e => Some (de_addr e) | None => None end) in *.
    destruct (classify_subaddresses (map to_dest (td_outputs d)) ch) as [[nstd nsub] single] eqn:Ecl.
    destruct P4 as (P4 & P5 & (pid & P6)). destruct (pid_extra _ _ _ _ _ HL P6) as (f0 & Ef0 & Hf0). rewrite Ef0 in B2.
    pose proof (extra_fields c b1 f0 L ex HL B1 B2 Hf0 B3 B4) as Hfs.
    assert (Hno : forall f, In f f0 -> exists n, f = FNonce n) by (now apply Forall_forall).
    exists ex, ph, fee, ty, fm. eexists. exists (rnd t0 0), (c_r_pub C c), L. split; [exact Ha|]. split; [exact Erm|]. split; [now rewrite map_map in Ek|]. split; [exact Hfs|].
    split; [|split].
    - destruct ((nstd =? 0) && (nsub =? 1)); [right|left; exact P5]. destruct P5 as (x & D & E1 & E2 & E3). rewrite E1 in Ecl. apply single_in in Ecl.
      destruct Ecl as [X|(e & He & Fe & Ee)]; [discriminate|]. exists e, D. rewrite Ee. auto.
    - intros k. rewrite !in_app_iff. split.
      + intros [X|[[X|[]]|X]]; [apply Hno in X; destruct X; discriminate|now injection X|]. destruct (c_need_additional C c); [destruct X as [X|[]]; discriminate|contradiction].
      + intros ->. right. left. now left.
    - destruct (c_need_additional C c) eqn:En.
      + right. split; [|split; [auto|]].
        * intros k. rewrite !in_app_iff. split; [|intros ->; right; right; now left].
          intros [X|[[X|[]]|[X|[]]]]; [apply Hno in X; destruct X; discriminate|discriminate|now injection X].
        * intros i o k P Ho Hk. destruct (L3 i o Ho) as (add & der & B & mask & lm & b0 & _ & Hq & _). destruct (Hq En) as (k' & P' & D & E1 & _ & E2 & E3).
          rewrite Nat2Z.id, Hk in E1. injection E1 as <- <-. unfold add_pub_of. destruct (truthy (de_is_subaddress (oa_dst o))); [exists D; auto|auto].
      + left. split; [auto|]. intros ks. rewrite !in_app_iff. intros [X|[[X|[]]|[]]]; [apply Hno in X; destruct X; discriminate|discriminate].
  Qed.
End Keys.
