(** C68: every recipient can find and open its output.  C53 on the device: the transaction keys handed over
    at the end.  C26 on the device: which purpose key is used where. *)
From Verif Require Import Py PyLemmas Addr_model Extra_model Signer_model Signer_spec Signer_base Signer_props Agent_model Signer_toy Complete_toy KeySep_model Keys_spec Keys_proof Keys_device.

Strategy 1000 [device_events].

(** ** Sessions used as examples *)
Definition sub_dst (am s a : Z) : dst_entry :=
  {| de_amount := am; de_addr := {| spend_public_key := enc32 s; view_public_key := enc32 ((s * a) mod ell) |};
     de_is_subaddress := Some true; de_original := None; de_is_integrated := None |}.
Definition std_dst (am s a : Z) : dst_entry :=
  toy_dst am {| spend_public_key := enc32 s; view_public_key := enc32 (a mod ell) |}.
Definition sub_tx (dsts : list dst_entry) (ch : dst_entry) : construction :=
  {| tc_payment_id := None; tc_unlock_time := 0; tc_dsts := dsts; tc_change := Some ch;
     tc_sources := [toy_src 1 100]; tc_account := Some 0; tc_minor := [0];
     tc_use_bulletproofs := true; tc_hf := 10; tc_client_version := 1 |}.
Definition run_of (dsts : list dst_entry) (ch : dst_entry) : list event := device_events (toy_msgs (sub_tx dsts ch)).
(** two sub-addresses and a standard address, and the change *)
Definition many_dsts := [sub_dst 10 31 71; std_dst 11 32 72; sub_dst 12 33 73; toy_dst 9 toy_addr].
Definition many := run_of many_dsts (toy_dst 9 toy_addr).
(** one sub-address, and the change *)
Definition one_dsts := [sub_dst 10 31 71; toy_dst 9 toy_addr].
Definition one := run_of one_dsts (toy_dst 9 toy_addr).
(** no change, but the change address of the request is the first recipient's *)
Definition sweep_dsts := [std_dst 10 32 72; std_dst 9 34 74].
Definition sweep := run_of sweep_dsts (std_dst 0 32 72).
Lemma many_check : session_check many = true. Proof. vm_compute. reflexivity. Qed.
Lemma one_check : session_check one = true. Proof. vm_compute. reflexivity. Qed.
Lemma sweep_check : session_check sweep = true. Proof. vm_compute. reflexivity. Qed.
Notation sess_of ev := (session toy_ops toy_creds (ev_t0 ev) (ev_d ev) (ev_r0 ev) (ev_tr ev)).
Lemma many_session : sess_of many. Proof. exact (checked_session _ many eq_refl many_check). Qed.
Lemma one_session : sess_of one. Proof. exact (checked_session _ one eq_refl one_check). Qed.
Lemma sweep_session : sess_of sweep. Proof. exact (checked_session _ sweep eq_refl sweep_check). Qed.

Lemma toy_mod x : 0 <= x mod ell < ell. Proof. apply Z.mod_pos_bound. reflexivity. Qed.
Lemma toy_dh : dh_laws toy_ops.
Proof.
  constructor.
  - intros a r. change (((a mod ell) * r) mod ell = ((r mod ell) * a) mod ell). rewrite !Z.mul_mod_idemp_l by discriminate. now rewrite Z.mul_comm.
  - intros D a r. change ((((D * a) mod ell) * r) mod ell = (((D * r) mod ell) * a) mod ell). rewrite !Z.mul_mod_idemp_l by discriminate. f_equal. rewrite <- !Z.mul_assoc. f_equal. apply Z.mul_comm.
  - intros r. exact (toy_dec (r mod ell) (toy_mod r)).
  - intros x D k _. exact (toy_dec ((D * k) mod ell) (toy_mod _)).
  - intros P. exact (enc32_len P).
  - intros p P r H. change (length (map (fun '(a, b) => Z.lxor a b) (combine p (thash (enc32 (toy_kd P r))))) = 8%nat).
    rewrite map_length, combine_length, H. unfold thash. rewrite enc32_len. reflexivity.
Qed.

(** ** C68 *)
(** Whoever holds the view secret of a destination's address computes, from the extra field the device
    returned, a secret that recognises the output as its own and opens its amount.  Destinations are those of
    the signed request (C19: the device accepts no others unless a tag was forged); two destinations with the
    same address carry the same sub-address flag; and if the request names the destination's address as
    the change address then it is the wallet's own. *)
Theorem C68_recipient_finds_output_partial (C : ops) (cr : creds C) t0 d r0 tr ex ph fee ty fm i o a D : dh_laws C ->
  session C cr t0 d r0 tr -> In (ex, ph, fee, ty, fm) (allouts tr) ->
  nth_error (outputs tr) i = Some o -> In (oa_dst o) (td_outputs d) ->
  Forall (fun e => length (spend_public_key (de_addr e)) = 32%nat) (td_outputs d) ->
  (forall e1 e2, In e1 (td_outputs d) -> In e2 (td_outputs d) -> de_addr e1 = de_addr e2 ->
     truthy (de_is_subaddress e1) = truthy (de_is_subaddress e2)) ->
  address_of C (oa_dst o) a D ->
  (forall ch, td_change d = Some ch -> de_addr ch = de_addr (oa_dst o) -> a = view_priv C cr) ->
  exists c extra s, init_params C t0 cr d = Ok (c, extra) /\ can_compute C ex a i s /\ opens_output C c i o D s (de_amount (oa_dst o)).
Proof.
  intros HL H Hin Ho Hd H32 Hf Ha Hch. apply in_allouts in Hin. destruct Hin as (tr1 & t & ex' & ph' & fee' & ty' & fm' & tr2 & E & Etr).
  injection E as <- <- <- <- <-. subst tr. pose proof H as Hs. apply session_sess in Hs. destruct Hs as (b & Hs).
  destruct (allout_cut _ _ _ _ _ _ _ _ _ Hs) as (b1 & b2 & c & extra & _ & _ & _ & _ & _ & _ & _ & N2 & _).
  rewrite Signer_inv.outputs_app in Ho. cbn [outputs flat_map] in Ho. fold (outputs tr2) in Ho. rewrite N2, !app_nil_r in Ho.
  exact (recipient cr t0 d r0 tr1 t ex ph fee ty fm tr2 i o D a HL H Ho Hd H32 Hf Ha Hch).
Qed.

Lemma dst_in o (l : list dst_entry) i e : map oa_dst o = l -> nth_error l i = Some e -> exists x, nth_error o i = Some x /\ oa_dst x = e.
Proof. intros <-. rewrite nth_error_map. destruct (nth_error o i); [|discriminate]. intros [= <-]. eauto. Qed.
Lemma many_d : td_outputs (ev_d many) = many_dsts /\ map oa_dst (outputs (ev_tr many)) = many_dsts /\ td_change (ev_d many) = Some (toy_dst 9 toy_addr) /\ length (allouts (ev_tr many)) = 1%nat.
Proof. split; [|split; [|split]]; vm_compute; reflexivity. Qed.
Lemma one_d : td_outputs (ev_d one) = one_dsts /\ map oa_dst (outputs (ev_tr one)) = one_dsts /\ td_change (ev_d one) = Some (toy_dst 9 toy_addr) /\ length (allouts (ev_tr one)) = 1%nat.
Proof. split; [|split; [|split]]; vm_compute; reflexivity. Qed.
Lemma sweep_d : td_outputs (ev_d sweep) = sweep_dsts /\ map oa_dst (outputs (ev_tr sweep)) = sweep_dsts /\ td_change (ev_d sweep) = Some (std_dst 0 32 72) /\ length (allouts (ev_tr sweep)) = 1%nat.
Proof. split; [|split; [|split]]; vm_compute; reflexivity. Qed.
Lemma sub_address am s a : 0 <= s < ell -> address_of toy_ops (sub_dst am s a) a s.
Proof. intros H. split; [exact (toy_dec s H)|exact (toy_dec ((s * a) mod ell) (toy_mod _))]. Qed.
Lemma std_address am s a : 0 <= s < ell -> address_of toy_ops (std_dst am s a) a s.
Proof. intros H. split; [exact (toy_dec s H)|exact (toy_dec (a mod ell) (toy_mod _))]. Qed.
Lemma own_address am : address_of toy_ops {| de_amount := am; de_addr := toy_addr; de_is_subaddress := Some true; de_original := None; de_is_integrated := None |} 1001 2002.
Proof. split; [exact (toy_dec 2002 ltac:(now split))|exact (toy_dec ((2002 * 1001) mod ell) (toy_mod _))]. Qed.
Definition flags_agree (l : list dst_entry) : bool :=
  forallb (fun e1 => forallb (fun e2 => negb (addr_eqb (de_addr e1) (de_addr e2)) || Bool.eqb (truthy (de_is_subaddress e1)) (truthy (de_is_subaddress e2))) l) l.
Lemma flags_ok l : flags_agree l = true -> forall e1 e2, In e1 l -> In e2 l -> de_addr e1 = de_addr e2 ->
  truthy (de_is_subaddress e1) = truthy (de_is_subaddress e2).
Proof.
  unfold flags_agree. rewrite forallb_forall. intros H e1 e2 H1 H2 E. specialize (H e1 H1). rewrite forallb_forall in H. specialize (H e2 H2).
  apply orb_prop in H. destruct H as [H|H]; [|now apply Bool.eqb_prop in H]. assert (addr_eqb (de_addr e1) (de_addr e2) = true) by now apply Addr_proof.addr_eqb_spec. rewrite H0 in H. discriminate.
Qed.
Lemma lens_ok l : forallb (fun e => zlen (spend_public_key (de_addr e)) =? 32) l = true -> Forall (fun e => length (spend_public_key (de_addr e)) = 32%nat) l.
Proof. rewrite forallb_forall. intros H. apply Forall_forall. intros e He. specialize (H e He). unfold zlen in H. lia. Qed.
(** the hypotheses of C68 about destination [i] of a session *)
Definition C68_case (ev : list event) (i : nat) (a D : Z) : Prop :=
  exists ex ph fee ty fm o, In (ex, ph, fee, ty, fm) (allouts (ev_tr ev)) /\ nth_error (outputs (ev_tr ev)) i = Some o /\ In (oa_dst o) (td_outputs (ev_d ev)) /\
  Forall (fun e => length (spend_public_key (de_addr e)) = 32%nat) (td_outputs (ev_d ev)) /\
  (forall e1 e2, In e1 (td_outputs (ev_d ev)) -> In e2 (td_outputs (ev_d ev)) -> de_addr e1 = de_addr e2 -> truthy (de_is_subaddress e1) = truthy (de_is_subaddress e2)) /\
  address_of toy_ops (oa_dst o) a D.
Lemma case_of ev l ch i e a D : td_outputs (ev_d ev) = l /\ map oa_dst (outputs (ev_tr ev)) = l /\ td_change (ev_d ev) = Some ch /\ length (allouts (ev_tr ev)) = 1%nat ->
  nth_error l i = Some e -> forallb (fun e => zlen (spend_public_key (de_addr e)) =? 32) l = true -> flags_agree l = true -> address_of toy_ops e a D -> C68_case ev i a D.
Proof.
  intros (E1 & E2 & E3 & E4) He H32 Hf Ha. destruct (allouts (ev_tr ev)) as [|[[[[ex ph] fee] ty] fm] [|]] eqn:Eal; try discriminate.
  destruct (dst_in _ _ _ _ E2 He) as (o & Ho & Eo). exists ex, ph, fee, ty, fm, o. rewrite E1, Eo. split; [rewrite Eal; left; reflexivity|]. split; [exact Ho|].
  split; [eapply nth_error_In, He|]. split; [now apply lens_ok|]. split; [now apply flags_ok|exact Ha].
Qed.
(** a sub-address and a standard address among several, and a sub-address alone *)
Example C68_ex : dh_laws toy_ops /\ sess_of many /\ C68_case many 2 73 33 /\ C68_case many 1 72 32 /\ sess_of one /\ C68_case one 0 71 31.
Proof.
  split; [exact toy_dh|]. split; [exact many_session|]. split; [|split; [|split; [exact one_session|]]].
  - eapply case_of; [exact many_d|reflexivity|vm_compute; reflexivity|vm_compute; reflexivity|]. apply (sub_address 12 33 73). now split.
  - eapply case_of; [exact many_d|reflexivity|vm_compute; reflexivity|vm_compute; reflexivity|]. apply (std_address 11 32 72). now split.
  - eapply case_of; [exact one_d|reflexivity|vm_compute; reflexivity|vm_compute; reflexivity|]. apply (sub_address 10 31 71). now split.
Qed.

(** Without the condition on the change address it is false: a request without change (amount 0, two
    destinations) may name a recipient's address as change address, which the device does not check
    (tsx_sign_builder.py:201-212).  The output is then derived with the wallet's own view key and its owner
    cannot recognise it. *)
Definition unfindable (ex : list Z) (a : Z) (i : nat) (D : Z) (out : list Z) : bool :=
  match parse_extra_fields ex with
  | Ok fs => forallb (fun f => match f with
      | FPub x => negb (zlist_eqb out ([0; 2] ++ enc32 ((D + toy_dsc (toy_kd (le_int x) a) (Z.of_nat i)) mod ell)))
      | FNonce _ => true
      | FAdditional _ => false end) fs
  | Err _ => false
  end.
Lemma unfindable_ok ex a i D o c am : unfindable ex a i D (oa_tx_out o) = true ->
  forall s, can_compute toy_ops ex a i s -> ~ opens_output toy_ops c i o D s am.
Proof.
  intros H s (fs & Hp & Hs) (mask & Ho & _). unfold unfindable in H. rewrite Hp in H. rewrite forallb_forall in H. destruct Hs as [(x & R & Hx & HR & Es)|(ks & x & K & Hx & _)].
  - specialize (H _ Hx). cbn beta iota in H. apply toy_dec_inv in HR. subst R s. rewrite Ho in H.
    change ([0; 2] ++ enc_pt toy_ops (derive_pub toy_ops (key_derivation toy_ops (le_int x) a) (Z.of_nat i) D)) with ([0; 2] ++ enc32 ((D + toy_dsc (toy_kd (le_int x) a) (Z.of_nat i)) mod ell)) in H.
    rewrite zlist_eqb_refl in H. discriminate.
  - specialize (H _ Hx). discriminate.
Qed.
Definition lost (al : list (list Z * list Z * Z * Z * list Z)) (os : list output_ack) : bool :=
  match al, os with
  | [(ex, _, _, _, _)], o :: _ => unfindable ex 72 0 32 (oa_tx_out o)
  | _, _ => false
  end.
Lemma sweep_lost : lost (allouts (ev_tr sweep)) (outputs (ev_tr sweep)) = true. Proof. vm_compute. reflexivity. Qed.
Lemma lost_ok al os ex ph fee ty fm o : lost al os = true -> In (ex, ph, fee, ty, fm) al -> nth_error os 0 = Some o -> unfindable ex 72 0 32 (oa_tx_out o) = true.
Proof.
  unfold lost. intros H H1 H2. destruct al as [|[[[[ex' ph'] fee'] ty'] fm'] [|]]; try discriminate. destruct H1 as [H1|[]]. injection H1 as -> -> -> -> ->.
  destruct os as [|o' os]; [discriminate|]. cbn [nth_error] in H2. apply Some_inj in H2. subst o'. exact H.
Qed.
Theorem C68_change_address_refuted : exists (C : ops) (cr : creds C) t0 d r0 tr ex ph fee ty fm i o a D, dh_laws C /\
  session C cr t0 d r0 tr /\ In (ex, ph, fee, ty, fm) (allouts tr) /\ nth_error (outputs tr) i = Some o /\ In (oa_dst o) (td_outputs d) /\
  Forall (fun e => length (spend_public_key (de_addr e)) = 32%nat) (td_outputs d) /\
  (forall e1 e2, In e1 (td_outputs d) -> In e2 (td_outputs d) -> de_addr e1 = de_addr e2 -> truthy (de_is_subaddress e1) = truthy (de_is_subaddress e2)) /\
  address_of C (oa_dst o) a D /\
  forall c extra s, init_params C t0 cr d = Ok (c, extra) -> can_compute C ex a i s -> ~ opens_output C c i o D s (de_amount (oa_dst o)).
Proof.
  assert (Hc : C68_case sweep 0 72 32).
  { eapply case_of; [exact sweep_d|reflexivity|vm_compute; reflexivity|vm_compute; reflexivity|]. apply (std_address 10 32 72). now split. }
  exists toy_ops, toy_creds, (ev_t0 sweep), (ev_d sweep), (ev_r0 sweep), (ev_tr sweep).
  destruct Hc as (ex & ph & fee & ty & fm & o & H1 & H2 & H3 & H4 & H5 & H6). exists ex, ph, fee, ty, fm, 0%nat, o, 72, 32.
  split; [exact toy_dh|]. split; [exact sweep_session|]. do 6 (split; [assumption|]).
  intros c extra s _. apply unfindable_ok. exact (lost_ok _ _ _ _ _ _ _ _ sweep_lost H1 H2).
Qed.
Print Assumptions C68_recipient_finds_output_partial.
Print Assumptions C68_change_address_refuted.

(** ** C53 on the device *)
(** The last answer seals, under a key only the holder of the spend secret can compute from it and the prefix
    hash, exactly the private keys of the public keys in the extra field. *)
Theorem C53_device_final (C : ops) (cr : creds C) t0 d r0 tr t salt rm keys : dh_laws C -> codec_laws C -> 0 <= rnd t 0 < ell ->
  session C cr t0 d r0 (tr ++ [(t, MFinal, RFinal salt rm keys)]) ->
  exists ex ph fee ty fm fs r R add, allouts tr = [(ex, ph, fee, ty, fm)] /\
    aead_dec C (hmac C salt (keccak2 C (enc_int C (sc_add (spend_priv C cr) (dec_int C rm)) ++ ph))) keys =
      Ok (enc_int C r ++ concat (map (fun x => enc_int C (fst x)) add)) /\
    parse_extra_fields ex = Ok fs /\ pub_of C d r R /\ (forall k, In (FPub k) fs <-> k = enc_pt C R) /\
    (add = [] /\ (forall ks, ~ In (FAdditional ks) fs) \/
     (forall ks, In (FAdditional ks) fs <-> ks = map (fun x => enc_pt C (snd x)) add) /\ length add = length (outputs tr) /\
     forall i o k P, nth_error (outputs tr) i = Some o -> nth_error add i = Some (k, P) -> add_pub_of C (oa_dst o) k P).
Proof.
  intros HL HC Hr H. destruct (final_keys_extra _ _ _ _ _ _ _ _ _ HL H) as (ex & ph & fee & ty & fm & fs & r & R & add & H1 & H2 & H3 & H4).
  exists ex, ph, fee, ty, fm, fs, r, R, add. split; [exact H1|]. split; [|exact H4]. rewrite H2, (law_int C HC) by exact Hr. rewrite H3. apply (law_aead C HC).
Qed.
Print Assumptions C53_device_final.
Definition ends_final (ev : list event) : bool :=
  match ev_last ev with (t, MFinal, RFinal _ _ _) => (0 <=? rnd t 0) && (rnd t 0 <? ell) | _ => false end.
Lemma many_final : ends_final (ev_tr many) = true. Proof. vm_compute. reflexivity. Qed.
Lemma ends_split tr n : ends_final tr = true -> length (outputs tr) = n ->
  exists tr' t salt rm keys, tr = tr' ++ [(t, MFinal, RFinal salt rm keys)] /\ 0 <= rnd t 0 < ell /\ length (outputs tr') = n.
Proof.
  intros H L. destruct tr as [|e tr0 _] using rev_ind; [vm_compute in H; discriminate|]. unfold ends_final, ev_last in H. rewrite last_last in H.
  destruct e as [[t m] r]. destruct m; try discriminate. destruct r; try discriminate. exists tr0, t. do 3 eexists. split; [reflexivity|]. apply andb_prop in H. split; [lia|].
  rewrite Signer_inv.outputs_app in L. cbn [outputs flat_map app] in L. now rewrite app_nil_r in L.
Qed.
Lemma many_outputs : length (outputs (ev_tr many)) = 4%nat. Proof. vm_compute. reflexivity. Qed.
Example C53_device_ex : exists tr t salt rm keys, session toy_ops toy_creds (ev_t0 many) (ev_d many) (ev_r0 many) (tr ++ [(t, MFinal, RFinal salt rm keys)]) /\
  0 <= rnd t 0 < ell /\ length (outputs tr) = 4%nat.
Proof.
  pose proof many_session as Hs. destruct (ends_split _ _ many_final many_outputs) as (tr & t & salt & rm & keys & E & H). exists tr, t, salt, rm, keys. rewrite <- E. split; [exact Hs|exact H].
Qed.

(** ** C26 on the device *)
(** Every tag and every sealed value the device returns is made with the key of its purpose and of the index of
    its input or output, and it accepts only such values back. *)
Theorem C26_device_inputs (C : ops) (cr : creds C) t0 d r0 tr : session C cr t0 d r0 tr -> exists c extra, init_params C t0 cr d = Ok (c, extra) /\
  forall i a, nth_error (inputs tr) i = Some a ->
    (exists s, dump_src (ia_src a) = Ok s /\ tagged C c HmacTxin (Z.of_nat i) (cn_hash C (s ++ ia_vini a)) (ia_tag a)) /\
    tagged C c HmacTxinComm (Z.of_nat i) (ia_pseudo a) (ia_pseudo_tag a) /\
    sealed C c EncTxinAlpha (Z.of_nat i) (rndb (ia_tape a) 0) (enc_int C (rnd (ia_tape a) 0)) (ia_alpha_ct a) /\
    exists x, sealed C c EncSpend (Z.of_nat i) (rndb (ia_tape a) 1) (enc_int C x) (ia_spend_ct a).
Proof. exact (device_inputs cr t0 d r0 tr). Qed.
Theorem C26_device_signatures (C : ops) (cr : creds C) t0 d r0 tr : session C cr t0 d r0 tr -> exists c extra, init_params C t0 cr d = Ok (c, extra) /\
  forall i s, nth_error (signs tr) i = Some s -> exists p j, In p (perms tr) /\ py_get p (Z.of_nat i) = Ok j /\
    (exists x, dump_src (sa_src s) = Ok x /\ tagged C c HmacTxin j (cn_hash C (x ++ sa_vini s)) (sa_tag s)) /\
    (exists a, unsealed C c EncTxinAlpha j (sa_alpha_ct s) a) /\
    (exists x real P, unsealed C c EncSpend j (sa_spend_ct s) x /\ py_get (se_outputs (sa_src s)) (se_real_output (sa_src s)) = Ok real /\
       dec_pt C (re_dest real) = Ok P /\ point_eqb C P (smul_base C (dec_int C x)) = true) /\
    (tagged C c HmacTxinComm j (sa_pseudo s) (sa_pseudo_tag s) \/ is_det_mask C c = true /\ j + 1 = c_input_count C c).
Proof. exact (device_signs cr t0 d r0 tr). Qed.
Theorem C26_device_destinations (C : ops) (cr : creds C) t0 d tags ofl tr : session C cr t0 d (RInit tags ofl) tr ->
  exists c extra, init_params C t0 cr d = Ok (c, extra) /\ length tags = length (td_outputs d) /\
  forall i e tag, nth_error (td_outputs d) i = Some e -> nth_error tags i = Some tag ->
    exists s, dump_dst e = Ok s /\ tagged C c HmacTxdst (Z.of_nat i) (cn_hash C s) tag.
Proof. exact (device_dsts cr t0 d tags ofl tr). Qed.
Theorem C26_device_outputs (C : ops) (cr : creds C) t0 d r0 tr1 t dst tg rs ofl vout vtag ro mo pk ec tr2 :
  session C cr t0 d r0 (tr1 ++ (t, MSetOutput dst tg rs ofl, RSetOutput vout vtag ro mo pk ec) :: tr2) ->
  let i := Z.of_nat (length (outputs tr1)) in
  exists c extra e, init_params C t0 cr d = Ok (c, extra) /\ dst = Some e /\
    (exists s, dump_dst e = Ok s /\ tagged C c HmacTxdst i (cn_hash C s) tg /\ tagged C c HmacTxout i (cn_hash C (s ++ vout)) vtag) /\
    (is_det_mask C c = false -> i + 1 < c_output_count C c ->
      exists k P, purpose_key C (c_key_hmac C c) (c_key_enc C c) OutMask (Some i) = Ok k /\
        pk = enc_pt C P ++ enc_pt C (gen_c C (dec_int C k) (de_amount e))).
Proof. exact (device_vouts cr t0 d r0 tr1 t dst tg rs ofl vout vtag ro mo pk ec tr2). Qed.
Print Assumptions C26_device_inputs.
Print Assumptions C26_device_signatures.
Print Assumptions C26_device_destinations.
Print Assumptions C26_device_outputs.
Example C26_device_ex : sess_of many /\ (length (inputs (ev_tr many)), length (signs (ev_tr many)), length (outputs (ev_tr many))) = (1, 1, 4)%nat.
Proof. split; [exact many_session|vm_compute; reflexivity]. Qed.
