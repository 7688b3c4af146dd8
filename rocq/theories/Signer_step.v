(** One accepted message of a session, as a relation; induction over sessions. *)
From Verif Require Import Py PyLemmas Addr_model Lists_model Lists_spec Signer_model Signer_spec Signer_base Signer_inv.

Section Step.
  Context {C : ops}.

  (** what the range proof step of an output does (tsx_sign_builder.py:1043-1118):
      nothing, or one proof [p] for the pending amounts and masks *)
  Definition rp_rel (c : cfg C) (t : tape) (rsig : option (list Z)) (processing : bool) (i : Z) (am ms : list Z) (h : fhasher)
    (am' ms' : option (list Z)) (h' : fhasher) (out : option (list Z)) (pr : option (bp C)) : Prop :=
    exists bidx last, get_rsig_batch (c_rsig_grp C c) i = Ok bidx /\ is_last_in_batch (c_rsig_grp C c) i bidx = Ok last /\
    match pr with
    | None => (last = false \/ c_rsig_offload C c && is_det_mask C c && negb processing = true) /\
              am' = Some am /\ ms' = Some ms /\ h' = h /\ out = None
    | Some p => last = true /\ (c_rsig_offload C c && is_det_mask C c && negb processing = false) /\
                fh_rsig_val C p h = Ok h' /\ bp_ok c t rsig am ms p out /\
                am' = (if (i + 1 =? c_output_count C c) && (negb (c_rsig_offload C c) || processing) then None else Some []) /\ ms' = am'
    end.

  (** output [i] closes a batch of the grouping *)
  Definition last_of (grp : list Z) (i : Z) : Prop :=
    exists bidx, get_rsig_batch grp i = Ok bidx /\ is_last_in_batch grp i bidx = Ok true.

  Inductive step (c : cfg C) (b : builder C) : tape -> msg -> resp -> builder C -> Prop :=
  | st_input t src real out_key tx_key additional subs xi ki offsets vini tag pseudo_tag ka ks b' :
      (b_state C b = INP_CNT \/ b_state C b = INPUT) -> b_inp_idx C b + 1 < c_input_count C c ->
      py_get (se_outputs src) (se_real_output src) = Ok real -> dec_pt C (re_dest real) = Ok out_key ->
      dec_pt C (se_real_out_tx_key src) = Ok tx_key -> mapM (dec_pt C) (se_additional src) = Ok additional ->
      b_subs C b = Some subs ->
      key_image_helper C (view_priv C (c_creds C c)) (spend_priv C (c_creds C c)) subs out_key tx_key additional
        (se_real_output_in_tx_index src) = Ok (xi, ki) ->
      offsets_to_relative (map re_idx (se_outputs src)) = Ok offsets ->
      dump_vini (if truthy (se_rct src) then 0 else se_amount src) offsets (enc_pt C ki) = Ok vini ->
      gen_hmac_vini C c src vini (b_inp_idx C b + 1) = Ok tag ->
      tag_of C (c_key_hmac C c) d_txin_comm (b_inp_idx C b + 1) (enc_pt C (gen_c C (rnd t 0) (se_amount src))) = Ok pseudo_tag ->
      build_key C (c_key_enc C c) d_txin_alpha (Some (b_inp_idx C b + 1)) = Ok ka ->
      build_key C (c_key_enc C c) d_txin_spend (Some (b_inp_idx C b + 1)) = Ok ks ->
      (let b1 := set_sumpouts C (sc_add (b_sumpouts C b) (rnd t 0))
                  (set_sum_in C (b_sum_in C b + se_amount src) (set_inp_idx C (b_inp_idx C b + 1) (set_state C INPUT b))) in
      b' = if b_inp_idx C b + 1 + 1 =? c_input_count C c
           then set_subs C None (set_state C INPUT_DONE (set_input_last_amount C (se_amount src) b1))
           else b1) ->
      step c b t (MSetInput src) (RSetInput vini tag (enc_pt C (gen_c C (rnd t 0) (se_amount src))) pseudo_tag
            (aead_enc C ka (rndb t 0) (enc_int C (rnd t 0))) (aead_enc C ks (rndb t 1) (enc_int C xi))) b'
  | st_perm t p : b_state C b = INPUT_DONE ->
      step c b t (MPerm p) RPerm (set_inp_idx C (-1) (set_perm C p (set_state C INPUT_PERM b)))
  | st_vini t src vini tag idx p :
      b_inp_idx C b + 1 <= c_input_count C c -> (b_state C b = INPUT_PERM \/ b_state C b = INPUT_VINS) ->
      py_get (b_perm C b) (b_inp_idx C b + 1) = Ok idx -> gen_hmac_vini C c src vini idx = Ok tag -> b_prefix C b = Some p ->
      c_use_bulletproof C c = true ->
      step c b t (MVini src vini tag) RVini (set_prefix C (Some (p ++ vini)) (set_inp_idx C (b_inp_idx C b + 1) (set_state C INPUT_VINS b)))
  | st_allin t o lm : b_state C b = INPUT_VINS -> (is_det_mask C c = true -> lm = b_last_mask C b) ->
      (is_det_mask C c = false -> compute_masks C (set_sumout C 0 (set_state C INPUT_ALL_DONE b)) =
          Ok (set_sumout C 0 (set_last_mask C lm (set_state C INPUT_ALL_DONE b)), o)) ->
      step c b t MAllIn (RAllIn o) (set_sumout C 0 (set_last_mask C lm (set_state C INPUT_ALL_DONE b)))
  | st_offl t dst tag rsig offl am' ms' fu out pr :
      b_inp_idx C b + 1 = c_input_count C c -> is_det_mask C c = true -> b_out_idx C b < c_output_count C c ->
      (c_rsig_offload C c = true \/ b_processing_offloaded C b = true) ->
      (pr = None /\ ~ last_of (c_rsig_grp C c) (b_out_idx C b) /\ am' = b_amounts C b /\ ms' = b_masks C b /\ fu = b_full C b \/
       exists am ms h h', b_amounts C b = Some am /\ b_masks C b = Some ms /\ b_full C b = Some h /\ fu = Some h' /\ pr <> None /\
         rp_rel c t rsig true (b_out_idx C b) am ms h am' ms' h' out pr) ->
      step c b t (MSetOutput dst tag rsig offl) ROffloaded
        (set_amounts C am' (set_masks C ms' (set_full C fu (set_processing_offloaded C true b))))
  | st_out t e tag rsig n am ms p1 key akey mask add der B lm ap aq rsig_out mask_out vtag h4 h4' h5 am' ms' pr b1 b2 b3 b' :
      b_inp_idx C b + 1 = c_input_count C c -> (b_state C b = INPUT_ALL_DONE \/ b_state C b = OUTPUT) ->
      0 <= de_amount e -> b_out_idx C b + 1 < c_output_count C c ->
      gen_hmac_tsxdest C c e (b_out_idx C b + 1) = Ok tag ->
      uvarint (c_output_count C c) = Ok n -> b_amounts C b = Some am -> b_masks C b = Some ms ->
      (if b_out_idx C b + 1 =? 0 then exists p0, b_prefix C b = Some p0 /\ p1 = p0 ++ n else b_prefix C b = Some p1) ->
      b1 = set_sum_out C (b_sum_out C b + de_amount e) (set_amounts C (Some (am ++ [de_amount e]))
         (set_prefix C (Some p1) (set_state C OUTPUT (set_out_idx C (b_out_idx C b + 1) (set_processing_offloaded C false b))))) ->
      s6_additional_keys C t e b1 = Ok (set_add_pub C aq (set_add_priv C ap b1), add) ->
      s6_derivation C e add b1 = Ok der -> dec_pt C (spend_public_key (de_addr e)) = Ok B ->
      key = derive_pub C der (b_out_idx C b + 1) B -> akey = derivation_to_sc C der (b_out_idx C b + 1) ->
      out_mask c (b_out_idx C b + 1) (b_last_mask C b) akey mask ->
      b_full C b = Some h4 ->
      rp_rel c t rsig false (b_out_idx C b + 1) (am ++ [de_amount e]) (ms ++ [mask]) h4 am' ms' h4' rsig_out pr ->
      gen_hmac_vouti C c e ([0; 2] ++ enc_pt C key) (b_out_idx C b + 1) = Ok vtag ->
      fh_set_ecdh (ecdh_bytes C c mask (de_amount e) (enc_int C akey)) h4' = Ok h5 ->
      b2 = set_masks C (Some (ms ++ [mask])) (set_last_mask C lm (set_add_pub C aq (set_add_priv C ap b1))) ->
      b3 = set_amounts C am' (set_masks C ms' (set_full C (Some h4') b2)) ->
      b' = set_output_pk C (b_output_pk C b3 ++ [enc_pt C (gen_c C mask (de_amount e))])
             (set_full C (Some h5) (set_sumout C (sc_add (b_sumout C b3) mask)
               (set_prefix C (Some (p1 ++ [0; 2] ++ enc_pt C key)) b3))) ->
      step c b t (MSetOutput (Some e) tag rsig false)
        (RSetOutput ([0; 2] ++ enc_pt C key) vtag rsig_out mask_out (enc_pt C key ++ enc_pt C (gen_c C mask (de_amount e)))
             (ecdh_bytes C c mask (de_amount e) (enc_int C akey))) b'
  | st_allout t extra n p h rv h0 ph fm :
      b_state C b = OUTPUT -> b_out_idx C b + 1 = c_output_count C c ->
      c_fee C c = b_sum_in C b - b_sum_out C b -> extra_with_keys C b = Ok extra -> b_sum_out C b <= b_sum_in C b ->
      uvarint (zlen extra) = Ok n -> b_prefix C b = Some p -> b_full C b = Some h -> get_rct_type C c = Ok rv ->
      c_output_count C c = zlen (b_output_pk C b) ->
      ph = cn_hash C (p ++ n ++ extra) ->
      fm = cn_hash C ((fh_master h ++ ph) ++ cn_hash C (fh_rct h ++ concat (b_output_pk C b)) ++ cn_hash C (fh_rsig h)) ->
      step c b t MAllOut (RAllOut extra ph (get_fee C c) rv fm)
        (set_full C None (set_full_message C fm (set_out_idx C (-1) (set_inp_idx C (-1) (set_full C (Some h0)
              (set_state C FINAL_MESSAGE (set_prefix C None (set_prefix_hash C ph (set_prefix C (Some (p ++ n ++ extra))
                (set_state C OUTPUT_DONE b))))))))))
  | st_sign t src vini tag po ptag act sct j ka ab sp alpha' pc ks sb mask real P Q sig b' :
      (b_state C b = FINAL_MESSAGE \/ b_state C b = SIGNATURE) -> b_inp_idx C b + 1 < c_input_count C c ->
      py_get (b_perm C b) (b_inp_idx C b + 1) = Ok j -> gen_hmac_vini C c src vini j = Ok tag ->
      build_key C (c_key_enc C c) d_txin_alpha (Some j) = Ok ka -> aead_dec C ka act = Ok ab ->
      (if is_det_mask C c && (j + 1 =? c_input_count C c) then
         let diff := sc_sub (b_sumout C b) (b_sumpouts C b) in
         alpha' = sc_add (dec_int C ab) diff /\ sp = sc_add (b_sumpouts C b) diff /\ sp = b_sumout C b /\
         pc = gen_c C alpha' (b_input_last_amount C b)
       else
         (b_inp_idx C b + 1 + 1 = c_input_count C c -> b_sumpouts C b = b_sumout C b) /\
         tag_of C (c_key_hmac C c) d_txin_comm j po = Ok ptag /\ dec_pt C po = Ok pc /\ alpha' = dec_int C ab /\ sp = b_sumpouts C b) ->
      build_key C (c_key_enc C c) d_txin_spend (Some j) = Ok ks -> aead_dec C ks sct = Ok sb ->
      se_mask src = Some mask -> py_get (se_outputs src) (se_real_output src) = Ok real -> dec_pt C (re_dest real) = Ok P ->
      point_eqb C P (smul_base C (dec_int C sb)) = true -> dec_pt C (re_commitment real) = Ok Q ->
      point_eqb C Q (gen_c C (dec_int C mask) (se_amount src)) = true ->
      mlsag_sign C (b_full_message C b) (se_outputs src) (dec_int C sb) (dec_int C mask) alpha' pc (se_real_output src) (seed t) = Ok sig ->
      (let b1 := set_sumpouts C sp (set_inp_idx C (b_inp_idx C b + 1) (set_state C SIGNATURE b)) in
      b' = if b_inp_idx C b + 1 + 1 =? c_input_count C c then set_state C SIGNATURE_DONE b1 else b1) ->
      step c b t (MSign src vini tag (Some po) ptag (Some act) sct) (RSign sig (enc_pt C pc)) b'
  | st_final t salt rm keys : b_state C b = SIGNATURE_DONE ->
      step c b t MFinal (RFinal salt rm keys) (set_state C FINAL b).

  Lemma range_rel t rsig mask b b' out mo : s6_range_proof C t rsig mask b = Ok (b', out, mo) ->
    exists pr, 
      (pr = None /\ out = None /\ b' = b /\
         exists bidx last, get_rsig_batch (c_rsig_grp C (b_cfg C b)) (b_out_idx C b) = Ok bidx /\
           is_last_in_batch (c_rsig_grp C (b_cfg C b)) (b_out_idx C b) bidx = Ok last /\
           (last = false \/ c_rsig_offload C (b_cfg C b) && is_det_mask C (b_cfg C b) && negb (b_processing_offloaded C b) = true)) \/
      (exists am ms h am' ms' h', pr <> None /\ b_amounts C b = Some am /\ b_masks C b = Some ms /\ b_full C b = Some h /\
         rp_rel (b_cfg C b) t rsig (b_processing_offloaded C b) (b_out_idx C b) am ms h am' ms' h' out pr /\
         b' = set_amounts C am' (set_masks C ms' (set_full C (Some h') b))).
  Proof.
    intros H. apply s6_range_proof_inv in H. destruct H as (bidx & lst & Hb & Hl & [(Hx & Ho & E)|(am & ms & p & h & h' & Hx & Hy & Ha & Hm & Hf & Hv & Hok & E)]).
    - exists None. left. split; [reflexivity|]. split; [exact Ho|]. split; [exact E|]. exists bidx, lst. auto.
    - exists (Some p). right. exists am, ms, h. eexists _, _, h'. split; [discriminate|]. split; [exact Ha|]. split; [exact Hm|]. split; [exact Hf|].
      split; [|exact E]. exists bidx, lst. split; [exact Hb|]. split; [exact Hl|]. split; [exact Hx|]. split; [exact Hy|]. split; [exact Hv|]. split; [exact Hok|]. split; reflexivity.
  Qed.

  Lemma set3_id (b : builder C) am ms h : b_amounts C b = am -> b_masks C b = ms -> b_full C b = h ->
    b = set_amounts C am (set_masks C ms (set_full C h b)).
  Proof. intros <- <- <-. now destruct b. Qed.

  Lemma sign_step t m b b' r : ~ is_init m -> sign C t m b = Ok (b', Some r) -> step (b_cfg C b) b t m r b'.
  Proof.
    intros Hm Hstep. set (c := b_cfg C b).
    destruct m; cbn [is_init] in Hm; try (now exfalso; apply Hm); cbn [sign] in Hstep; bnd Hstep x Hx; destruct x as [b1 r1];
      apply Ok_inj in Hstep; apply pair_inj in Hstep; destruct Hstep as [-> Hr]; apply Some_inj in Hr; subst r1.
    - apply set_input_inv in Hx. cbv zeta in Hx. fold c in Hx. destruct Hx as (?&?&?&?&?&?&?&?&?&?&?&?&?&?&?&?&?&?&?&?&?&?&?&?&?&?&?&Hr&E).
      subst r. eapply st_input; eassumption.
    - apply inputs_permutation_inv in Hx. destruct Hx as (Hst & Hr & E). subst. now constructor.
    - apply input_vini_inv in Hx. cbv zeta in Hx. fold c in Hx. destruct Hx as (idx & p & ? & ? & ? & ? & ? & ? & Hr & E). subst r. rewrite E. econstructor; eassumption.
    - apply all_in_set_inv in Hx. destruct Hx as (o & lm & ? & Hr & E & ? & H1). subst r. rewrite E in H1 |- *. now constructor.
    - apply set_output_inv in Hx. cbv zeta in Hx. fold c in Hx. destruct Hx as (Hinp & [(Hr & Hd & Hlt & Hof & mo & out & b1 & Hrp & E)|Hx]).
      + subst b1. apply range_rel in Hrp. destruct Hrp as (pr & [(-> & -> & E & bi & la & Hb & Hl & Hx)|(am & ms & h & am' & ms' & h' & Hpr & Ha & Hms & Hf & Hrp & E)]).
        * subst r. replace b' with (set_amounts C (b_amounts C b) (set_masks C (b_masks C b) (set_full C (b_full C b) (set_processing_offloaded C true b)))) by (rewrite E; now destruct b).
          eapply (st_offl c b t _ _ _ _ _ _ _ None None); auto.
          left. split; [reflexivity|]. split; [|auto]. intros (bi' & Hb' & Hl'). bsr_in Hb. bsr_in Hl. bsr_in Hx. fold c in Hb, Hl, Hx. rewrite Hb' in Hb. apply Ok_inj in Hb. subst bi'.
          rewrite Hl' in Hl. apply Ok_inj in Hl. subst la. destruct Hx as [Hx|Hx]; [discriminate|]. now rewrite andb_false_r in Hx.
        * subst r. rewrite E. bsr_in Ha. bsr_in Hms. bsr_in Hf. bsr_in Hrp. fold c in Hrp. eapply st_offl with (pr := pr) (out := out); auto. right. exists am, ms, h, h'. auto 10.
      + destruct Hx as (e&nn&am0&p1&b2&key&akey&mask&b3&ro&mo&p3&vt&h4&h5&Hd&Ho&Hst&Ha&Hi&Ht&Hn&Ham&Hp1&Htk&Hrp&Hp3&Hvt&Hh4&Hh5&Hr&E).
        subst dst offloaded_bp r.
        match type of Htk with s6_tx_keys _ _ _ ?q = _ => remember q as b1 eqn:E1 end.
        apply s6_tx_keys_inv in Htk. cbv zeta in Htk. destruct Htk as (ap&aq&lm&mks&add&der&B&Hadd&Hder&HB&Hkey&Hakey&Hmask&Hlm&Hmks&E2).
        assert (Ei1 : b_out_idx C b1 = b_out_idx C b + 1) by (rewrite E1; reflexivity).
        assert (Ec1 : b_cfg C b1 = c) by (rewrite E1; reflexivity).
        assert (Ek1 : b_masks C b1 = b_masks C b) by (rewrite E1; reflexivity).
        assert (El1 : b_last_mask C b1 = b_last_mask C b) by (rewrite E1; reflexivity).
        assert (Ea1 : b_amounts C b1 = Some (am0 ++ [de_amount e])) by (rewrite E1; reflexivity).
        assert (Ef1 : b_full C b1 = b_full C b) by (rewrite E1; reflexivity).
        assert (Ep1 : b_prefix C b1 = p1) by (rewrite E1; reflexivity).
        assert (Eo1 : b_processing_offloaded C b1 = false) by (rewrite E1; reflexivity).
        rewrite Ei1 in Hkey, Hakey, Hmask. rewrite Ec1, El1 in Hmask. rewrite Ek1 in Hmks.
        apply range_rel in Hrp. destruct Hrp as (pr & Hrp).
        assert (Ei : b_out_idx C b2 = b_out_idx C b + 1) by (rewrite E2; exact Ei1).
        assert (Ec : b_cfg C b2 = c) by (rewrite E2; exact Ec1).
        assert (Epo : b_processing_offloaded C b2 = false) by (rewrite E2; exact Eo1).
        assert (Eam : b_amounts C b2 = Some (am0 ++ [de_amount e])) by (rewrite E2; exact Ea1).
        assert (Ems : b_masks C b2 = Some (mks ++ [mask])) by (rewrite E2; reflexivity).
        assert (Efu : b_full C b2 = b_full C b) by (rewrite E2; exact Ef1).
        assert (Epf : b_prefix C b2 = p1) by (rewrite E2; exact Ep1).
        rewrite Ei, Ec, Epo, Eam, Ems, Efu in Hrp.
        assert (exists am' ms' h4' h40, b_full C b = Some h40 /\ rp_rel c t rsig false (b_out_idx C b + 1) (am0 ++ [de_amount e]) (mks ++ [mask]) h40 am' ms' h4' ro pr /\
           b3 = set_amounts C am' (set_masks C ms' (set_full C (Some h4') b2)) /\ h4 = h4') as (am' & ms' & h4' & h40 & Hf & Hrel & E3 & Eh).
        { destruct Hrp as [(-> & -> & E3 & bi & la & Hb & Hl & Hx)|(am & ms & h & am' & ms' & h' & Hpr & Ha' & Hms & Hf & Hrp & E3)].
          - exists (Some (am0 ++ [de_amount e])), (Some (mks ++ [mask])), h4, h4. rewrite E3, Efu in Hh4. split; [exact Hh4|].
            split; [exists bi, la; auto 10|]. split; [|reflexivity]. rewrite E3. apply set3_id; [exact Eam|exact Ems|]. rewrite Efu. exact Hh4.
          - apply Some_inj in Ha'. apply Some_inj in Hms. subst am ms. exists am', ms', h', h. split; [exact Hf|]. split; [exact Hrp|]. split; [exact E3|].
            rewrite E3 in Hh4. apply Some_inj in Hh4. now symmetry. }
        subst h4'.
        assert (Ei3 : b_out_idx C b3 = b_out_idx C b + 1) by (rewrite E3; exact Ei). rewrite Ei3 in Hvt.
        assert (Ep3 : p1 = Some p3) by (rewrite E3 in Hp3; rewrite <- Epf; exact Hp3). subst p1. rewrite Ep3 in E1.
        eapply (st_out c b t e tag rsig nn am0 mks p3 key akey mask add der B lm ap aq ro mo vt h40 h4 h5 am' ms' pr b1 b2 b3 b'); try eassumption.
        destruct (b_out_idx C b + 1 =? 0); [|congruence]. destruct Hp1 as (p0 & Hp0 & E0). exists p0. split; [exact Hp0|]. rewrite Ep3 in E0. apply Some_inj in E0. exact E0.
    - apply all_out_set_inv in Hx. cbv zeta in Hx. fold c in Hx. destruct Hx as (ex&nn&p&h&rv&Hst&?&?&?&?&?&?&?&?&?&Hr&h0&E).
      subst r. rewrite E. econstructor; try eassumption; reflexivity.
    - apply sign_input_inv in Hx. cbv zeta in Hx. fold c in Hx.
      destruct Hx as (act'&po'&?&?&?&?&?&?&?&?&?&?&?&?&sg&Hact&Hpo&?&?&?&?&?&?&?&?&?&?&?&?&?&?&?&?&Hr&E). subst. eapply st_sign; try eassumption. reflexivity.
    - apply final_msg_inv in Hx. destruct Hx as (Hst & E & salt & rm & ks & Hr). subst. now constructor.
  Qed.

  (** a proof sent along with an output, or after it, is accepted at the end of a batch only; there it is required *)
  Definition given (rsig : option (list Z)) : bool := match rsig with Some (_ :: _) => true | _ => false end.
  Lemma range_provided t rsig mask b b' out mo : s6_range_proof C t rsig mask b = Ok (b', out, mo) ->
    if given rsig then last_of (c_rsig_grp C (b_cfg C b)) (b_out_idx C b)
    else c_rsig_offload C (b_cfg C b) = true -> is_det_mask C (b_cfg C b) && negb (b_processing_offloaded C b) = false ->
         ~ last_of (c_rsig_grp C (b_cfg C b)) (b_out_idx C b).
  Proof.
    intros H. unfold s6_range_proof in H. fold (given rsig) in H. bnd_guard H G1. bnd H bidx Hb. bnd H lst Hl. bnd_guard H G2. bnd_guard H G3. clear H.
    destruct (given rsig).
    - exists bidx. split; [exact Hb|]. destruct (c_rsig_offload C (b_cfg C b)), lst; try discriminate; exact Hl.
    - intros Ho Hd (bidx' & Hb' & Hl'). assert (bidx' = bidx) by congruence. subst bidx'. assert (lst = true) by congruence. subst lst. rewrite Ho in G3.
      destruct (is_det_mask C (b_cfg C b)), (b_processing_offloaded C b); discriminate.
  Qed.
  Definition at_batch_end (c : cfg C) (b : builder C) (m : msg) (r : resp) : Prop :=
    match m with
    | MSetOutput _ _ rsig _ =>
        match r with
        | ROffloaded => if given rsig then last_of (c_rsig_grp C c) (b_out_idx C b) else c_rsig_offload C c = true -> ~ last_of (c_rsig_grp C c) (b_out_idx C b)
        | _ => if given rsig then last_of (c_rsig_grp C c) (b_out_idx C b + 1)
               else c_rsig_offload C c = true -> is_det_mask C c = false -> ~ last_of (c_rsig_grp C c) (b_out_idx C b + 1)
        end
    | _ => True
    end.
  Lemma sign_provided t m b b' r : sign C t m b = Ok (b', Some r) -> at_batch_end (b_cfg C b) b m r.
  Proof.
    intros H. destruct m as [| | | | |dst tag rsig offl| | |]; try exact I. cbn [sign] in H. bnd H z Hz. destruct z as [b1 r1].
    apply Ok_inj in H. apply pair_inj in H. destruct H as [-> Hr]. apply Some_inj in Hr. subst r1. cbn [at_batch_end].
    apply set_output_inv in Hz. cbv zeta in Hz. destruct Hz as (_ & [(-> & _ & _ & _ & mo & out & b2 & Hrp & _)|Hx]).
    - apply range_provided in Hrp. destruct (given rsig); [exact Hrp|]. intros Ho. apply (Hrp Ho). bsr. now rewrite andb_false_r.
    - destruct Hx as (e&nn&am0&p1&b2&key&akey&mask&b3&ro&mo&p3&vt&h4&h5&_&_&_&_&_&_&_&_&_&Htk&Hrp&_&_&_&_&->&_).
      apply range_provided in Hrp. apply s6_tx_keys_inv in Htk. cbv zeta in Htk. destruct Htk as (ap&aq&lm&mks&add&der&B&_&_&_&_&_&_&_&_&E2). subst b2.
      destruct (given rsig); [exact Hrp|]. intros Ho Hd. apply (Hrp Ho). bsr. unfold is_det_mask in *. bsr. now rewrite Hd.
  Qed.

  (** induction over sessions *)
  Lemma sess_invariant_end (I : cfg C -> list Z -> list event -> builder C -> Prop) cr t0 d r0 :
    (forall c extra v u n rv h h' tags subs, answer t0 = true -> init_params C t0 cr d = Ok (c, extra) ->
      uvarint 2 = Ok v -> uvarint (td_unlock_time d) = Ok u -> uvarint (c_input_count C c) = Ok n ->
      get_rct_type C c = Ok rv -> fh_init (c_use_simple C c) fh_new = Ok h ->
      fh_set_type_fee rv (get_fee C c) h = Ok h' ->
      mapM (fun '(idx, e) => gen_hmac_tsxdest C c e idx) (combine (zrange (c_output_count C c)) (td_outputs d)) = Ok tags ->
      r0 = RInit tags (c_rsig_offload C c) ->
      I c extra [] (set_subs C subs (set_full C (Some h') (set_prefix C (Some (v ++ u ++ n)) (set_cfg C c (set_extra C extra (set_state C INP_CNT (new_builder C cr)))))))) ->
    (forall c extra tr b t m r b', init_params C t0 cr d = Ok (c, extra) -> sess cr t0 d r0 tr b -> b_cfg C b = c -> b_extra C b = extra ->
      phase (c_input_count C c) (c_output_count C c) tr b -> I c extra tr b -> step c b t m r b' -> at_batch_end c b m r -> I c extra (tr ++ [(t, m, r)]) b') ->
    forall tr b, sess cr t0 d r0 tr b -> exists c extra, init_params C t0 cr d = Ok (c, extra) /\ b_cfg C b = c /\ b_extra C b = extra /\
      phase (c_input_count C c) (c_output_count C c) tr b /\ I c extra tr b.
  Proof.
    intros Hi Hs tr b H. pose proof (sess_phase _ _ _ _ _ _ H) as (c & extra & Hp & Hc & He & Hph). exists c, extra.
    split; [exact Hp|]. split; [exact Hc|]. split; [exact He|]. split; [exact Hph|]. clear Hc He Hph.
    induction H as [b H|tr b t m r b' H IH Hm Hstep].
    - apply init_inv in H. destruct H as (c'&extra'&v&u&n&rv&h&h'&tags&sb&?&Hp'&?&?&?&?&?&?&?&?&E).
      rewrite Hp in Hp'. apply Ok_inj in Hp'. apply pair_inj in Hp'. destruct Hp' as [<- <-]. rewrite E. eapply Hi; eassumption.
    - pose proof (sess_phase _ _ _ _ _ _ H) as (c' & extra' & Hp' & Hc & He & Hph). rewrite Hp in Hp'. apply Ok_inj in Hp'. apply pair_inj in Hp'. destruct Hp' as [<- <-].
      eapply Hs; try eassumption; rewrite <- Hc; [now apply sign_step|eapply sign_provided; eassumption].
  Qed.
  Lemma sess_invariant (I : cfg C -> list Z -> list event -> builder C -> Prop) cr t0 d r0 :
    (forall c extra v u n rv h h' tags subs, answer t0 = true -> init_params C t0 cr d = Ok (c, extra) ->
      uvarint 2 = Ok v -> uvarint (td_unlock_time d) = Ok u -> uvarint (c_input_count C c) = Ok n ->
      get_rct_type C c = Ok rv -> fh_init (c_use_simple C c) fh_new = Ok h ->
      fh_set_type_fee rv (get_fee C c) h = Ok h' ->
      mapM (fun '(idx, e) => gen_hmac_tsxdest C c e idx) (combine (zrange (c_output_count C c)) (td_outputs d)) = Ok tags ->
      r0 = RInit tags (c_rsig_offload C c) ->
      I c extra [] (set_subs C subs (set_full C (Some h') (set_prefix C (Some (v ++ u ++ n)) (set_cfg C c (set_extra C extra (set_state C INP_CNT (new_builder C cr)))))))) ->
    (forall c extra tr b t m r b', init_params C t0 cr d = Ok (c, extra) -> sess cr t0 d r0 tr b -> b_cfg C b = c -> b_extra C b = extra ->
      phase (c_input_count C c) (c_output_count C c) tr b -> I c extra tr b -> step c b t m r b' -> I c extra (tr ++ [(t, m, r)]) b') ->
    forall tr b, sess cr t0 d r0 tr b -> exists c extra, init_params C t0 cr d = Ok (c, extra) /\ b_cfg C b = c /\ b_extra C b = extra /\
      phase (c_input_count C c) (c_output_count C c) tr b /\ I c extra tr b.
  Proof. intros Hi Hs. apply sess_invariant_end; [exact Hi|]. intros. eapply Hs; eassumption. Qed.
End Step.
