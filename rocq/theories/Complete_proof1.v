(** Completeness of the signing protocol, first half: the device accepts the honest agent's init message, inputs,
    permutation, serialised inputs and end-of-inputs message. *)
From Verif Require Import Py PyLemmas Protobuf_model Protobuf_spec Protobuf_proof Addr_model Addr_spec Addr_proof Lists_model Lists_spec Lists_proof
  Signer_model Signer_spec Signer_base Signer_inv2 Signer_props Signer_props2 Signer_props3 KeySep_proof Agent_model Complete_spec.
From Coq Require Import Permutation.

Lemma uvarint_ok n : 0 <= n -> uvarint n = Ok (varint n).
Proof. intros H. unfold uvarint. rewrite dump_uvarint_bytes. now replace (n <? 0) with false by lia. Qed.
Lemma build_key_ok C s d i : length s = 32%nat -> (length d <= 10)%nat -> 0 <= i < 2 ^ 42 -> exists m, build_key C s d (Some i) = Ok (keccak2 C m).
Proof.
  intros Hs Hd Hi. unfold build_key. rewrite key_buffer_ok by lia. pose proof (varint_fits i Hi).
  replace (zlen d + zlen (varint i) <=? 16) with true by (unfold zlen at 1; lia). cbn [bind]. eauto.
Qed.
Lemma tag_of_ok C s d i m : length s = 32%nat -> (length d <= 10)%nat -> 0 <= i < 2 ^ 42 -> exists tg, tag_of C s d i m = Ok tg.
Proof. intros Hs Hd Hi. unfold tag_of. destruct (build_key_ok C s d i Hs Hd Hi) as (k & ->). cbn [bind]. eauto. Qed.
Lemma dump_dst_ok e : dst_ok e -> exists b, dump_dst e = Ok b.
Proof. intros H. destruct (message_round_trip (fun _ => true) _ _ (dst_fits (fun _ => true) _ H)) as (b & E & _). exists b. exact E. Qed.

Lemma Forall_map' {A B} (f : A -> B) (P : B -> Prop) l : Forall (fun a => P (f a)) l -> Forall P (map f l).
Proof. induction 1; cbn; constructor; auto. Qed.
Lemma src_fits s : src_ok s -> message_fits (fun _ => true) src_schema (src_message s).
Proof.
  intros (H1 & H2 & H3 & H4 & H5 & H6 & H7 & H8 & H9). constructor.
  - split; [|repeat constructor; cbn; lia]. repeat (constructor; [cbn; intuition lia|]). constructor.
  - unfold src_message, src_schema.
    repeat (apply Forall2_cons; [cbn [fst snd]; split; [intros Hx; try discriminate Hx|]|]); try apply Forall2_nil; try (cbn; lia); try (repeat constructor; assumption).
    + apply Forall_map'. revert H1. apply Forall_impl. intros r (R1 & R2 & R3). constructor.
      * split; [|repeat constructor; cbn; lia]. repeat (constructor; [cbn; intuition lia|]). constructor.
      * repeat (apply Forall2_cons; [cbn [fst snd]; split; [intros _; cbn; lia|]|]); try apply Forall2_nil.
        -- repeat constructor; assumption.
        -- constructor; [|constructor]. constructor.
           ++ split; [|repeat constructor; cbn; lia]. repeat (constructor; [cbn; intuition lia|]). constructor.
           ++ repeat (apply Forall2_cons; [cbn [fst snd]; split; [intros _; cbn; lia|repeat constructor; assumption]|]). apply Forall2_nil.
    + apply Forall_map'. revert H4. apply Forall_impl. intros r R. constructor. exact R.
    + destruct (se_rct s); cbn; lia.
    + destruct (se_rct s); cbn; repeat constructor.
    + destruct (se_mask s); cbn; lia.
    + destruct (se_mask s); cbn; repeat constructor. assumption.
    + rewrite H8. cbn. lia.
    + rewrite H8. constructor.
    + destruct (se_subaddr_minor s); cbn; lia.
    + destruct (se_subaddr_minor s); cbn; repeat constructor. assumption.
Qed.
Lemma dump_src_ok s : src_ok s -> exists b, dump_src s = Ok b.
Proof. intros H. destruct (message_round_trip _ _ _ (src_fits s H)) as (b & E & _). exists b. exact E. Qed.
Lemma dump_vini_ok s ki : src_ok s -> (0 < length (se_outputs s))%nat ->
  exists offs v, offsets_to_relative (map re_idx (se_outputs s)) = Ok offs /\
    dump_vini (if truthy (se_rct s) then 0 else se_amount s) offs ki = Ok v.
Proof.
  intros Hs Hl. destruct (offsets_spec (map re_idx (se_outputs s))) as (r & so & E & _ & Hp & Hsum & Hlen & Ht).
  exists r. assert (Hr : Forall (fun d => 0 <= d) r).
  { destruct r as [|a r]; [constructor|]. constructor; [|exact Ht]. cbn [sums] in Hsum. assert (Hin : In a (map re_idx (se_outputs s))).
    { apply Permutation_in with so; [now symmetry|]. rewrite <- Hsum. left. lia. }
    apply in_map_iff in Hin. destruct Hin as (e & <- & He). destruct Hs as (H1 & _). rewrite Forall_forall in H1. now apply H1. }
  unfold dump_vini. rewrite uvarint_ok by (destruct Hs as (_ & _ & _ & _ & _ & H & _); destruct (truthy (se_rct s)); lia). cbn [bind].
  rewrite uvarint_ok by apply zlen_nonneg. cbn [bind].
  assert (exists os, mapM uvarint r = Ok os) as (os & ->).
  { exists (map varint r). apply mapM_all_ok. intros a Ha. apply uvarint_ok. rewrite Forall_forall in Hr. now apply Hr. }
  cbn [bind]. eauto.
Qed.

Lemma firstn_snoc_nth {A} (l : list A) k a : nth_error l k = Some a -> firstn (S k) l = firstn k l ++ [a].
Proof. apply firstn_S_nth. Qed.
Lemma nth_zrange n i : (i < Z.to_nat n)%nat -> nth_error (zrange n) i = Some (Z.of_nat i).
Proof.
  intros H. unfold zrange. rewrite nth_error_map, (nth_error_nth' _ 0%nat) by (rewrite seq_length; lia). rewrite seq_nth by lia. reflexivity.
Qed.
Lemma mapM_nth {A B} (f : A -> res B) l : (forall a, In a l -> exists b, f a = Ok b) ->
  exists r, mapM f l = Ok r /\ length r = length l /\ forall i a, nth_error l i = Some a -> exists b, nth_error r i = Some b /\ f a = Ok b.
Proof.
  induction l as [|a l IH]; intros H.
  - exists []. split; [reflexivity|]. split; [reflexivity|]. intros [|i] a; discriminate.
  - destruct (H a (or_introl eq_refl)) as (b & Hb). destruct IH as (r & Hr & Hl & Hn); [intros; apply H; now right|].
    exists (b :: r). cbn [mapM]. rewrite Hb. cbn [bind]. rewrite Hr. cbn [bind]. split; [reflexivity|]. split; [cbn; lia|].
    intros [|i] a' E; [injection E as <-; exists b; split; [reflexivity|exact Hb]|]. exact (Hn i a' E).
Qed.

Section Complete.
  Context (C : ops) (cr : creds C) (tp : nat -> tape) (x : construction).
  Context (L : prim_laws C) (W : well_formed C cr x) (T : honest_tapes tp).
  Notation n := (zlen (tc_sources x)).
  Notation m := (zlen (tc_dsts x)).
  Notation rr := (rnd (tp 0%nat) 0).

  (** a message the device executes is answered *)
  Lemma call_ok msg b ev b' r : ~ is_init msg -> sign C (tp (length ev)) msg b = Ok (b', Some r) -> is_terminal C b' = false -> r <> RFailure ->
    call C cr tp msg (Some b, ev) = Ok ((Some b', ev ++ [(tp (length ev), msg, r)]), r).
  Proof.
    intros Hi H Ht Hr. unfold call, tsx_sign. assert ((match msg with MInit _ => new_builder C cr | _ => b end) = b) as -> by (destruct msg; try reflexivity; now elim Hi).
    rewrite H, Ht. destruct r; try reflexivity. now elim Hr.
  Qed.

  (** ** The init message *)
  Definition cfg_ok (c : cfg C) (grp : list Z) : Prop :=
    c_creds C c = cr /\ length (c_key_hmac C c) = 32%nat /\ length (c_key_enc C c) = 32%nat /\ c_r C c = rr /\
    (c_r_pub C c = smul_base C rr \/ exists D e', In e' (tc_dsts x) /\ dec_pt C (spend_public_key (de_addr e')) = Ok D /\ c_r_pub C c = smul C D rr) /\
    c_use_bulletproof C c = true /\ c_input_count C c = n /\ c_output_count C c = m /\ c_change C c = tc_change x /\
    c_fee C c = zsum (map se_amount (tc_sources x)) - zsum (map de_amount (tc_dsts x)) /\
    c_client_version C c = tc_client_version x /\ c_bp_version C c = (if 10 <=? tc_hf x then 2 else 1) /\
    c_rsig_grp C c = grp /\ c_rsig_offload C c = (2 <? m).
  Definition grp_ok (grp : list Z) : Prop :=
    zsum grp = m /\ Forall (fun g => 0 < g <= 16) grp /\ (m <= 16 -> grp = [m]).
  Definition tags_ok (c : cfg C) (tags : list (list Z)) : Prop :=
    forall i e, nth_error (tc_dsts x) i = Some e -> exists tg, nth_error tags i = Some tg /\ gen_hmac_tsxdest C c e (Z.of_nat i) = Ok tg.

  Lemma zsum_map_ok {A} (f : A -> Z) l : zsum_map f l = zsum (map f l).
  Proof.
    unfold zsum_map. assert (G : forall a, fold_left (fun a x => a + f x) l a = a + zsum (map f l)); [|rewrite G; lia].
    induction l as [|y l IH]; intros a; [cbn; lia|]. cbn [map fold_left]. rewrite IH, zsum_cons. lia.
  Qed.
  Lemma grp_exists : exists grp, generate_rsig_batch_sizes (get_rsig_type (tc_use_bulletproofs x) m) m = Ok grp /\ grp_ok grp.
  Proof.
    destruct W as (_ & Wd & _ & Wb & _). rewrite Wb. destruct (auto_type_ok true m ltac:(lia)) as (g & E & Hs & Hb). exists g. split; [exact E|].
    split; [exact Hs|]. split; [revert Hb; apply Forall_impl; intros a (H & _); exact H|].
    intros H16. revert Hs Hb. unfold get_rsig_type. cbn [negb]. replace (16 <? m) with false by lia. intros Hs Hb.
    destruct g as [|a g]; [cbn in Hs; lia|]. inversion Hb as [|? ? Ha Hg]; subst. destruct Ha as (Ha & _ & _ & Ha3). specialize (Ha3 eq_refl).
    destruct g as [|a' g]; [now rewrite Ha3|]. inversion Hg as [|? ? Ha' Hg']; subst. destruct Ha' as (Ha' & _).
    rewrite !zsum_cons in Hs. assert (0 <= zsum g). { clear -Hg'. induction Hg' as [|y g (Hy & _) _ IH]; [cbn; lia|]. rewrite zsum_cons. lia. } lia.
  Qed.
  Lemma wf_dst e : In e (tc_dsts x) -> payable C e.
  Proof. intros H. destruct W as (_ & _ & _ & _ & _ & _ & Wd & _). rewrite Forall_forall in Wd. auto. Qed.
  Lemma wf_src s : In s (tc_sources x) -> src_ok s /\ owned C cr x s.
  Proof. intros H. destruct W as (_ & _ & _ & _ & _ & Ws & _). rewrite Forall_forall in Ws. auto. Qed.

  Lemma check_change_ok : check_change C cr (tc_account x) (tc_dsts x) (tc_change x) = Ok tt.
  Proof.
    destruct W as (_ & _ & _ & _ & _ & _ & _ & Wc & _). unfold check_change, change_ok in *. destruct (tc_change x) as [ch|]; [|reflexivity].
    destruct Wc as [[H1 H2]|[(a & Ha & Hk) (e & He & Ee)]].
    - cbn [option_map]. pose proof (change_idx_spec (map to_dest (tc_dsts x)) (to_dest ch)) as S. destruct (get_change_addr_idx _ _) as [i|].
      + destruct S as (k & o & _ & _ & _ & _ & S & _). now elim S.
      + replace (de_amount ch =? 0) with true by lia. replace (zlen (tc_dsts x) =? 2) with true by lia. reflexivity.
    - destruct (_ && _ && _); [reflexivity|]. assert (existsb (fun o => addr_eqb (de_addr o) (de_addr ch)) (tc_dsts x) = true) as ->.
      { apply existsb_exists. exists e. split; [exact He|]. now apply addr_eqb_spec. }
      cbn [guard bind]. unfold primary_change_address. rewrite Ha. destruct (sub_addr_keys _ _ _ _ _) as [D V]. cbn [bind fst snd] in *. rewrite Hk.
      rewrite (proj2 (addr_eqb_spec _ _) eq_refl). reflexivity.
  Qed.

  (** the destination loop ends with the address of a recipient *)
  Definition null_addr : pubaddr := {| spend_public_key := null_key; view_public_key := null_key |}.
  Definition ch_addr : option pubaddr := match tc_change x with Some e => Some (de_addr e) | None => None end.
  Lemma recipient_iff e : recipient x e <-> In e (tc_dsts x) /\ de_amount e <> 0 /\ ch_addr <> Some (de_addr e).
  Proof.
    unfold recipient, ch_addr. destruct (tc_change x) as [ch|].
    - split; intros (H1 & H2 & H3); (split; [exact H1|]; split; [exact H2|]); congruence.
    - split; intros (H1 & H2 & H3); (split; [exact H1|]; split; [exact H2|]); [discriminate|exact I].
  Qed.
  Lemma dest_loop hp l : (forall e, In e l -> In e (tc_dsts x)) ->
    forall a k, (k = 0 /\ a = null_addr \/ 0 < k /\ exists e, recipient x e /\ a = de_addr e) ->
    (hp = true -> forall e e', recipient x e -> recipient x e' -> de_addr e = de_addr e') ->
    exists a' k', dest_view_loop l ch_addr hp a k = Some (a', k') /\ k <= k' /\
      (k' = 0 /\ a' = null_addr \/ 0 < k' /\ exists e, recipient x e /\ a' = de_addr e) /\
      ((exists e, In e l /\ recipient x e) -> 0 < k').
  Proof.
    induction l as [|e l IH]; intros Hin a k Ha Hp; cbn [dest_view_loop].
    { exists a, k. split; [reflexivity|]. split; [lia|]. split; [exact Ha|]. intros (e & [] & _). }
    assert (Hin' : forall e, In e l -> In e (tc_dsts x)) by (intros; apply Hin; now right).
    destruct (de_amount e =? 0) eqn:E0.
    { destruct (IH Hin' a k Ha Hp) as (a' & k' & H1 & H2 & H3 & H4). exists a', k'. repeat split; auto.
      intros (e' & [<-|He'] & Hr); [destruct Hr as (_ & Hr & _); lia|eauto]. }
    destruct (match ch_addr with Some ch => addr_eqb (de_addr e) ch | None => false end) eqn:Ech.
    { destruct (IH Hin' a k Ha Hp) as (a' & k' & H1 & H2 & H3 & H4). exists a', k'. repeat split; auto.
      intros (e' & [<-|He'] & Hr); [|eauto]. apply recipient_iff in Hr. destruct Hr as (_ & _ & Hr). destruct ch_addr as [ch|]; [|discriminate]. apply addr_eqb_spec in Ech. congruence. }
    assert (Hr : recipient x e).
    { apply recipient_iff. split; [apply Hin; now left|]. split; [lia|]. intros Hc. rewrite Hc in Ech. rewrite (proj2 (addr_eqb_spec _ _) eq_refl) in Ech. discriminate. }
    destruct (addr_eqb (de_addr e) a) eqn:Ea.
    { apply addr_eqb_spec in Ea. destruct (IH Hin' a k Ha Hp) as (a' & k' & H1 & H2 & H3 & H4). exists a', k'. repeat split; auto.
      intros _. destruct Ha as [[_ ->]|[Hk _]]; [|lia]. exfalso. destruct (wf_dst e (Hin e (or_introl eq_refl))) as (_ & _ & _ & Hv & _). rewrite Ea in Hv. now apply Hv. }
    destruct ((0 <? k) && hp) eqn:Ek.
    { exfalso. apply andb_prop in Ek. destruct Ek as [Ek1 Ek2]. destruct Ha as [[-> _]|[_ (e' & He' & ->)]]; [discriminate|].
      rewrite (Hp Ek2 e e' Hr He') in Ea. rewrite (proj2 (addr_eqb_spec _ _) eq_refl) in Ea. discriminate. }
    destruct (IH Hin' (de_addr e) (k + 1)) as (a' & k' & H1 & H2 & H3 & H4).
    { right. split; [destruct Ha as [[-> _]|[Hk _]]; lia|]. eauto. }
    { exact Hp. }
    exists a', k'. split; [exact H1|]. split; [lia|]. split; [exact H3|]. intros _. destruct Ha as [[-> _]|[Hk _]]; lia.
  Qed.
  Lemma pid8 p V a e : length p = 8%nat -> recipient x e -> a = de_addr e -> V = view_public_key a ->
    exists ex, (let* (extra_nonce, extra_prefix) :=
          (if zlen p =? 8 then
             let* _ := guard (negb (zlist_eqb V null_key)) ValueError in
             let* V := dec_pt C V in
             Ok (encrypt_pid C p V rr, 1)
           else if zlen p =? 32 then Ok (p, 0)
           else Err ValueError) in
        let* _ := guard (zlen extra_nonce <? 255) ValueError in
        Ok (Some p, [2; zlen extra_nonce + 1; extra_prefix] ++ extra_nonce)) = Ok (Some p, ex).
  Proof.
    intros Hp (He & _) -> ->. replace (zlen p =? 8) with true by (unfold zlen; lia).
    destruct (wf_dst e He) as (_ & _ & _ & Hv & _ & (A & HA)).
    assert (zlist_eqb (view_public_key (de_addr e)) null_key = false) as ->.
    { destruct (zlist_eqb _ _) eqn:E; [|reflexivity]. apply zlist_eqb_spec in E. now elim Hv. }
    cbn [negb guard bind]. rewrite HA. cbn [bind]. pose proof (pl_pid_len C L p A rr Hp) as Hl.
    replace (zlen (encrypt_pid C p A rr) <? 255) with true by (unfold zlen; lia). cbn [guard bind]. eauto.
  Qed.
  Lemma payment_ok d : td_payment_id d = tc_payment_id x -> td_outputs d = tc_dsts x ->
    exists pid ex, process_payment_id C d ch_addr rr = Ok (pid, ex).
  Proof.
    intros E1 E2. destruct W as (_ & _ & _ & _ & _ & _ & _ & _ & ((e0 & He0) & Wp) & _).
    assert (HL : forall hp, (hp = true -> forall e e', recipient x e -> recipient x e' -> de_addr e = de_addr e') ->
      exists k' e, dest_view_loop (tc_dsts x) ch_addr hp null_addr 0 = Some (de_addr e, k') /\ recipient x e).
    { intros hp Hp. destruct (dest_loop hp (tc_dsts x) (fun e H => H) null_addr 0 (or_introl (conj eq_refl eq_refl)) Hp) as (a' & k' & H1 & _ & H3 & H4).
      destruct H3 as [[-> _]|[_ (e & He & ->)]]; [|eauto]. assert (0 < 0); [|lia]. apply H4. exists e0. split; [apply He0|exact He0]. }
    unfold process_payment_id, dest_view_key. fold null_addr. rewrite E1, E2.
    destruct (tc_payment_id x) as [[|p0 p]|].
    - cbn [pid_present negb orb]. destruct (HL false ltac:(discriminate)) as (k' & e & -> & He). cbn [andb].
      destruct (k' <=? 1); [|eauto]. change (Some (repeat 0 8)) with (Some (0 :: repeat 0 7)).
      destruct (pid8 (0 :: repeat 0 7) (view_public_key (de_addr e)) (de_addr e) e eq_refl He eq_refl eq_refl) as (ex & Hex). exists (Some (repeat 0 8)), ex. exact Hex.
    - cbn [pid_present negb orb]. destruct Wp as [Wp|[Wp|[Wp Hu]]]; [discriminate| |].
      + replace (zlen (p0 :: p) =? 8) with false by (unfold zlen; lia). cbv iota zeta beta. assert (Ea : (zlen (p0 :: p) =? 8) = false) by (unfold zlen; lia). assert (Eb : (zlen (p0 :: p) =? 32) = true) by (unfold zlen; lia). rewrite Ea, Eb. cbn [bind].
        replace (zlen (p0 :: p) <? 255) with true by (unfold zlen; lia). cbn [guard bind]. eauto.
      + replace (zlen (p0 :: p) =? 8) with true by (unfold zlen; lia). destruct (HL true ltac:(intros _; exact Hu)) as (k' & e & -> & He).
        cbn [pid_present negb andb].
        destruct (pid8 (p0 :: p) (view_public_key (de_addr e)) (de_addr e) e Wp He eq_refl eq_refl) as (ex & Hex). exists (Some (p0 :: p)), ex.
        exact Hex.
    - cbn [pid_present negb orb]. destruct (HL false ltac:(discriminate)) as (k' & e & -> & He). cbn [andb].
      destruct (k' <=? 1); [|eauto]. change (Some (repeat 0 8)) with (Some (0 :: repeat 0 7)).
      destruct (pid8 (0 :: repeat 0 7) (view_public_key (de_addr e)) (de_addr e) e eq_refl He eq_refl eq_refl) as (ex & Hex). exists (Some (repeat 0 8)), ex. exact Hex.
  Qed.
  Definition h0 (simple : bool) (ty fee : Z) : fhasher :=
    {| fh_simple := simple; fh_state := 2; fh_master := []; fh_rsig := []; fh_rct := [ty] ++ varint fee |}.
  Definition pre0 : list Z := varint 2 ++ varint (tc_unlock_time x) ++ varint n.
  Definition ty0 : Z := if 10 <=? tc_hf x then 4 else 3.

  Lemma init_params_ok d grp : agent_init x = Ok d -> generate_rsig_batch_sizes (get_rsig_type (tc_use_bulletproofs x) m) m = Ok grp ->
    exists c ex, init_params C (tp 0%nat) cr d = Ok (c, ex) /\ cfg_ok c grp.
  Proof.
    intros Hd Hg. unfold agent_init in Hd. rewrite Hg in Hd. cbn [bind] in Hd. apply Ok_inj in Hd.
    destruct W as (Wn & Wm & Wu & Wb & Wv & _).
    unfold init_params. subst d. cbn [td_payment_id td_unlock_time td_outputs td_change td_num_inputs td_fee td_account td_minor_indices td_client_version td_rsig_type td_grouping td_bp_version].
    rewrite check_change_ok. cbn [bind]. fold ch_addr.
    set (d := {| td_payment_id := _ |}). destruct (payment_ok d eq_refl eq_refl) as (pid & ex & Hp).
    rewrite classify_spec by (apply Forall_map'; apply Forall_forall; intros e He; apply (wf_dst e He)).
    set (l := distinct_dests ch_addr (map to_dest (tc_dsts x))). cbn zeta.
    set (nstd := count (fun d => negb (d_is_subaddress d)) l). set (nsub := count d_is_subaddress l).
    cbv iota beta. fold nstd nsub.
    match goal with |- context [let* r_pub := ?e in _] => assert (exists R, e = Ok R /\ (R = smul_base C rr \/ exists D e', In e' (tc_dsts x) /\ dec_pt C (spend_public_key (de_addr e')) = Ok D /\ R = smul C D rr)) as (R & HR & HR') end.
    { destruct ((nstd =? 0) && (nsub =? 1)) eqn:E; [|eauto]. destruct (last_sub_single l None) as (dd & Hin & _ & ->); [unfold nsub in E; lia|].
      assert (Hin' : In (d_addr dd) (map d_addr (map to_dest (tc_dsts x)))).
      { apply (proj2 (distinct_from_spec (map to_dest (tc_dsts x)) [] ch_addr)). apply in_map. exact Hin. }
      rewrite map_map in Hin'. apply in_map_iff in Hin'. destruct Hin' as (e & Ee & He). destruct (wf_dst e He) as (_ & _ & _ & _ & (B & HB) & _).
      rewrite <- Ee. change (d_addr (to_dest e)) with (de_addr e). rewrite HB. cbn [bind]. exists (smul C B rr). split; [reflexivity|]. right. eauto. }
    rewrite HR. cbn [bind]. rewrite Hp. cbn [bind]. destruct (sec_keys C d pid rr (rnd (tp 0%nat) 1)) as [kh ke] eqn:Ek.
    unfold sec_keys in Ek. apply pair_inj in Ek. destruct Ek as [<- <-].
    eexists _, ex. split; [reflexivity|]. unfold cfg_ok. cbn [c_creds c_key_hmac c_key_enc c_r c_r_pub c_use_bulletproof c_input_count c_output_count c_change c_fee c_client_version c_bp_version c_rsig_grp c_rsig_offload].
    rewrite !zsum_map_ok, Wb. repeat (split; [first [reflexivity | apply (pl_keccak_len C L) | exact HR']|]).
    assert (Et : (0 <? get_rsig_type true m) = true) by (unfold get_rsig_type; cbn [negb]; destruct (16 <? m); reflexivity).
    rewrite Et. repeat split. destruct (10 <=? tc_hf x); reflexivity.
  Qed.
  (** the device after the init message *)
  Lemma init_ok st : exists d grp c ex tags s, agent_init x = Ok d /\ td_grouping d = grp /\ grp_ok grp /\ cfg_ok c grp /\ tags_ok c tags /\
    call C cr tp (MInit d) (st, []) = Ok ((Some (Build_builder C c INP_CNT (-1) (-1) false 0 0 0 [] (Some []) (Some []) None 0 0 (Some (table C cr x)) ex []
      (Some pre0) [] (Some (h0 s ty0 (get_fee C c))) [] [] []), [(tp 0%nat, MInit d, RInit tags (2 <? m))]), RInit tags (2 <? m)).
  Proof.
    destruct grp_exists as (grp & Hg & Gok). assert (exists d, agent_init x = Ok d) as (d & Hd) by (unfold agent_init; rewrite Hg; cbn [bind]; eauto).
    destruct (init_params_ok d grp Hd Hg) as (c & ex & Hp & Cok). assert (Cok' := Cok). destruct Cok' as (C1 & C2 & C3 & C4 & C5 & C6 & C7 & C8 & C9 & C10 & C11 & C12 & C13 & C14).
    destruct W as (Wn & Wm & Wu & Wb & Wv & _).
    assert (Ed : td_unlock_time d = tc_unlock_time x /\ td_outputs d = tc_dsts x /\ td_grouping d = grp /\ td_account d = tc_account x /\ td_minor_indices d = tc_minor x).
    { unfold agent_init in Hd. rewrite Hg in Hd. cbn [bind] in Hd. apply Ok_inj in Hd. subst d. repeat split. }
    destruct Ed as (D1 & D2 & D3 & D4 & D5).
    assert (exists tags, mapM (fun '(idx, e) => gen_hmac_tsxdest C c e idx) (combine (zrange m) (tc_dsts x)) = Ok tags /\ tags_ok c tags) as (tags & Ht & Htags).
    { destruct (mapM_nth (fun '(idx, e) => gen_hmac_tsxdest C c e idx) (combine (zrange m) (tc_dsts x))) as (tags & H1 & H2 & H3).
      - intros [i e] Hin. assert (Hi := in_combine_l _ _ _ _ Hin). apply In_zrange in Hi. apply in_combine_r in Hin. unfold gen_hmac_tsxdest.
        destruct (dump_dst_ok e (proj1 (wf_dst e Hin))) as (bs & ->). cbn [bind]. apply tag_of_ok; [exact C2|cbn; lia|lia].
      - exists tags. split; [exact H1|]. intros i e He. assert (i < length (tc_dsts x))%nat by (apply nth_error_Some; congruence).
        apply (H3 i (Z.of_nat i, e)). apply nth_combine; [|exact He]. apply nth_zrange. unfold zlen. lia. }
    exists d, grp, c, ex, tags, (c_use_simple C c). split; [exact Hd|]. split; [exact D3|]. split; [exact Gok|]. split; [exact Cok|]. split; [exact Htags|].
    unfold call, tsx_sign, sign, init_transaction. cbn [length].
    unfold transition at 1. cbn [new_builder b_state existsb tstate_beq orb guard bind b_cfg new_cfg c_creds].
    destruct T as [Ta _]. rewrite Ta. cbn [negb]. unfold transition at 1. bsr. cbn [existsb tstate_beq orb guard bind].
    change (b_state C (new_builder C cr)) with START. cbn [tstate_beq orb].
    rewrite Hp. cbn [bind]. rewrite !uvarint_ok by lia. cbn [bind].
    unfold prefix_add. bsr. cbn [bind new_builder b_prefix app]. unfold full_do at 1. bsr. cbn [bind new_builder b_full fh_init fh_new fh_state Z.eqb guard].
    assert (Er : get_rct_type C c = Ok ty0).
    { unfold get_rct_type, ty0. rewrite C12. destruct (10 <=? tc_hf x); reflexivity. }
    rewrite Er. cbn [bind]. unfold full_do at 1. bsr. unfold fh_set_type_fee. cbn [fh_state Z.eqb Pos.eqb guard bind].
    rewrite uvarint_ok by (unfold get_fee; destruct (0 <? c_fee C c) eqn:E; lia). cbn [bind]. rewrite C8, D2, Ht. cbn [bind].
    rewrite C14. unfold is_terminal.
    unfold table. rewrite D4, D5, D1, C7. destruct (tc_account x) as [a|]; [|reflexivity]. destruct (tc_minor x) as [|mi mis]; reflexivity.
  Qed.

  (** ** The inputs *)
  Context (c : cfg C) (grp : list Z) (ex : list Z) (Cok : cfg_ok c grp) (Gok : grp_ok grp).
  Definition alpha (j : nat) : Z := rnd (tp (S j)) 0.
  Definition asum (k : nat) : Z := fold_left sc_add (map alpha (seq 0 k)) 0.
  Definition in_sum (k : nat) : Z := zsum (map se_amount (firstn k (tc_sources x))).
  Definition last_amount : Z := match nth_error (tc_sources x) (length (tc_sources x) - 1) with Some s => se_amount s | None => 0 end.
  Definition Bin (h : fhasher) (k : nat) : builder C :=
    Build_builder C c (match k with O => INP_CNT | _ => if Z.of_nat k =? n then INPUT_DONE else INPUT end) (Z.of_nat k - 1) (-1) false
      (if Z.of_nat k =? n then last_amount else 0) (in_sum k) 0 [] (Some []) (Some []) None 0 (asum k)
      (if Z.of_nat k =? n then None else Some (table C cr x)) ex [] (Some pre0) [] (Some h) [] [] [].
  (** what the agent keeps of input [j] lets the device find it again *)
  Definition in_ok (j : nat) (i : in_data) : Prop :=
    nth_error (tc_sources x) j = Some (id_src i) /\ gen_hmac_vini C c (id_src i) (id_vini i) (Z.of_nat j) = Ok (id_tag i) /\
    id_pseudo i = enc_pt C (gen_c C (alpha j) (se_amount (id_src i))) /\
    tag_of C (c_key_hmac C c) d_txin_comm (Z.of_nat j) (id_pseudo i) = Ok (id_pseudo_tag i) /\
    exists ka ks xi real P mask Q,
      build_key C (c_key_enc C c) d_txin_alpha (Some (Z.of_nat j)) = Ok ka /\ aead_dec C ka (id_alpha i) = Ok (enc_int C (alpha j)) /\
      build_key C (c_key_enc C c) d_txin_spend (Some (Z.of_nat j)) = Ok ks /\ aead_dec C ks (id_spend i) = Ok (enc_int C xi) /\
      0 <= xi < ell /\ py_get (se_outputs (id_src i)) (se_real_output (id_src i)) = Ok real /\ dec_pt C (re_dest real) = Ok P /\
      point_eqb C P (smul_base C xi) = true /\ se_mask (id_src i) = Some mask /\ dec_pt C (re_commitment real) = Ok Q /\
      point_eqb C Q (gen_c C (dec_int C mask) (se_amount (id_src i))) = true /\
      forall msg al sd, 0 <= al < ell -> exists sg,
        mlsag_sign C msg (se_outputs (id_src i)) xi (dec_int C mask) al (gen_c C al (se_amount (id_src i))) (se_real_output (id_src i)) sd = Ok sg.

  Lemma set_input_ok h k s : nth_error (tc_sources x) k = Some s ->
    exists v tg po ptg al sp, set_input C (tp (S k)) s (Bin h k) = Ok (Bin h (S k), RSetInput v tg po ptg al sp) /\
      in_ok k {| id_src := s; id_vini := v; id_tag := tg; id_pseudo := po; id_pseudo_tag := ptg; id_alpha := al; id_spend := sp |}.
  Proof.
    intros Hs. assert (Hk : (k < length (tc_sources x))%nat) by (apply nth_error_Some; congruence).
    destruct (wf_src s (nth_error_In _ _ Hs)) as (So & real & P & TT & add & xi & ki & mask & Q & O1 & O2 & O3 & O4 & O5 & O6 & O7 & O8 & O9 & O10 & O11).
    destruct Cok as (C1 & C2 & C3 & C4 & C5 & C6 & C7 & C8 & C9 & C10 & C11 & C12 & C13 & C14).
    destruct W as (Wn & _).
    assert (Hro : 0 <= se_real_output s) by apply So.
    assert (Hlen : (Z.to_nat (se_real_output s) < length (se_outputs s))%nat) by (apply nth_error_Some; congruence).
    assert (Hreal : py_get (se_outputs s) (se_real_output s) = Ok real) by (apply py_get_nonneg; assumption).
    destruct (dump_vini_ok s (enc_pt C ki) So ltac:(lia)) as (offs & v & Hoff & Hv).
    destruct (dump_src_ok s So) as (sbs & Hsb).
    assert (Hz : 0 <= Z.of_nat k < 2 ^ 42) by (unfold zlen in Wn; lia).
    destruct (tag_of_ok C (c_key_hmac C c) d_txin (Z.of_nat k) (cn_hash C (sbs ++ v)) C2 ltac:(cbn; lia) Hz) as (tg & Htg).
    set (po := enc_pt C (gen_c C (alpha k) (se_amount s))).
    destruct (tag_of_ok C (c_key_hmac C c) d_txin_comm (Z.of_nat k) po C2 ltac:(cbn; lia) Hz) as (ptg & Hptg).
    destruct (build_key_ok C (c_key_enc C c) d_txin_alpha (Z.of_nat k) C3 ltac:(cbn; lia) Hz) as (ka & Hka).
    destruct (build_key_ok C (c_key_enc C c) d_txin_spend (Z.of_nat k) C3 ltac:(cbn; lia) Hz) as (ks & Hks).
    exists v, tg, po, ptg, (aead_enc C (keccak2 C ka) (rndb (tp (S k)) 0) (enc_int C (alpha k))), (aead_enc C (keccak2 C ks) (rndb (tp (S k)) 1) (enc_int C xi)).
    split.
    - unfold set_input, transition, Bin. bsr. replace (Z.of_nat k =? n) with false by (unfold zlen; lia).
      assert (existsb (tstate_beq (match k with O => INP_CNT | S _ => INPUT end)) [INP_CNT; INPUT] = true) as -> by (destruct k; reflexivity).
      cbn [guard bind]. bsr. rewrite C7. replace (Z.of_nat k - 1 + 1) with (Z.of_nat k) by lia. replace (Z.of_nat k <? n) with true by (unfold zlen; lia). cbn [guard bind].
      replace (se_real_output s <? zlen (se_outputs s)) with true by (unfold zlen; lia). cbn [guard bind]. rewrite Hreal. cbn [bind]. rewrite O2. cbn [bind]. rewrite O3. cbn [bind]. rewrite O4. cbn [bind].
      rewrite C1, O5. cbn [bind]. rewrite Hoff. cbn [bind]. rewrite Hv. cbn [bind]. unfold gen_hmac_vini. rewrite Hsb. cbn [bind]. rewrite Htg. cbn [bind].
      fold (alpha k). fold po. rewrite Hptg. cbn [bind]. rewrite Hka. cbn [bind]. rewrite Hks. cbn [bind].
      replace (Z.of_nat (S k)) with (Z.of_nat k + 1) by lia. replace (Z.of_nat k + 1 - 1) with (Z.of_nat k) by lia.
      assert (Ei : in_sum k + se_amount s = in_sum (S k)).
      { unfold in_sum. rewrite (firstn_snoc_nth _ _ _ Hs), map_app. cbn [map]. rewrite Lists_proof.zsum_app, zsum_cons. cbn. lia. }
      assert (Es : sc_add (asum k) (alpha k) = asum (S k)) by (unfold asum; rewrite seq_S, map_app, fold_left_app; reflexivity).
      destruct (Z.of_nat k + 1 =? n) eqn:E; cbn [bind].
      + unfold tsx_inputs_done, transition. bsr. cbn [existsb tstate_beq orb guard bind]. bsr. rewrite C7, E. cbn [guard bind].
        assert (last_amount = se_amount s) as ->; [|now rewrite Ei, Es].
        unfold last_amount. replace (length (tc_sources x) - 1)%nat with k by (unfold zlen in E; lia). now rewrite Hs.
      + bsr. now rewrite Ei, Es.
    - unfold in_ok. cbn [id_src id_vini id_tag id_pseudo id_pseudo_tag id_alpha id_spend]. split; [exact Hs|]. split; [unfold gen_hmac_vini; rewrite Hsb; exact Htg|].
      split; [reflexivity|]. split; [exact Hptg|].
      exists (keccak2 C ka), (keccak2 C ks), xi, real, P, mask, Q. repeat (split; [first [assumption | apply (law_aead C (pl_codec C L))]|]). exact O11.
  Qed.

  Lemma inputs_ok h ev0 b0 : b0 = Bin h 0 -> length ev0 = 1%nat ->
    exists ins ev, agent_inputs C cr tp (tc_sources x) (Some b0, ev0) = Ok ((Some (Bin h (length (tc_sources x))), ev), ins) /\
      length ev = S (length (tc_sources x)) /\ length ins = length (tc_sources x) /\ forall j i, nth_error ins j = Some i -> in_ok j i.
  Proof.
    intros -> Hev. unfold agent_inputs.
    assert (G : forall k, (k <= length (tc_sources x))%nat -> exists ins ev,
      foldM (fun '(s, acc) src =>
        let* (s, r) := call C cr tp (MSetInput src) s in
        match r with
        | RSetInput vini tag po ptag al sp =>
            Ok (s, acc ++ [{| id_src := src; id_vini := vini; id_tag := tag; id_pseudo := po; id_pseudo_tag := ptag; id_alpha := al; id_spend := sp |}])
        | _ => Err TypeError
        end) (firstn k (tc_sources x)) ((Some (Bin h 0), ev0), []) = Ok ((Some (Bin h k), ev), ins) /\
      length ev = S k /\ length ins = k /\ forall j i, nth_error ins j = Some i -> in_ok j i).
    { induction k as [|k IH]; intros Hk.
      - exists [], ev0. split; [reflexivity|]. split; [exact Hev|]. split; [reflexivity|]. intros [|j] i; discriminate.
      - destruct IH as (ins & ev & E & L1 & L2 & Hin); [lia|].
        destruct (nth_error (tc_sources x) k) as [s|] eqn:Es; [|apply nth_error_None in Es; lia].
        destruct (set_input_ok h k s Es) as (v & tg & po & ptg & al & sp & Hset & Hok).
        rewrite (firstn_snoc_nth _ _ _ Es), foldM_app, E. cbn [bind foldM].
        rewrite (call_ok (MSetInput s) (Bin h k) ev (Bin h (S k)) (RSetInput v tg po ptg al sp)); [|exact (fun x => x)| |unfold Bin, is_terminal; bsr; destruct (_ =? n); reflexivity|discriminate].
        2:{ unfold sign. rewrite L1, Hset. reflexivity. }
        cbn [bind]. eexists _, _. split; [reflexivity|]. rewrite !app_length. cbn [length]. split; [lia|]. split; [lia|].
        intros j i Hj. apply nth_snoc in Hj. destruct Hj as [Hj|[-> ->]]; [auto|]. rewrite L2. exact Hok. }
    destruct (G (length (tc_sources x)) (le_n _)) as (ins & ev & E & H). rewrite firstn_all in E. exists ins, ev. split; [exact E|exact H].
  Qed.

  (** ** The permutation and the serialised inputs *)
  Lemma ins_desc_perm key y l : Permutation (ins_desc key y l) (y :: l).
  Proof.
    induction l as [|z l IH]; cbn [ins_desc]; [reflexivity|]. destruct (_ || _); [reflexivity|]. rewrite IH. apply perm_swap.
  Qed.
  Lemma sort_desc_perm key l : Permutation (sort_desc key l) l.
  Proof. induction l as [|z l IH]; cbn; [reflexivity|]. rewrite ins_desc_perm. now constructor. Qed.

  Definition perm_ok (perm : list Z) (ins : list in_data) : Prop :=
    Permutation perm (zrange n) /\ length ins = length (tc_sources x) /\
    forall j i, nth_error ins j = Some i -> exists q, nth_error perm j = Some (Z.of_nat q) /\ in_ok q i.
  Lemma permute_ok key ins : length ins = length (tc_sources x) -> (forall j i, nth_error ins j = Some i -> in_ok j i) ->
    exists ins', apply_permutation swap_elems (sort_desc key (zrange n)) ins = Ok ins' /\ perm_ok (sort_desc key (zrange n)) ins'.
  Proof.
    intros Hl Hin. set (perm := sort_desc key (zrange n)). assert (HP : Permutation perm (zrange n)) by apply sort_desc_perm.
    assert (Hpl : length perm = length (tc_sources x)).
    { rewrite (Permutation_length HP). pose proof (zlen_zrange n (zlen_nonneg _)) as E. unfold zlen in *. lia. }
    pose proof (apply_permutation_spec _ perm ins ltac:(congruence)) as S. assert (Ez : zlen perm = n) by (unfold zlen; congruence).
    destruct (apply_permutation swap_elems perm ins) as [ins'|e]; [|rewrite Ez in S; tauto]. destruct S as (_ & S2 & S3).
    exists ins'. split; [reflexivity|]. split; [exact HP|]. split; [congruence|]. intros j i Hj.
    assert (Hjl : (j < length perm)%nat) by (rewrite Hpl, <- Hl, <- S2; apply nth_error_Some; congruence). rewrite (S3 j Hjl) in Hj.
    assert (Hnn : 0 <= nth j perm 0) by (apply (In_zrange n); apply Permutation_in with perm; [exact HP|now apply nth_In]).
    exists (Z.to_nat (nth j perm 0)). split; [|exact (Hin _ _ Hj)]. rewrite Z2Nat.id by exact Hnn. now apply nth_error_nth'.
  Qed.

  (** the device after [k] serialised inputs *)
  Definition Bvin (h : fhasher) (perm : list Z) (ins : list in_data) (k : nat) : builder C :=
    Build_builder C c (match k with O => INPUT_PERM | _ => INPUT_VINS end) (Z.of_nat k - 1) (-1) false
      last_amount (in_sum (length (tc_sources x))) 0 [] (Some []) (Some []) None 0 (asum (length (tc_sources x)))
      None ex perm (Some (pre0 ++ concat (map id_vini (firstn k ins)))) [] (Some h) [] [] [].
  Lemma perm_call_ok h ev perm ins : exists ev', length ev' = S (length ev) /\
    call C cr tp (MPerm perm) (Some (Bin h (length (tc_sources x))), ev) = Ok ((Some (Bvin h perm ins 0), ev'), RPerm).
  Proof.
    eexists. split; [|apply call_ok; [exact (fun x => x)| |reflexivity|discriminate]]; [rewrite app_length; cbn; lia|].
    unfold sign, inputs_permutation, Bin, transition. bsr. unfold zlen. rewrite Z.eqb_refl. destruct W as (Wn & _). unfold zlen in Wn. destruct (length (tc_sources x)) as [|k] eqn:E; [lia|].
    cbn [existsb tstate_beq orb guard bind]. unfold Bvin. cbn [firstn map concat]. rewrite app_nil_r, E. reflexivity.
  Qed.
  Lemma vini_ok h perm ins k i : perm_ok perm ins -> nth_error ins k = Some i ->
    input_vini C (id_src i) (id_vini i) (id_tag i) (Bvin h perm ins k) = Ok (Bvin h perm ins (S k), RVini).
  Proof.
    intros (P1 & P2 & P3) Hi. destruct (P3 k i Hi) as (q & Hq & (I1 & I2 & _)). assert (Hk : (k < length (tc_sources x))%nat) by (rewrite <- P2; apply nth_error_Some; congruence).
    destruct Cok as (C1 & C2 & C3 & C4 & C5 & C6 & C7 & C8 & C9 & C10 & C11 & C12 & C13 & C14).
    unfold input_vini, Bvin, transition. bsr. rewrite C7. replace (Z.of_nat k - 1 <? n) with true by (unfold zlen; lia). cbn [guard bind].
    assert (existsb (tstate_beq (match k with O => INPUT_PERM | S _ => INPUT_VINS end)) [INPUT_PERM; INPUT_VINS] = true) as -> by (destruct k; reflexivity).
    cbn [guard bind]. bsr. replace (Z.of_nat k - 1 + 1) with (Z.of_nat k) by lia. rewrite (proj2 (py_get_nat perm k _) Hq). cbn [bind]. rewrite I2. cbn [bind].
    rewrite zlist_eqb_refl. cbn [guard bind]. unfold prefix_add. bsr. cbn [bind]. bsr. rewrite C6. cbn [guard bind].
    rewrite (firstn_snoc_nth _ _ _ Hi), map_app, concat_app. cbn [map concat]. rewrite app_nil_r, app_assoc. replace (Z.of_nat (S k) - 1) with (Z.of_nat k) by lia. reflexivity.
  Qed.
  Lemma vinis_ok h perm ins ev0 : perm_ok perm ins ->
    exists ev, foldM (fun s i => let* (s, _) := call C cr tp (MVini (id_src i) (id_vini i) (id_tag i)) s in Ok s) ins (Some (Bvin h perm ins 0), ev0) =
      Ok (Some (Bvin h perm ins (length (tc_sources x))), ev).
  Proof.
    intros HP. assert (G : forall k, (k <= length ins)%nat -> exists ev,
      foldM (fun s i => let* (s, _) := call C cr tp (MVini (id_src i) (id_vini i) (id_tag i)) s in Ok s) (firstn k ins) (Some (Bvin h perm ins 0), ev0) =
      Ok (Some (Bvin h perm ins k), ev)).
    { induction k as [|k IH]; intros Hk; [exists ev0; reflexivity|]. destruct IH as (ev & E); [lia|].
      destruct (nth_error ins k) as [i|] eqn:Ei; [|apply nth_error_None in Ei; lia].
      rewrite (firstn_snoc_nth _ _ _ Ei), foldM_app, E. cbn [bind foldM].
      rewrite (call_ok (MVini (id_src i) (id_vini i) (id_tag i)) (Bvin h perm ins k) ev (Bvin h perm ins (S k)) RVini); [cbn [bind]; eauto|exact (fun x => x)| |reflexivity|discriminate].
      unfold sign. rewrite vini_ok by assumption. reflexivity. }
    destruct (G (length ins) (le_n _)) as (ev & E). rewrite firstn_all in E. destruct HP as (_ & <- & _). eauto.
  Qed.

  (** ** End of the inputs *)
  Definition det : bool := (10 <=? tc_hf x) || (0 <? tc_client_version x).
  Lemma det_ok : is_det_mask C c = det.
  Proof.
    destruct Cok as (C1 & C2 & C3 & C4 & C5 & C6 & C7 & C8 & C9 & C10 & C11 & C12 & C13 & C14). unfold is_det_mask, det. rewrite C12, C11.
    destruct (10 <=? tc_hf x); reflexivity.
  Qed.
  Lemma sc_add_range a b : 0 <= sc_add a b < ell.
  Proof. apply Z.mod_pos_bound. reflexivity. Qed.
  Lemma sc_sub_range a b : 0 <= sc_sub a b < ell.
  Proof. apply Z.mod_pos_bound. reflexivity. Qed.
  Lemma fold_sc_range l : forall a, 0 <= a < ell -> 0 <= fold_left sc_add l a < ell.
  Proof. induction l as [|y l IH]; intros a Ha; cbn; [exact Ha|]. apply IH. apply sc_add_range. Qed.
  (** the masks the device prepares when they are not derived from the amount keys *)
  Definition masks_ok (gm : list Z) (lm : option Z) : Prop :=
    zlen gm = m /\ Forall (fun g => 0 <= g < ell) gm /\ fold_left sc_add gm 0 = asum (length (tc_sources x)) /\
    (forall i, (S i < length (tc_dsts x))%nat -> exists g, nth_error gm i = Some g /\ det_comm_masks C c (Z.of_nat i) = Ok g) /\
    exists g, nth_error gm (length (tc_dsts x) - 1) = Some g /\ lm = Some g.
  (** the device before the outputs *)
  Definition Ball (h : fhasher) (perm : list Z) (pf : list Z) (lm : option Z) : builder C :=
    Build_builder C c INPUT_ALL_DONE (n - 1) (-1) false
      last_amount (in_sum (length (tc_sources x))) 0 [] (Some []) (Some []) lm 0 (asum (length (tc_sources x)))
      None ex perm (Some pf) [] (Some h) [] [] [].
  Lemma asum_range k : 0 <= asum k < ell.
  Proof. unfold asum. apply fold_sc_range. split; [lia|reflexivity]. Qed.

  Lemma masks_loop : forall b, b_sumout C b = 0 -> b_last_mask C b = None -> b_sumpouts C b = asum (length (tc_sources x)) ->
    forall k, (k < length (tc_dsts x))%nat -> exists gm,
    foldM (fun '(b, masks) i =>
        let* (cur, b) := (if i + 1 =? m then
                            Ok (sc_sub (b_sumpouts C b) (b_sumout C b), set_last_mask C (Some (sc_sub (b_sumpouts C b) (b_sumout C b))) b)
                          else let* m := det_comm_masks C c i in Ok (m, b)) in
        Ok (set_sumout C (sc_add (b_sumout C b) cur) b, masks ++ enc_int C cur)) (zrange (Z.of_nat k)) (b, []) = Ok (set_sumout C (fold_left sc_add gm 0) b, concat (map (enc_int C) gm)) /\
    length gm = k /\ Forall (fun g => 0 <= g < ell) gm /\ (forall i, (i < k)%nat -> exists g, nth_error gm i = Some g /\ det_comm_masks C c (Z.of_nat i) = Ok g).
  Proof.
    intros b Hb1 Hb2 Hb3 k. destruct Cok as (C1 & C2 & C3 & _). induction k as [|k IH]; intros Hk.
    - exists []. change (zrange (Z.of_nat 0)) with (@nil Z). cbn [foldM fold_left map concat length]. split; [rewrite <- Hb1; now destruct b|]. split; [reflexivity|]. split; [constructor|]. intros; lia.
    - destruct IH as (gm & E & Hl & Hr & Hn); [lia|]. replace (Z.of_nat (S k)) with (Z.of_nat k + 1) by lia. rewrite zrange_S, foldM_app, E by lia. cbn [bind foldM].
      replace (Z.of_nat k + 1 =? m) with false by (unfold zlen; lia).
      destruct W as (_ & Wm & _).
      destruct (build_key_ok C (c_key_enc C c) d_out_mask (Z.of_nat k) C3 ltac:(cbn; lia) ltac:(unfold zlen in Wm; lia)) as (kk & Hkk).
      assert (Hd : det_comm_masks C c (Z.of_nat k) = Ok (dec_int C (keccak2 C kk))) by (unfold det_comm_masks; rewrite Hkk; reflexivity).
      rewrite Hd. cbn [bind]. exists (gm ++ [dec_int C (keccak2 C kk)]). rewrite fold_left_app, map_app, concat_app. cbn [fold_left map concat]. rewrite app_nil_r. split; [reflexivity|].
      split; [rewrite app_length; cbn; lia|]. split; [apply Forall_app; split; [exact Hr|]; constructor; [apply (pl_int_range C L)|constructor]|].
      intros i Hi. destruct (Nat.eq_dec i k) as [->|].
      + exists (dec_int C (keccak2 C kk)). split; [|exact Hd]. rewrite nth_error_app2 by lia. rewrite Hl, Nat.sub_diag. reflexivity.
      + destruct (Hn i ltac:(lia)) as (g & G1 & G2). exists g. split; [|exact G2]. rewrite nth_error_app1 by lia. exact G1.
  Qed.
  Lemma all_in_ok h perm ins : perm_ok perm ins ->
    exists lm mo gm, all_in_set C (Bvin h perm ins (length (tc_sources x))) = Ok (Ball h perm (pre0 ++ concat (map id_vini ins)) lm, RAllIn mo) /\
      (det = true -> lm = None /\ mo = None) /\ (det = false -> masks_ok gm lm /\ mo = if 2 <? m then Some (concat (map (enc_int C) gm)) else None).
  Proof.
    intros (P1 & P2 & P3). destruct W as (Wn & Wm & _). unfold all_in_set, Bvin, transition. bsr.
    assert (existsb (tstate_beq (match length (tc_sources x) with O => INPUT_PERM | S _ => INPUT_VINS end)) [INPUT_VINS] = true) as -> by (unfold zlen in Wn; destruct (length (tc_sources x)); [lia|reflexivity]).
    cbn [guard bind]. bsr. rewrite <- P2, firstn_all. rewrite P2, det_ok. destruct det.
    - exists None, None, []. split; [reflexivity|]. split; [auto|discriminate].
    - unfold compute_masks. bsr. assert (Cok' := Cok). destruct Cok' as (C1 & C2 & C3 & C4 & C5 & C6 & C7 & C8 & C9 & C10 & C11 & C12 & C13 & C14). rewrite C8, C14.
      set (b := set_sumout C 0 _).
      destruct (masks_loop b eq_refl eq_refl eq_refl (length (tc_dsts x) - 1) ltac:(unfold zlen in Wm; lia)) as (gm & E & Hl & Hr & Hn).
      assert (Em : m = Z.of_nat (length (tc_dsts x) - 1) + 1) by (unfold zlen in *; lia).
      assert (Ez : zrange m = zrange (Z.of_nat (length (tc_dsts x) - 1)) ++ [Z.of_nat (length (tc_dsts x) - 1)]) by (rewrite Em; apply zrange_S; lia).
      rewrite Ez, foldM_app, E. cbn [bind foldM].
      replace (Z.of_nat (length (tc_dsts x) - 1) + 1 =? m) with true by lia. bsr. cbn [bind].
      change (b_sumpouts C b) with (asum (length (tc_sources x))). set (g := sc_sub (asum (length (tc_sources x))) (fold_left sc_add gm 0)). bsr.
      assert (Es : sc_add (fold_left sc_add gm 0) g = asum (length (tc_sources x))).
      { unfold g. generalize (fold_left sc_add gm 0). intros f. unfold sc_add, sc_sub. rewrite Zplus_mod_idemp_r. replace (f + (asum (length (tc_sources x)) - f)) with (asum (length (tc_sources x))) by lia.
        apply Z.mod_small. apply asum_range. }
      change (b_sumpouts C b) with (asum (length (tc_sources x))). rewrite Es, Z.eqb_refl. cbn [guard bind].
      exists (Some g), (if 2 <? m then Some (concat (map (enc_int C) gm) ++ enc_int C g) else None), (gm ++ [g]).
      split; [|split; [discriminate|]].
      { unfold Ball, b. bsr. replace (Z.of_nat (length (tc_sources x)) - 1) with (n - 1) by reflexivity. reflexivity. }
      intros _. split; [|rewrite map_app, concat_app; cbn [map concat]; now rewrite app_nil_r].
      split; [rewrite zlen_app; unfold zlen at 1; cbn [zlen length]; rewrite Hl; change (zlen [g]) with 1; lia|].
      split; [apply Forall_app; split; [exact Hr|]; constructor; [apply sc_sub_range|constructor]|].
      split; [rewrite fold_left_app; cbn [fold_left]; exact Es|].
      split.
      { intros i Hi. destruct (Hn i ltac:(lia)) as (g' & G1 & G2). exists g'. split; [|exact G2]. rewrite nth_error_app1 by lia. exact G1. }
      exists g. split; [|reflexivity]. rewrite nth_error_app2 by lia. rewrite Hl, Nat.sub_diag. reflexivity.
  Qed.
  Lemma slices32 (l : list Z) : map (fun i => py_slice (concat (map (enc_int C) l)) (i * 32) ((i + 1) * 32)) (zrange (zlen l)) = map (enc_int C) l.
  Proof.
    assert (G : forall pre l, map (fun i => py_slice (concat (map (enc_int C) (pre ++ l))) (i * 32) ((i + 1) * 32)) (map Z.of_nat (seq (length pre) (length l))) = map (enc_int C) l).
    { assert (CL : forall l, zlen (concat (map (enc_int C) l)) = 32 * zlen l).
      { induction l0 as [|a l0 IH]; [reflexivity|]. cbn [map concat]. rewrite zlen_app, IH, zlen_cons. unfold zlen at 1. rewrite (pl_int_len C L). lia. }
      intros pre l0. revert pre. induction l0 as [|a l0 IH]; intros pre; cbn [length seq map]; [reflexivity|]. f_equal.
      - rewrite map_app, concat_app. cbn [map concat]. apply py_slice_app; [rewrite CL; unfold zlen; lia|]. 
        rewrite CL. unfold zlen. rewrite (pl_int_len C L). lia.
      - specialize (IH (pre ++ [a])). rewrite <- app_assoc in IH. cbn [app] in IH. rewrite app_length in IH. cbn [length] in IH. rewrite Nat.add_1_r in IH. exact IH. }
    specialize (G [] l). cbn [app length] in G. unfold zrange. unfold zlen at 1. rewrite Nat2Z.id. exact G.
  Qed.
  Lemma gammas_ok lm mo gm : (det = true -> lm = None /\ mo = None) -> (det = false -> masks_ok gm lm /\ mo = if 2 <? m then Some (concat (map (enc_int C) gm)) else None) ->
    exists g, agent_gammas x (2 <? m) mo = Ok g /\ (det = true -> g = []) /\ (det = false -> 2 < m -> g = map (enc_int C) gm).
  Proof.
    intros H1 H2. unfold agent_gammas. destruct (2 <? m) eqn:E; cbn [negb orb].
    - destruct (0 <? tc_client_version x) eqn:Ev; cbn [orb].
      + exists []. split; [reflexivity|]. split; [reflexivity|]. unfold det. rewrite Ev, orb_true_r. discriminate.
      + destruct W as (_ & _ & _ & _ & (Wh & Wv & Ws) & _). assert (tc_client_version x = 0) by lia. destruct (Ws H) as [Ws'|[Ws' _]]; [lia|].
        assert (Ed : det = false) by (unfold det; rewrite Ev; lia). destruct (H2 Ed) as ((M1 & _) & ->). 
        assert (CL : zlen (concat (map (enc_int C) gm)) = 32 * m).
        { rewrite <- M1. clear -L. induction gm as [|a l IH]; [reflexivity|]. cbn [map concat]. rewrite zlen_app, IH, zlen_cons. unfold zlen at 1. rewrite (pl_int_len C L). lia. }
        rewrite CL. replace (32 * m =? m * 32) with true by lia. cbn [guard bind]. replace (32 * m / 32) with m by lia. rewrite <- M1, slices32. exists (map (enc_int C) gm).
        split; [reflexivity|]. split; [congruence|auto].
    - exists []. split; [reflexivity|]. split; [reflexivity|]. lia.
  Qed.
End Complete.
