From Verif Require Import Py PyLemmas Digits B58Mnr_model B58Mnr_spec B58Mnr_proof Addr_model Addr_spec.

Lemma spec_encode_nonempty bs : bytes_ok bs -> bs <> [] -> spec_encode bs <> [].
Proof.
  intros HB Hne H0. pose proof (decode_encode bs HB Hne) as H. rewrite H0 in H. cbn in H. congruence.
Qed.

Lemma first4 (h : list Z) : (4 <= length h)%nat ->
  py_slice h 0 4 = firstn 4 h /\ py_upto h 4 = firstn 4 h /\ zlen (firstn 4 h) = 4.
Proof.
  intros H. repeat split.
  - rewrite py_slice_nonneg by (unfold zlen; lia). reflexivity.
  - unfold py_upto, py_clamp. destruct (4 <? 0) eqn:E; [lia|]. rewrite E.
    destruct (zlen h <? 4) eqn:E2; [unfold zlen in E2; lia|]. reflexivity.
  - unfold zlen. rewrite firstn_length. lia.
Qed.

Lemma addr_encode_ok cn ver buff : hash_like cn -> byte_ok ver -> bytes_ok buff ->
  addr_encode_check cn ver buff = Ok (spec_encode ((ver :: buff) ++ firstn 4 (cn (ver :: buff)))).
Proof.
  intros Hcn Hv HB. unfold addr_encode_check.
  destruct (Hcn (ver :: buff)) as [Hh Hl]. destruct (first4 _ Hl) as (-> & _ & _).
  replace (byte_okb ver) with true by (unfold byte_okb, byte_ok in *; lia).
  unfold b58encode_hex.
  assert (HBB : bytes_ok ((ver :: buff) ++ firstn 4 (cn (ver :: buff)))).
  { apply bytes_ok_app. split; [constructor; auto|now apply bytes_ok_firstn]. }
  rewrite hexToBin_hexlify by assumption. cbn [bind]. now apply encode_refines.
Qed.

Lemma addr_round_trip cn ver buff : hash_like cn -> byte_ok ver -> bytes_ok buff ->
  exists s, addr_encode_check cn ver buff = Ok s /\ addr_decode_check cn s = Ok (buff, ver).
Proof.
  intros Hcn Hv HB. destruct (Hcn (ver :: buff)) as [Hh Hl]. destruct (first4 _ Hl) as (H1 & H2 & H3).
  set (chk := firstn 4 (cn (ver :: buff))) in *.
  assert (HBB : bytes_ok ((ver :: buff) ++ chk)).
  { apply bytes_ok_app. split; [constructor; auto|now apply bytes_ok_firstn]. }
  exists (spec_encode ((ver :: buff) ++ chk)). split; [now apply addr_encode_ok|].
  unfold addr_decode_check.
  assert (Hd : b58decode_bin (spec_encode ((ver :: buff) ++ chk)) = Ok ((ver :: buff) ++ chk)).
  { pose proof (spec_encode_nonempty _ HBB ltac:(discriminate)) as Hn.
    unfold b58decode_bin. destruct (spec_encode _) eqn:E; [congruence|]. rewrite <- E.
    apply decode_encode; [assumption|discriminate]. }
  rewrite Hd. cbn [bind].
  rewrite py_from_neg_app by lia. rewrite py_upto_neg_app by lia.
  rewrite H2, zlist_eqb_refl.
  replace (py_upto ((ver :: buff) ++ chk) 1) with [ver].
  2:{ change ((ver :: buff) ++ chk) with ([ver] ++ (buff ++ chk)). symmetry. now apply py_upto_app. }
  f_equal. f_equal.
  unfold py_slice, py_clamp. change (1 <? 0) with false. change (-4 <? 0) with true. cbn [Z.ltb].
  cbn [app]. rewrite zlen_cons, zlen_app, H3. pose proof (zlen_nonneg buff).
  change (1 <? 0) with false. cbv iota.
  destruct (1 + (zlen buff + 4) <? 1) eqn:E1; [lia|].
  destruct (-4 + (1 + (zlen buff + 4)) <? 0) eqn:E2; [lia|].
  destruct (1 + (zlen buff + 4) <? -4 + (1 + (zlen buff + 4))) eqn:E3; [lia|].
  change (Z.to_nat 1) with 1%nat. cbn [skipn].
  replace (Z.to_nat (-4 + (1 + (zlen buff + 4)) - 1)) with (length buff) by (unfold zlen; lia).
  rewrite firstn_app, firstn_all, Nat.sub_diag. cbn [firstn]. apply app_nil_r.
Qed.

Lemma pid_buf (sp vw : list Z) (pid : option (list Z)) :
  match pid with Some p => (sp ++ vw) ++ p | None => sp ++ vw end
  = sp ++ vw ++ match pid with Some p => p | None => [] end.
Proof. destruct pid; [now rewrite <- app_assoc|now rewrite app_nil_r]. Qed.

Lemma encode_addr_round_trip cn ver sp vw pid : hash_like cn -> byte_ok ver ->
  bytes_ok sp -> bytes_ok vw -> bytes_ok (match pid with Some p => p | None => [] end) ->
  exists s, encode_addr cn ver sp vw pid = Ok s /\
    addr_decode_check cn s = Ok (sp ++ vw ++ match pid with Some p => p | None => [] end, ver).
Proof.
  intros Hcn Hv H1 H2 H3. unfold encode_addr. rewrite pid_buf.
  apply addr_round_trip; auto. repeat (apply bytes_ok_app; split); auto.
Qed.

Lemma decode_check_acc cn s d v : hash_like cn -> addr_decode_check cn s = Ok (d, v) ->
  exists body, b58decode_bin s = Ok (body ++ firstn 4 (cn body)) /\ (body = v :: d \/ body = [] /\ d = []).
Proof.
  intros Hcn H. unfold addr_decode_check in H. apply bind_ok_inv in H as (x & Hx & H).
  destruct (zlist_eqb _ _) eqn:E; [|discriminate]. apply zlist_eqb_spec in E.
  set (body := py_upto x (-4)) in *. destruct (Hcn body) as [_ Hl]. destruct (first4 _ Hl) as (_ & H2 & H3).
  rewrite H2 in E. pose proof (py_upto_from x (-4)) as Hs. fold body in Hs. rewrite E in Hs.
  exists body. rewrite Hs. split; [exact Hx|].
  destruct body as [|b0 body']; [right|left].
  - cbn [app] in Hs. split; [reflexivity|].
    destruct (py_upto x 1) as [|v' [|? ?]]; try discriminate. injection H as <- <-.
    assert (zlen x = 4) by (rewrite <- Hs; exact H3).
    unfold py_slice, py_clamp. rewrite H. reflexivity.
  - assert (Hx1 : py_upto x 1 = [b0]).
    { rewrite <- Hs. change ((b0 :: body') ++ firstn 4 (cn (b0 :: body'))) with ([b0] ++ (body' ++ firstn 4 (cn (b0 :: body')))).
      now apply py_upto_app. }
    rewrite Hx1 in H. injection H as <- <-. f_equal.
    rewrite <- Hs. unfold py_slice, py_clamp. change (1 <? 0) with false. change (-4 <? 0) with true.
    cbv iota. cbn [app]. rewrite zlen_cons, zlen_app, H3. pose proof (zlen_nonneg body').
    change (1 <? 0) with false. cbv iota.
    destruct (1 + (zlen body' + 4) <? 1) eqn:E1; [lia|].
    destruct (-4 + (1 + (zlen body' + 4)) <? 0) eqn:E2; [lia|].
    destruct (1 + (zlen body' + 4) <? -4 + (1 + (zlen body' + 4))) eqn:E3; [lia|].
    change (Z.to_nat 1) with 1%nat. cbn [skipn].
    replace (Z.to_nat (-4 + (1 + (zlen body' + 4)) - 1)) with (length body') by (unfold zlen; lia).
    rewrite firstn_app, firstn_all, Nat.sub_diag. cbn [firstn]. now rewrite app_nil_r.
Qed.

Definition kind_sub (k : kind) : bool := match k with Subaddress => true | _ => false end.
Definition kind_int (k : kind) : bool := match k with Integrated => true | _ => false end.

Lemma net_version_prefix n k :
  net_version (Some (net_code n)) (kind_sub k) (kind_int k) = Ok (prefix_of n k).
Proof. destruct n, k; reflexivity. Qed.
Lemma prefix_classified n k :
  get_addr_type (prefix_of n k) = Ok (net_code n) /\
  is_subaddress (prefix_of n k) = kind_sub k /\ is_integrated (prefix_of n k) = kind_int k.
Proof. destruct n, k; repeat split; reflexivity. Qed.
Lemma prefix_inj n k n' k' : prefix_of n k = prefix_of n' k' -> n = n' /\ k = k'.
Proof. destruct n, k, n', k'; cbn; intros H; try discriminate; auto. Qed.

Lemma net_version_refuses net sub int :
  (sub = true /\ int = true \/ (exists t, net = Some t /\ ~ (0 <= t <= 2))) -> exists e, net_version net sub int = Err e.
Proof.
  intros [[-> ->]|(t & -> & Ht)]; [eexists; reflexivity|].
  unfold net_version. destruct (int && sub); [eauto|].
  unfold MAINNET, TESTNET, STAGENET.
  destruct (t =? 0) eqn:E0; [lia|]. destruct (t =? 1) eqn:E1; [lia|]. destruct (t =? 2) eqn:E2; [lia|].
  cbn. eauto.
Qed.
Lemma get_addr_type_inv v n : get_addr_type v = Ok n ->
  exists nw k, v = prefix_of nw k /\ n = net_code nw.
Proof.
  unfold get_addr_type. cbn [existsb p_std p_int p_sub MainNet TestNet StageNet].
  intros H.
  destruct (_ || _) eqn:E1 in H.
  { injection H as <-. rewrite !orb_true_iff, !Z.eqb_eq in E1. destruct E1 as [->|[->|[->|?]]]; [exists Main, Standard|exists Main, Integrated|exists Main, Subaddress|congruence]; auto. }
  destruct (_ || _) eqn:E2 in H.
  { injection H as <-. rewrite !orb_true_iff, !Z.eqb_eq in E2. destruct E2 as [->|[->|[->|?]]]; [exists Test, Standard|exists Test, Integrated|exists Test, Subaddress|congruence]; auto. }
  destruct (_ || _) eqn:E3 in H; [|discriminate].
  { injection H as <-. rewrite !orb_true_iff, !Z.eqb_eq in E3. destruct E3 as [->|[->|[->|?]]]; [exists Stage, Standard|exists Stage, Integrated|exists Stage, Subaddress|congruence]; auto. }
Qed.

Lemma prefix_byte n k : byte_ok (prefix_of n k).
Proof. destruct n, k; cbn; unfold byte_ok; lia. Qed.

Definition kind_pid (k : kind) (pid : list Z) : option (list Z) :=
  match k with Integrated => Some pid | _ => None end.

Lemma public_addr_ok cn sp vw n k pid :
  hash_like cn -> bytes_ok sp -> bytes_ok vw -> bytes_ok pid -> (k = Integrated -> length pid = 8%nat) ->
  public_addr_encode cn {| spend_public_key := sp; view_public_key := vw |} (kind_sub k) (Some (net_code n)) (kind_pid k pid)
  = Ok (spec_encode ((prefix_of n k :: sp ++ vw ++ match kind_pid k pid with Some p => p | None => [] end)
       ++ firstn 4 (cn (prefix_of n k :: sp ++ vw ++ match kind_pid k pid with Some p => p | None => [] end)))).
Proof.
  intros Hcn Hs Hv Hp Hk. unfold public_addr_encode.
  assert (Hbad : match kind_pid k pid with Some (x :: t) => negb (zlen (x :: t) =? 8) | _ => false end = false).
  { destruct k; cbn [kind_pid]; try reflexivity. destruct pid; [reflexivity|].
    unfold zlen. rewrite Hk by reflexivity. reflexivity. }
  rewrite Hbad.
  assert (HI : match kind_pid k pid with Some _ => true | None => false end = kind_int k) by (destruct k; reflexivity).
  rewrite HI, net_version_prefix. cbn [bind]. unfold encode_addr. rewrite pid_buf.
  cbn [spend_public_key view_public_key].
  apply addr_encode_ok; [assumption|apply prefix_byte|].
  repeat (apply bytes_ok_app; split); auto. destruct k; cbn; auto; constructor.
Qed.

Lemma keys_slices (sp vw r : list Z) : length sp = 32%nat -> length vw = 32%nat ->
  py_slice (sp ++ vw ++ r) 0 32 = sp /\ py_slice (sp ++ vw ++ r) 32 64 = vw /\ py_from (sp ++ vw ++ r) 64 = r.
Proof.
  intros H1 H2. repeat split.
  - apply (py_slice_app [] sp (vw ++ r)); unfold zlen; rewrite ?H1; reflexivity.
  - apply py_slice_app; unfold zlen; rewrite ?H1, ?H2; reflexivity.
  - rewrite app_assoc. apply py_from_app. unfold zlen. rewrite app_length, H1, H2. reflexivity.
Qed.

Theorem address_round_trip cn sp vw n k pid :
  hash_like cn -> bytes_ok sp -> bytes_ok vw -> bytes_ok pid ->
  length sp = 32%nat -> length vw = 32%nat -> (k = Integrated -> length pid = 8%nat) ->
  exists s ai,
    public_addr_encode cn {| spend_public_key := sp; view_public_key := vw |}
      (kind_sub k) (Some (net_code n)) (kind_pid k pid) = Ok s /\
    decode_addr cn s = Ok ai /\
    ai_spend_key ai = sp /\ ai_view_key ai = vw /\ ai_net_type ai = net_code n /\
    ai_is_sub ai = kind_sub k /\ ai_is_int ai = kind_int k /\ ai_payment_id ai = kind_pid k pid /\
    ai_addr ai = s.
Proof.
  intros Hcn Hs Hv Hp Ls Lv Hk.
  pose proof (public_addr_ok cn sp vw n k pid Hcn Hs Hv Hp Hk) as HE.
  set (body := sp ++ vw ++ match kind_pid k pid with Some p => p | None => [] end) in *.
  assert (HB : bytes_ok body).
  { repeat (apply bytes_ok_app; split); auto. destruct k; cbn; auto; constructor. }
  destruct (addr_round_trip cn (prefix_of n k) body Hcn (prefix_byte n k) HB) as (s & E1 & E2).
  rewrite addr_encode_ok in E1 by (auto; apply prefix_byte). injection E1 as <-.
  eexists. unfold decode_addr. rewrite E2. cbn [bind]. unfold set_addr.
  destruct (prefix_classified n k) as (-> & -> & ->). cbn [bind].
  destruct (keys_slices sp vw (match kind_pid k pid with Some p => p | None => [] end) Ls Lv) as (K1 & K2 & K3).
  fold body in K1, K2, K3. rewrite K1, K2, K3.
  assert (HP : (if kind_int k then Some match kind_pid k pid with Some p => p | None => [] end else None) = kind_pid k pid)
    by (destruct k; reflexivity).
  rewrite HP, HE.
  assert (exists b, public_addr_encode cn {| spend_public_key := sp; view_public_key := vw |} (kind_sub k) (Some (net_code n)) None = Ok b) as [b Hb].
  { destruct k.
    - pose proof (public_addr_ok cn sp vw n Standard [] Hcn Hs Hv ltac:(constructor) ltac:(discriminate)) as H. eauto.
    - pose proof (public_addr_ok cn sp vw n Standard [] Hcn Hs Hv ltac:(constructor) ltac:(discriminate)) as H. eauto.
    - pose proof (public_addr_ok cn sp vw n Subaddress [] Hcn Hs Hv ltac:(constructor) ltac:(discriminate)) as H. eauto. }
  rewrite Hb. cbn [bind]. eexists. repeat split; reflexivity.
Qed.

(** an accepted text whose payload has exactly the keys (and id) is the canonical one *)
Lemma decode_addr_text cn s ai : hash_like cn -> decode_addr cn s = Ok ai ->
  exists v d n k, addr_decode_check cn s = Ok (d, v) /\ v = prefix_of n k /\
    ai_net_type ai = net_code n /\ ai_is_sub ai = kind_sub k /\ ai_is_int ai = kind_int k /\
    ai_spend_key ai = py_slice d 0 32 /\ ai_view_key ai = py_slice d 32 64 /\
    ai_payment_id ai = kind_pid k (py_from d 64).
Proof.
  intros Hcn H. unfold decode_addr in H. apply bind_ok_inv in H as ([d v] & Hd & H).
  unfold set_addr in H. apply bind_ok_inv in H as (nt & Hnt & H).
  apply get_addr_type_inv in Hnt as (n & k & -> & ->).
  apply bind_ok_inv in H as (b & Hb & H). apply bind_ok_inv in H as (a & Ha & [= <-]).
  destruct (prefix_classified n k) as (_ & E2 & E3).
  exists (prefix_of n k), d, n, k. rewrite E2, E3. cbn.
  repeat split; auto. destruct k; reflexivity.
Qed.

Lemma b58decode_bytes s d : b58decode_bin s = Ok d -> bytes_ok d.
Proof.
  destruct s as [|c s]; [discriminate|]. unfold b58decode_bin, b58decode_data.
  destruct (_ =? _); [intros [= <-]; constructor|].
  intros H. apply bind_ok_inv in H as (? & _ & H). apply bind_ok_inv in H as (? & _ & H).
  apply bind_ok_inv in H as (b & _ & H). destruct b as [l|]; [|discriminate]. cbn [buf_bytes] in H.
  destruct (bytes_okb l) eqn:E; [|discriminate]. injection H as <-. now apply bytes_okb_spec.
Qed.

Theorem decode_addr_canonical cn s ai d v : hash_like cn ->
  decode_addr cn s = Ok ai -> addr_decode_check cn s = Ok (d, v) ->
  length d = (if ai_is_int ai then 72 else 64)%nat ->
  ai_addr ai = s \/ exists blk, In blk (chunks 11 s) /\ block_spells_2_64 blk.
Proof.
  intros Hcn HA HD HL.
  pose proof (decode_check_acc cn s d v Hcn HD) as (body & Hb & Hbody).
  destruct Hbody as [->|[-> ->]]; [|cbn in HL; destruct (ai_is_int ai); lia].
  pose proof (b58decode_bytes _ _ Hb) as HB. apply bytes_ok_app in HB as [HB _].
  apply bytes_ok_cons in HB as [_ HB].
  unfold decode_addr in HA. rewrite HD in HA. cbn [bind] in HA. unfold set_addr in HA.
  apply bind_ok_inv in HA as (nt & Hnt & H). apply get_addr_type_inv in Hnt as (n & k & -> & ->).
  destruct (prefix_classified n k) as (_ & E2 & E3). rewrite E2, E3 in H.
  apply bind_ok_inv in H as (b & _ & H). apply bind_ok_inv in H as (a & Ha & [= <-]). cbn [ai_is_int ai_addr] in *.
  assert (HP : (if kind_int k then Some (py_from d 64) else None) = kind_pid k (py_from d 64)) by (destruct k; reflexivity).
  rewrite HP in Ha.
  assert (Hsplit : d = py_slice d 0 32 ++ py_slice d 32 64 ++ match kind_pid k (py_from d 64) with Some p => p | None => [] end
                   /\ (k = Integrated -> length (py_from d 64) = 8%nat)).
  { assert (H64 : (64 <= length d)%nat) by (destruct (kind_int k); lia).
    assert (E : exists x y z, d = x ++ y ++ z /\ length x = 32%nat /\ length y = 32%nat /\ length z = (length d - 64)%nat).
    { exists (firstn 32 d), (firstn 32 (skipn 32 d)), (skipn 32 (skipn 32 d)).
      rewrite firstn_skipn, firstn_skipn. split; [reflexivity|].
      rewrite !firstn_length, !skipn_length. lia. }
    destruct E as (x & y & z & E & Lx & Ly & Lz). rewrite E.
    destruct (keys_slices x y z Lx Ly) as (-> & -> & ->). split.
    - destruct k; cbn [kind_pid kind_int] in *; rewrite ?app_nil_r; auto;
        (destruct z; [now rewrite app_nil_r|cbn [length] in Lz; lia]).
    - intros ->. cbn in HL. lia. }
  destruct Hsplit as [Hsplit Hp8].
  rewrite public_addr_ok in Ha; auto.
  - rewrite <- Hsplit in Ha. injection Ha as <-.
    assert (HBB : bytes_ok ((prefix_of n k :: d) ++ firstn 4 (cn (prefix_of n k :: d)))) by (eapply b58decode_bytes; eauto).
    apply b58_canonical in Hb as [Hb|Hb]; [left|right; exact Hb].
    unfold b58encode_bin in Hb. cbn [app] in Hb. rewrite encode_refines in Hb by exact HBB.
    injection Hb as Hb. exact Hb.
  - rewrite Hsplit in HB. apply bytes_ok_app in HB. tauto.
  - rewrite Hsplit in HB. apply bytes_ok_app in HB as [_ HB]. apply bytes_ok_app in HB. tauto.
  - unfold py_from. now apply bytes_ok_skipn.
Qed.

(** trailing bytes are silently dropped *)
Theorem decode_addr_trailing cn sp vw junk : hash_like cn -> bytes_ok sp -> bytes_ok vw -> bytes_ok junk ->
  length sp = 32%nat -> length vw = 32%nat ->
  exists s s0 ai, addr_encode_check cn 18 (sp ++ vw ++ junk) = Ok s /\
    addr_encode_check cn 18 (sp ++ vw) = Ok s0 /\
    decode_addr cn s = Ok ai /\ ai_spend_key ai = sp /\ ai_view_key ai = vw /\ ai_addr ai = s0 /\
    ai_payment_id ai = None /\ (junk <> [] -> s <> s0).
Proof.
  intros Hcn Hs Hv Hj Ls Lv.
  assert (HB : bytes_ok (sp ++ vw ++ junk)) by (repeat (apply bytes_ok_app; split); auto).
  destruct (addr_round_trip cn 18 (sp ++ vw ++ junk) Hcn ltac:(unfold byte_ok; lia) HB) as (s & E1 & E2).
  exists s. pose proof (public_addr_ok cn sp vw Main Standard [] Hcn Hs Hv ltac:(constructor) ltac:(discriminate)) as HE.
  cbn [kind_pid kind_sub net_code prefix_of] in HE. rewrite app_nil_r in HE.
  assert (Hsv : bytes_ok (sp ++ vw)) by (apply bytes_ok_app; auto).
  pose proof (addr_encode_ok cn 18 (sp ++ vw) Hcn ltac:(unfold byte_ok; lia) Hsv) as HE2.
  eexists. unfold decode_addr. rewrite E2. cbn [bind]. unfold set_addr.
  change (get_addr_type 18) with (Ok 0). change (is_subaddress 18) with false. change (is_integrated 18) with false.
  cbn [bind]. destruct (keys_slices sp vw junk Ls Lv) as (-> & -> & _). rewrite HE. cbn [bind].
  eexists. split; [exact E1|]. split; [exact HE2|].
  split; [reflexivity|]. split; [reflexivity|]. split; [reflexivity|]. split; [reflexivity|].
  split; [reflexivity|]. intros Hne He.
  destruct (addr_round_trip cn 18 (sp ++ vw) Hcn ltac:(unfold byte_ok; lia) Hsv) as (s0 & F1 & F2).
  assert (s0 = s) as -> by congruence. assert (F3 : sp ++ vw ++ junk = sp ++ vw) by congruence. clear F2. rename F3 into F2.
  apply (f_equal (@length Z)) in F2. rewrite !app_length in F2. destruct junk; [congruence|cbn [length] in F2; lia].
Qed.

(** ** sub-address flag *)
Lemma recompute_sub_flag cn ai sp vw M m ai' : recompute_sub cn ai sp vw M m = Ok ai' ->
  ai_is_sub ai' = negb (M =? 0) && negb (m =? 0).
Proof.
  unfold recompute_sub. intros H. apply bind_ok_inv in H as (b & _ & H). apply bind_ok_inv in H as (a & _ & [= <-]).
  reflexivity.
Qed.

Lemma recompute_sub_prefix cn ai n sp vw M m ai' : hash_like cn -> bytes_ok sp -> bytes_ok vw ->
  ai_net_type ai = net_code n -> recompute_sub cn ai sp vw M m = Ok ai' ->
  addr_decode_check cn (ai_base_addr ai') =
    Ok (sp ++ vw, prefix_of n (if ai_is_sub ai' then Subaddress else Standard)).
Proof.
  intros Hcn Hs Hv Hn H. unfold recompute_sub in H. rewrite Hn in H.
  apply bind_ok_inv in H as (b & Hb & H). apply bind_ok_inv in H as (a & _ & [= <-]).
  cbn [ai_base_addr ai_is_sub]. set (f := negb (M =? 0) && negb (m =? 0)) in *.
  set (k := if f then Subaddress else Standard).
  assert (Hk : f = kind_sub k) by (unfold k; destruct f; reflexivity).
  assert (Hp : None = kind_pid k []) by (unfold k; destruct f; reflexivity).
  rewrite Hk, Hp in Hb. rewrite public_addr_ok in Hb; auto; [|constructor|unfold k; destruct f; discriminate].
  rewrite <- Hp, app_nil_r in Hb.
  destruct (addr_round_trip cn (prefix_of n k) (sp ++ vw) Hcn (prefix_byte n k)) as (s0 & F1 & F2);
    [apply bytes_ok_app; auto|].
  rewrite addr_encode_ok in F1; auto; [|apply prefix_byte|apply bytes_ok_app; auto].
  replace b with s0 by congruence. exact F2.
Qed.

(** ** classification *)
Lemma addr_eqb_spec a b : addr_eqb a b = true <-> a = b.
Proof.
  unfold addr_eqb. rewrite andb_true_iff, !zlist_eqb_spec. destruct a, b; cbn.
  split; [intros [-> ->]; auto|intros [= -> ->]; auto].
Qed.
Lemma addr_eqb_sym a b : addr_eqb a b = addr_eqb b a.
Proof.
  destruct (addr_eqb a b) eqn:E.
  - apply addr_eqb_spec in E as ->. symmetry. now apply addr_eqb_spec.
  - destruct (addr_eqb b a) eqn:E2; [|reflexivity]. apply addr_eqb_spec in E2 as ->.
    assert (addr_eqb a a = true) by now apply addr_eqb_spec. congruence.
Qed.
Lemma addr_hash_inj a b : length (spend_public_key a) = length (spend_public_key b) ->
  addr_to_hash a = addr_to_hash b -> a = b.
Proof.
  unfold addr_to_hash. destruct a as [s v], b as [s' v']; cbn. intros HL H.
  assert (s = s' /\ v = v') as [-> ->]; [|reflexivity].
  revert s' HL H. induction s as [|x s IH]; intros [|y s'] HL H; cbn in *; try discriminate; auto.
  injection H as -> H. injection HL as HL. destruct (IH s' HL H) as [-> ->]. auto.
Qed.

Definition keys32 (a : pubaddr) : Prop := length (spend_public_key a) = 32%nat.

Lemma existsb_hash seen a : Forall keys32 seen -> keys32 a ->
  existsb (zlist_eqb (addr_to_hash a)) (map addr_to_hash seen) = existsb (addr_eqb a) seen.
Proof.
  intros HS Ha. induction HS as [|b seen Hb HS IH]; cbn [map existsb]; [reflexivity|].
  rewrite IH. f_equal. destruct (addr_eqb a b) eqn:E.
  - apply addr_eqb_spec in E as ->. apply zlist_eqb_refl.
  - destruct (zlist_eqb _ _) eqn:E2; [|reflexivity]. apply zlist_eqb_spec in E2.
    apply addr_hash_inj in E2 as ->; [|unfold keys32 in *; congruence].
    assert (addr_eqb b b = true) by now apply addr_eqb_spec. congruence.
Qed.

Definition count {A} (f : A -> bool) (l : list A) : Z := zlen (filter f l).
Definition last_sub (l : list dest) (d : option pubaddr) : option pubaddr :=
  fold_left (fun r x => if d_is_subaddress x then Some (d_addr x) else r) l d.

Lemma classify_loop_spec ds : forall change seen nstd nsub single,
  Forall keys32 seen -> Forall (fun d => keys32 (d_addr d)) ds ->
  classify_loop ds change (map addr_to_hash seen) nstd nsub single =
  (let l := distinct_from seen change ds in
   (nstd + count (fun d => negb (d_is_subaddress d)) l, nsub + count d_is_subaddress l, last_sub l single)).
Proof.
  induction ds as [|d ds IH]; intros change seen nstd nsub single HS HD; cbn [classify_loop distinct_from].
  - cbn. rewrite !Z.add_0_r. reflexivity.
  - inversion HD as [|? ? Hd HD']; subst.
    rewrite existsb_app.
    destruct (match change with Some c => addr_eqb c (d_addr d) | None => false end) eqn:Ec.
    + destruct change as [c|]; [|discriminate]. cbn [existsb]. rewrite addr_eqb_sym, Ec.
      rewrite orb_true_r. now apply IH.
    + assert (existsb (addr_eqb (d_addr d)) match change with Some c => [c] | None => [] end = false) as ->.
      { destruct change as [c|]; [|reflexivity]. cbn [existsb]. rewrite addr_eqb_sym, Ec. reflexivity. }
      rewrite orb_false_r, existsb_hash by assumption.
      destruct (existsb (addr_eqb (d_addr d)) seen) eqn:Es; [now apply IH|].
      assert (HS' : Forall keys32 (d_addr d :: seen)) by (constructor; auto).
      change (addr_to_hash (d_addr d) :: map addr_to_hash seen) with (map addr_to_hash (d_addr d :: seen)).
      destruct (d_is_subaddress d) eqn:Esub; rewrite IH by assumption;
        unfold count, last_sub; cbn [filter fold_left negb]; rewrite Esub; cbn [negb];
        rewrite zlen_cons;
        repeat match goal with |- (_, _) = (_, _) => apply f_equal2 end; try reflexivity; lia.
Qed.

Theorem classify_spec ds change : Forall (fun d => keys32 (d_addr d)) ds ->
  classify_subaddresses ds change =
  (let l := distinct_dests change ds in
   (count (fun d => negb (d_is_subaddress d)) l, count d_is_subaddress l, last_sub l None)).
Proof. intros H. unfold classify_subaddresses. apply (classify_loop_spec ds change []); [constructor|exact H]. Qed.

(** distinct_dests really is the list of distinct non-change destinations *)
Lemma distinct_from_spec ds : forall seen change,
  let l := distinct_from seen change ds in
  NoDup (map d_addr l) /\
  (forall a, In a (map d_addr l) <-> In a (map d_addr ds) /\ ~ In a seen /\ change <> Some a).
Proof.
  induction ds as [|d ds IH]; intros seen change; cbn [distinct_from].
  - cbn. split; [constructor|]. intros a. tauto.
  - destruct (existsb _ _) eqn:E.
    + destruct (IH seen change) as [H1 H2]. split; [exact H1|]. intros a. rewrite H2. cbn [map].
      apply existsb_exists in E as (x & Hx & Ex). apply addr_eqb_spec in Ex. subst x.
      apply in_app_or in Hx. split; [intros (A1 & A2 & A3); cbn; auto|].
      intros ([<-|A1] & A2 & A3); [|auto].
      destruct Hx as [Hx|Hx]; [contradiction|]. destruct change as [c|]; [|contradiction].
      destruct Hx as [->|[]]. congruence.
    + assert (Hn : ~ In (d_addr d) seen /\ change <> Some (d_addr d)).
      { split; intros H0.
        - assert (existsb (addr_eqb (d_addr d)) (seen ++ match change with Some c => [c] | None => [] end) = true); [|congruence].
          apply existsb_exists. exists (d_addr d). split; [apply in_or_app; auto|now apply addr_eqb_spec].
        - assert (existsb (addr_eqb (d_addr d)) (seen ++ match change with Some c => [c] | None => [] end) = true); [|congruence].
          rewrite H0. apply existsb_exists. exists (d_addr d). split; [apply in_or_app; cbn; auto|now apply addr_eqb_spec]. }
      destruct (IH (d_addr d :: seen) change) as [H1 H2]. cbn [map]. split.
      * constructor; [|exact H1]. rewrite H2. cbn. tauto.
      * intros a. cbn [In]. rewrite H2. cbn [In]. split.
        -- intros [<-|(A1 & A2 & A3)]; [tauto|tauto].
        -- intros ([->|A1] & A2 & A3); [tauto|].
           destruct (addr_eqb (d_addr d) a) eqn:Ea; [apply addr_eqb_spec in Ea; auto|].
           right. split; [exact A1|]. split; [|exact A3]. intros [H3|H3]; [|tauto].
           apply addr_eqb_spec in H3. congruence.
Qed.

Lemma last_sub_single l a0 : count d_is_subaddress l = 1 ->
  exists d, In d l /\ d_is_subaddress d = true /\ last_sub l a0 = Some (d_addr d).
Proof.
  revert a0. induction l as [|d l IH]; intros a0; unfold count, last_sub; cbn [filter fold_left]; [intros H; discriminate|].
  destruct (d_is_subaddress d) eqn:E.
  - rewrite zlen_cons. intros H. exists d. split; [left; reflexivity|]. split; [exact E|].
    assert (Hf : filter d_is_subaddress l = []).
    { destruct (filter d_is_subaddress l) as [|x t]; [reflexivity|]. rewrite zlen_cons in H. pose proof (zlen_nonneg t). lia. }
    clear -Hf. revert Hf. generalize (Some (d_addr d)). induction l as [|x l IH]; cbn; intros o; [auto|].
    destruct (d_is_subaddress x); [discriminate|]. apply IH.
  - intros H. destruct (IH a0 H) as (x & Hx & H1 & H2). exists x. cbn. auto.
Qed.

(** ** change index *)
Lemma change_idx_loop_spec outs c : forall idx r,
  (exists k, change_idx_loop outs c idx r = Some (idx + Z.of_nat k) /\
     (exists o, nth_error outs k = Some o /\ d_amount o = d_amount c /\ d_addr o = d_addr c /\ d_amount c <> 0)
     /\ forall j o, (k < j)%nat -> nth_error outs j = Some o -> ~ (d_amount o = d_amount c /\ d_addr o = d_addr c)) \/
  (change_idx_loop outs c idx r = r /\
     forall o, In o outs -> ~ (d_amount o = d_amount c /\ d_addr o = d_addr c /\ d_amount c <> 0)).
Proof.
  induction outs as [|o outs IH]; intros idx r; cbn [change_idx_loop].
  - right. split; [reflexivity|]. intros o [].
  - destruct (negb (d_amount c =? 0) && (d_amount c =? d_amount o) && addr_eqb (d_addr c) (d_addr o)) eqn:E.
    + rewrite !andb_true_iff, addr_eqb_spec in E. destruct E as [[E1 E2] E3].
      destruct (IH (idx + 1) (Some idx)) as [(k & Hk & Ho & Hl)|[H1 H2]]; left.
      * exists (S k). split; [rewrite Hk; f_equal; lia|]. split; [exact Ho|].
        intros [|j] o' Hj; [lia|]. cbn. apply Hl. lia.
      * exists 0%nat. split; [rewrite H1; f_equal; lia|]. split.
        { exists o. cbn. repeat split; auto; lia. }
        intros [|j] o' Hj; [lia|]. cbn. intros Ho' [A B]. apply nth_error_In in Ho'.
        apply (H2 o' Ho'). repeat split; auto. lia.
    + destruct (IH (idx + 1) r) as [(k & Hk & Ho & Hl)|[H1 H2]]; [left|right].
      * exists (S k). split; [rewrite Hk; f_equal; lia|]. split; [exact Ho|].
        intros [|j] o' Hj; [lia|]. cbn. apply Hl. lia.
      * split; [exact H1|]. intros o' [<-|Ho']; [|auto].
        intros (A & B & C). assert (addr_eqb (d_addr c) (d_addr o) = true) by (apply addr_eqb_spec; auto).
        rewrite H in E. lia.
Qed.

Lemma count_split l : count (fun d => negb (d_is_subaddress d)) l + count d_is_subaddress l = zlen l.
Proof.
  unfold count. induction l as [|d l IH]; [reflexivity|]. cbn [filter].
  destruct (d_is_subaddress d); cbn [negb]; rewrite !zlen_cons; lia.
Qed.
Lemma count_pos l : (count d_is_subaddress l >? 0) = existsb d_is_subaddress l.
Proof.
  unfold count. induction l as [|d l IH]; [reflexivity|]. cbn [filter existsb].
  destruct (d_is_subaddress d); [rewrite zlen_cons; pose proof (zlen_nonneg (filter d_is_subaddress l)); lia|exact IH].
Qed.

Theorem txkey_choice_spec ds change : Forall (fun d => keys32 (d_addr d)) ds ->
  let l := distinct_dests change ds in
  fst (txkey_choice ds change) =
    match l with
    | [d] => if d_is_subaddress d then Some (spend_public_key (d_addr d)) else None
    | _ => None
    end
  /\ snd (txkey_choice ds change) = existsb d_is_subaddress l && (1 <? zlen l).
Proof.
  intros H l. unfold txkey_choice. rewrite classify_spec by assumption. fold l. cbn zeta.
  cbn [fst snd]. split.
  - destruct l as [|d [|d2 l']].
    + reflexivity.
    + unfold count, last_sub. cbn. destruct (d_is_subaddress d); reflexivity.
    + pose proof (count_split (d :: d2 :: l')) as HC. rewrite !zlen_cons in HC. pose proof (zlen_nonneg l').
      destruct (_ && _) eqn:E; [lia|reflexivity].
  - rewrite count_pos. pose proof (count_split l) as HC.
    destruct (existsb d_is_subaddress l) eqn:E; [|reflexivity]. cbn [andb].
    rewrite <- count_pos in E. pose proof (zlen_nonneg (filter (fun d => negb (d_is_subaddress d)) l)).
    unfold count in *. lia.
Qed.

Theorem change_idx_spec outs c :
  match get_change_addr_idx outs (Some c) with
  | Some i => exists k o, i = Z.of_nat k /\ nth_error outs k = Some o /\
      d_amount o = d_amount c /\ d_addr o = d_addr c /\ d_amount c <> 0 /\
      forall j o', (k < j)%nat -> nth_error outs j = Some o' -> ~ (d_amount o' = d_amount c /\ d_addr o' = d_addr c)
  | None => forall o, In o outs -> ~ (d_amount o = d_amount c /\ d_addr o = d_addr c /\ d_amount c <> 0)
  end.
Proof.
  cbn [get_change_addr_idx]. destruct (change_idx_loop_spec outs c 0 None) as [(k & -> & (o & H1 & H2 & H3 & H4) & Hl)|[-> H]].
  - exists k, o. repeat split; auto.
  - exact H.
Qed.
