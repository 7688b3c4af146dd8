(** C41, C42: payment ids and the extra field. *)
From Verif Require Import Py PyLemmas Digits Ints_model Protobuf_spec Protobuf_proof Ec_model Ec_spec Ec_proof Ec_toy Sigs_spec Sigs_proof KeySep_proof Wallet_model Wallet_spec Wallet_proof Extra_model Extra_spec Extra_proof.
From Verif Require Prop_Wallet.

(** ** C41 *)
(** The sender encrypts with the recipient's view key [a B] and the tx secret [r]; the
    recipient decrypts with the published [r B] and the view secret [a].  [B] is G for a
    main address and the spend key for a sub-address. *)
Theorem C41_roundtrip (E : ecops) : ec_laws E -> hash_bytes E -> forall payment_id B a r,
  nz_scalar a -> nz_scalar r -> length payment_id = 8%nat ->
  exists enc, encrypt_payment_id E payment_id (smul E B a) r = Ok enc /\ length enc = 8%nat /\
    encrypt_payment_id E enc (smul E B r) a = Ok payment_id.
Proof.
  intros L Hh pid B a r Ha Hr Hp. destruct (encrypt_roundtrip E L Hh pid B a r Ha Hr) as (e & H1 & H2 & H3); [lia|].
  exists e. rewrite H2. auto.
Qed.
Print Assumptions C41_roundtrip.
Example C41_roundtrip_example : exists enc,
  encrypt_payment_id toy [1; 2; 3; 4; 5; 6; 7; 255] (smul toy (Gb toy) 11) 17 = Ok enc /\ enc <> [1; 2; 3; 4; 5; 6; 7; 255] /\
  encrypt_payment_id toy enc (smul toy (Gb toy) 17) 11 = Ok [1; 2; 3; 4; 5; 6; 7; 255].
Proof. eexists. split; [vm_compute; reflexivity|]. split; [discriminate|vm_compute; reflexivity]. Qed.

(** Twice with the same keys is the identity, and every byte is the exclusive-or with a
    key stream that depends on the keys only. *)
Theorem C41_involution (E : ecops) : ec_laws E -> hash_bytes E -> forall P k, nz_scalar k ->
  exists key, length key = 32%nat /\
  forall payment_id, length payment_id = 8%nat ->
    encrypt_payment_id E payment_id P k = Ok (xor_id payment_id key) /\
    encrypt_payment_id E (xor_id payment_id key) P k = Ok payment_id.
Proof.
  intros L Hh P k Hk. exists (pid_key E (zmul E (8 * k) P)). split; [apply Hh|]. intros pid Hp.
  pose proof (pid_key_len E Hh (zmul E (8 * k) P)) as K.
  split; [apply (encrypt_ok E L Hh); [exact Hk|lia]|].
  rewrite (encrypt_ok E L Hh); [|exact Hk|rewrite xor_id_length; lia]. rewrite xor_id_invol by lia. reflexivity.
Qed.
Print Assumptions C41_involution.
Example C41_involution_example : xor_id [1; 2; 3; 4; 5; 6; 7; 8] (repeat 255 32) = [254; 253; 252; 251; 250; 249; 248; 247].
Proof. reflexivity. Qed.

(** Shorter ids are refused. *)
Theorem C41_short_refused (E : ecops) : ec_laws E -> hash_bytes E -> forall payment_id P k,
  nz_scalar k -> (length payment_id < 8)%nat -> encrypt_payment_id E payment_id P k = Err IndexError.
Proof. intros L Hh pid P k. apply (encrypt_short E L Hh). Qed.
Print Assumptions C41_short_refused.
Example C41_short_refused_example :
  match encrypt_payment_id toy [1; 2; 3; 4; 5; 6; 7] (Gb toy) 5 with Err IndexError => true | _ => false end = true.
Proof. vm_compute. reflexivity. Qed.

(** FALSE for longer ids: the encryption routine accepts them and leaves everything after
    the eighth byte in clear. *)
Theorem C41_long_refuted (E : ecops) : ec_laws E -> hash_bytes E ->
  ~ (forall payment_id P k, nz_scalar k -> length payment_id <> 8%nat -> exists e, encrypt_payment_id E payment_id P k = Err e) /\
  (forall payment_id P k enc, nz_scalar k -> (8 <= length payment_id)%nat ->
     encrypt_payment_id E payment_id P k = Ok enc -> skipn 8 enc = skipn 8 payment_id).
Proof.
  intros L Hh. split.
  - intros H. assert (K : nz_scalar 1) by (split; reflexivity). destruct (H (repeat 0 9) (Gb E) 1 K) as [e He]; [discriminate|].
    rewrite (encrypt_ok E L Hh) in He; [discriminate|exact K|cbn; lia].
  - intros pid P k enc Hk Hp H. rewrite (encrypt_ok E L Hh) in H by assumption. apply ok_inj in H. subst enc.
    pose proof (pid_key_len E Hh (zmul E (8 * k) P)) as K. unfold xor_id. rewrite skipn_app.
    rewrite skipn_all2 by (rewrite map_length, combine_length, firstn_length; lia).
    rewrite map_length, combine_length, firstn_length. replace (8 - _)%nat with 0%nat by lia. reflexivity.
Qed.
Print Assumptions C41_long_refuted.

(** The signing device does check: an id of another length than 0, 8 or 32 is refused,
    whatever the destinations; a 32-byte id is written in clear, marked as such. *)
Theorem C41_device_lengths (E : ecops) outs change payment_id r :
  (zlen payment_id <> 0 -> zlen payment_id <> 8 -> zlen payment_id <> 32 ->
     process_payment_id E outs change payment_id r = Err ValueError) /\
  (zlen payment_id = 32 -> process_payment_id E outs change payment_id r = Ok (Some (field_bytes (FNonce (0 :: payment_id))))).
Proof.
  split.
  - intros H0 H8 H32. unfold process_payment_id.
    rewrite (proj2 (Z.eqb_neq _ _) H0), (proj2 (Z.eqb_neq _ _) H8). cbn [orb].
    rewrite (proj2 (Z.eqb_neq _ _) H0), (proj2 (Z.eqb_neq _ _) H8), (proj2 (Z.eqb_neq _ _) H32). reflexivity.
  - intros H. unfold process_payment_id. rewrite H. cbn [Z.eqb Pos.eqb orb]. rewrite H. cbn [Z.eqb Pos.eqb bind field_bytes].
    replace (zlen (0 :: payment_id)) with 33 by (unfold zlen in *; cbn [length]; lia). rewrite H. reflexivity.
Qed.
Print Assumptions C41_device_lengths.
Example C41_device_lengths_example :
  process_payment_id toy [] None (repeat 5 16) 3 = Err ValueError /\
  process_payment_id toy [] None (repeat 5 32) 3 = Ok (Some (2 :: 33 :: 0 :: repeat 5 32)).
Proof. split; reflexivity. Qed.

(** Encrypted ids need a single recipient: with two different receiving addresses (the
    change address and zero amounts do not count) the device refuses. *)
Theorem C41_device_two_recipients (E : ecops) outs change payment_id r a b :
  zlen payment_id = 8 -> In a (real_dests outs change) -> In b (real_dests outs change) ->
  a <> b -> a <> null_addr -> b <> null_addr ->
  process_payment_id E outs change payment_id r = Err ValueError.
Proof.
  intros Hp Ha Hb Nab Na Nb. unfold process_payment_id. rewrite Hp. cbn [Z.eqb Pos.eqb orb].
  unfold get_destination_view_key_pub. fold null_addr. rewrite loop_reals, (loop_two payment_id a b); try assumption; [|lia].
  rewrite Hp. cbn [Z.eqb Pos.eqb]. rewrite zlist_eqb_refl. reflexivity.
Qed.
Print Assumptions C41_device_two_recipients.
Definition ex_addr (s vw : Z) : addr := {| ad_spend := encp toy (smul toy (Gb toy) s); ad_view := encp toy (smul toy (Gb toy) vw) |}.
Example C41_device_two_recipients_example :
  process_payment_id toy [(5, ex_addr 1 2); (6, ex_addr 3 4)] None (repeat 7 8) 3 = Err ValueError /\
  is_ok (process_payment_id toy [(5, ex_addr 1 2); (6, ex_addr 3 4)] (Some (ex_addr 3 4)) (repeat 7 8) 3) = true.
Proof. split; vm_compute; reflexivity. Qed.

(** One recipient, end to end: the device's extra field, with the tx key (and the
    additional keys) added when all outputs are known, is read by the recipient: it finds
    the tx key and the encrypted id and decrypts it.  An empty id becomes eight zeros. *)
Theorem C41_end_to_end (E : ecops) : ec_laws E -> hash_bytes E -> (forall P, length (encp E P) = 32%nat) ->
  forall outs change payment_id r a B spend need_additional additional,
  nz_scalar a -> nz_scalar r -> (zlen payment_id = 0 \/ zlen payment_id = 8) ->
  real_dests outs change <> [] ->
  Forall (eq {| ad_spend := spend; ad_view := encp E (smul E B a) |}) (real_dests outs change) ->
  encp E (smul E B a) <> NULL_KEY_ENC ->
  (need_additional = true -> additional <> [] /\ Forall (fun k => length k = 32%nat) additional) ->
  exists extra0 extra nonce enc,
    process_payment_id E outs change payment_id r = Ok (Some extra0) /\
    all_out1_set_tx_extra extra0 (encp E (smul E B r)) need_additional additional = Ok extra /\
    get_tx_pub_key_from_received_outs extra = Ok (encp E (smul E B r)) /\
    (let* fs := parse_extra_fields extra in Ok (find_tx_extra_field_by_type fs KNonce 0)) = Ok (Some (FNonce nonce)) /\
    get_encrypted_payment_id_from_tx_extra_nonce nonce = Ok enc /\ agent_payment_id extra = Ok enc /\
    encrypt_payment_id E enc (smul E B r) a = Ok (if zlen payment_id =? 0 then repeat 0 8 else payment_id).
Proof.
  intros L Hh Hl outs change pid r a B spend na adds Ha Hr Hp Hne Hall Hnull Hadd.
  set (pid' := if zlen pid =? 0 then repeat 0 8 else pid).
  assert (Lp : length pid' = 8%nat) by (unfold pid', zlen in *; destruct Hp as [Hp|Hp]; rewrite Hp; cbn; lia).
  destruct (encrypt_roundtrip E L Hh pid' B a r Ha Hr) as (e & H1 & H2 & H3); [lia|].
  set (fs := FNonce (1 :: e) :: FPub (encp E (smul E B r)) :: (if na then [FAdditional adds] else [])).
  assert (F : Forall field_ok fs).
  { unfold fs. repeat constructor; [apply Hl|]. destruct na; [|constructor]. constructor; [apply (Hadd eq_refl)|constructor]. }
  assert (Z9 : zlen (1 :: e) = 9) by (unfold zlen; cbn [length]; rewrite H2, Lp; reflexivity).
  exists (field_bytes (FNonce (1 :: e))), (extra_bytes fs), (1 :: e), e.
  assert (V : get_destination_view_key_pub outs change pid = (encp E (smul E B a), pid')).
  { unfold get_destination_view_key_pub. fold null_addr. rewrite loop_reals.
    rewrite (loop_one pid _ _ null_addr Hall Hne).
    - cbn [ad_view]. f_equal. unfold pid'. destruct (zlen pid =? 0); reflexivity.
    - intros H. apply Hnull. apply (f_equal ad_view) in H. exact H. }
  assert (G : get_encrypted_payment_id_from_tx_extra_nonce (1 :: e) = Ok e).
  { unfold get_encrypted_payment_id_from_tx_extra_nonce. rewrite Z9. cbn [Z.eqb Pos.eqb guard bind].
    rewrite (py_get_nonneg (1 :: e) 0 1) by (reflexivity || lia). cbn [bind Z.eqb Pos.eqb guard]. f_equal. apply py_from_1. }
  split; [|split; [|split; [|split; [|split; [exact G|split; [|exact H3]]]]]].
  - unfold process_payment_id. replace ((zlen pid =? 0) || (zlen pid =? 8)) with true by (destruct Hp as [-> | ->]; reflexivity).
    rewrite V. replace (zlen pid' =? 0) with false by (unfold zlen; rewrite Lp; reflexivity).
    replace (zlen pid' =? 8) with true by (unfold zlen; rewrite Lp; reflexivity).
    destruct (zlist_eqb _ NULL_KEY_ENC) eqn:Eq; [apply zlist_eqb_spec in Eq; contradiction|]. cbn [negb guard bind].
    rewrite (law_dec E L). cbn [bind]. rewrite H1. cbn [bind]. cbn [field_bytes].
    rewrite Z9. replace (zlen e) with 8 by (unfold zlen; rewrite H2, Lp; reflexivity). reflexivity.
  - unfold all_out1_set_tx_extra, fs. destruct na; cbn [map].
    + destruct (Hadd eq_refl) as [Hn _]. unfold add_additional_tx_pub_keys_to_extra, extra_bytes. destruct adds as [|x adds]; [contradiction|].
      cbn [map concat field_bytes]. unfold add_tx_pub_key_to_extra. rewrite app_nil_r, <- !app_assoc. reflexivity.
    + unfold extra_bytes, add_tx_pub_key_to_extra. cbn [map concat field_bytes]. rewrite app_nil_r. reflexivity.
  - unfold get_tx_pub_key_from_received_outs. rewrite (parse_extra_ok fs F). cbn [bind]. unfold fs. destruct na; reflexivity.
  - rewrite (parse_extra_ok fs F). reflexivity.
  - unfold agent_payment_id. rewrite (parse_extra_ok fs F). cbn [bind]. change (find_tx_extra_field_by_type fs KNonce 0) with (Some (FNonce (1 :: e))).
    cbv iota beta. unfold has_encrypted_payment_id. rewrite Z9. exact G.
Qed.
Print Assumptions C41_end_to_end.
Example C41_end_to_end_example : exists extra0 extra enc,
  process_payment_id toy [(0, ex_addr 9 9); (5, ex_addr 1 2); (6, ex_addr 3 4); (7, ex_addr 1 2)] (Some (ex_addr 3 4)) [] 3 = Ok (Some extra0) /\
  all_out1_set_tx_extra extra0 (encp toy (smul toy (Gb toy) 3)) true [repeat 1 32; repeat 2 32] = Ok extra /\
  agent_payment_id extra = Ok enc /\ length extra = 110%nat /\
  encrypt_payment_id toy enc (smul toy (Gb toy) 3) 2 = Ok (repeat 0 8).
Proof. do 3 eexists. split; [vm_compute; reflexivity|]. split; [vm_compute; reflexivity|]. split; [vm_compute; reflexivity|]. split; vm_compute; reflexivity. Qed.

(** ** C42 *)
(** Any sequence of fields in the wire format is read back exactly, and the search by
    kind returns the idx-th field of that kind. *)
Theorem C42_roundtrip fs : Forall field_ok fs ->
  parse_extra_fields (extra_bytes fs) = Ok fs /\
  forall k idx, 0 <= idx -> find_tx_extra_field_by_type fs k idx = nth_error (filter (is_kind k) fs) (Z.to_nat idx).
Proof.
  intros H. split; [apply parse_extra_ok, H|]. intros k idx Hi. unfold find_tx_extra_field_by_type. rewrite find_spec by exact Hi.
  rewrite Z.sub_0_r. reflexivity.
Qed.
Print Assumptions C42_roundtrip.
Example C42_roundtrip_example :
  let fs := [FNonce (repeat 3 200); FPub (repeat 4 32); FAdditional [repeat 5 32; repeat 6 32]; FPub (repeat 7 32)] in
  parse_extra_fields (extra_bytes fs) = Ok fs /\ find_tx_extra_field_by_type fs KPub 1 = Some (FPub (repeat 7 32)).
Proof. vm_compute. split; reflexivity. Qed.

(** What the code writes is that format: keys always, nonces up to 127 bytes. *)
Theorem C42_writers fs :
  (forall k, add_tx_pub_key_to_extra (extra_bytes fs) k = extra_bytes (fs ++ [FPub k])) /\
  (forall ks, ks <> [] -> add_additional_tx_pub_keys_to_extra (extra_bytes fs) ks = Ok (extra_bytes (fs ++ [FAdditional ks]))) /\
  (forall n, zlen n < 128 -> add_extra_nonce_to_tx_extra (extra_bytes fs) n = Ok (extra_bytes (fs ++ [FNonce n]))) /\
  (forall n, zlen n > 255 -> add_extra_nonce_to_tx_extra (extra_bytes fs) n = Err ValueError).
Proof.
  assert (A : forall f, extra_bytes (fs ++ [f]) = extra_bytes fs ++ field_bytes f).
  { intros f. unfold extra_bytes. rewrite map_app, concat_app. cbn [map concat]. rewrite app_nil_r. reflexivity. }
  repeat split.
  - intros k. rewrite A. reflexivity.
  - intros ks Hk. rewrite A. destruct ks; [contradiction|reflexivity].
  - intros n Hn. rewrite A. unfold add_extra_nonce_to_tx_extra. rewrite (proj2 (Z.ltb_ge 255 (zlen n))) by lia.
    cbn [field_bytes]. rewrite varint_small by (unfold zlen in *; lia). reflexivity.
  - intros n Hn. unfold add_extra_nonce_to_tx_extra. rewrite (proj2 (Z.ltb_lt 255 (zlen n))) by lia. reflexivity.
Qed.
Print Assumptions C42_writers.
Example C42_writers_example :
  add_extra_nonce_to_tx_extra [] (repeat 9 127) = Ok (extra_bytes [FNonce (repeat 9 127)]).
Proof. vm_compute. reflexivity. Qed.

(** FALSE for nonces of 128 to 255 bytes: accepted, but the length is one raw byte, not
    a varint, so the reader does not find the nonce. *)
Theorem C42_long_nonce_refuted :
  ~ (forall n b, zlen n <= 255 -> add_extra_nonce_to_tx_extra [] n = Ok b ->
       parse_extra_fields b = Ok [FNonce n]) /\
  (forall n b, 128 <= zlen n <= 255 -> bytes_ok n -> add_extra_nonce_to_tx_extra [] n = Ok b ->
       parse_extra_fields b <> Ok [FNonce n]).
Proof.
  assert (G : forall n b, 128 <= zlen n <= 255 -> bytes_ok n -> add_extra_nonce_to_tx_extra [] n = Ok b -> parse_extra_fields b <> Ok [FNonce n]).
  { intros n b Hn Hb H. unfold add_extra_nonce_to_tx_extra in H. rewrite (proj2 (Z.ltb_ge 255 (zlen n))) in H by lia. apply ok_inj in H. subst b.
    cbn [app]. unfold parse_extra_fields. cbn [length parse_loop read_field Z.eqb Pos.eqb read_uvarint].
    rewrite (proj2 (Z.ltb_ge (zlen n) 128)) by lia. intros H.
    destruct (read_uvarint n) as [[v r]|] eqn:Er; [|discriminate]. cbn [bind] in H.
    destruct (take (zlen n - 128 + 128 * v) r) as [[x r2]|] eqn:Et; [|discriminate]. cbn [bind] in H.
    assert (Lr : forall m w q, read_uvarint m = Ok (w, q) -> (length q < length m)%nat).
    { induction m as [|y m IH]; intros w q Hq; [discriminate|]. cbn [read_uvarint length] in *. destruct (y <? 128); [apply ok_inj in Hq; apply pair_equal_spec in Hq; destruct Hq; subst; lia|].
      destruct (read_uvarint m) as [[w' q']|] eqn:Em; [|discriminate]. cbn [bind] in Hq. apply ok_inj, pair_equal_spec in Hq. destruct Hq; subst. specialize (IH _ _ eq_refl). lia. }
    specialize (Lr _ _ _ Er). unfold take in Et. destruct (_ <=? zlen r) eqn:El; [|discriminate]. apply ok_inj, pair_equal_spec in Et. destruct Et as [Ex _].
    assert (X : x = n).
    { revert H. match goal with |- bind ?e _ = _ -> _ => generalize e end. intros [fs|e] H; [|discriminate]. cbn [bind] in H. apply ok_inj in H. congruence. }
    assert (Lx : (length x <= length r)%nat) by (rewrite <- Ex, firstn_length; lia). rewrite X in Lx. lia. }
  split; [|exact G]. intros H. apply (G (repeat 0 200) (2 :: 200 :: repeat 0 200)).
  - split; discriminate.
  - apply Forall_forall. intros x Hx. apply repeat_spec in Hx. subst x. split; [discriminate|reflexivity].
  - reflexivity.
  - apply H; [discriminate|reflexivity].
Qed.
Print Assumptions C42_long_nonce_refuted.

(** Payment ids: the kind and content are found again by the agent. *)
Theorem C42_payment_id_nonces fs payment_id : Forall field_ok fs -> filter (is_kind KNonce) fs = [] ->
  (zlen payment_id = 8 ->
     let n := set_encrypted_payment_id_to_tx_extra_nonce payment_id in
     has_encrypted_payment_id n = true /\ has_payment_id n = false /\
     exists b, add_extra_nonce_to_tx_extra (extra_bytes fs) n = Ok b /\ agent_payment_id b = Ok payment_id) /\
  (zlen payment_id = 32 ->
     let n := set_payment_id_to_tx_extra_nonce payment_id in
     has_encrypted_payment_id n = false /\ has_payment_id n = true /\
     exists b, add_extra_nonce_to_tx_extra (extra_bytes fs) n = Ok b /\ agent_payment_id b = Ok payment_id).
Proof.
  intros F Fn.
  assert (G : forall n, zlen n < 128 -> exists b, add_extra_nonce_to_tx_extra (extra_bytes fs) n = Ok b /\
     (let* fs := parse_extra_fields b in Ok (find_tx_extra_field_by_type fs KNonce 0)) = Ok (Some (FNonce n))).
  { intros n Hn. destruct (C42_writers fs) as (_ & _ & W & _). rewrite (W n Hn). eexists. split; [reflexivity|].
    assert (F' : Forall field_ok (fs ++ [FNonce n])) by (apply Forall_app; split; [exact F|repeat constructor]).
    destruct (C42_roundtrip _ F') as [P Q]. rewrite P. cbn [bind]. rewrite Q by lia. rewrite filter_app, Fn. reflexivity. }
  assert (Ag : forall n b, (let* fs := parse_extra_fields b in Ok (find_tx_extra_field_by_type fs KNonce 0)) = Ok (Some (FNonce n)) ->
     agent_payment_id b = if has_encrypted_payment_id n then get_encrypted_payment_id_from_tx_extra_nonce n
      else if has_payment_id n then get_payment_id_from_tx_extra_nonce n else Ok []).
  { intros n b H. unfold agent_payment_id. destruct (parse_extra_fields b) as [fs'|]; [|discriminate]. cbn [bind] in *. apply ok_inj in H. rewrite H. reflexivity. }
  split; intros Hp.
  - set (n := set_encrypted_payment_id_to_tx_extra_nonce payment_id). assert (Hn : zlen n = 9) by (unfold n, set_encrypted_payment_id_to_tx_extra_nonce, zlen in *; cbn [length]; lia).
    assert (HE : has_encrypted_payment_id n = true) by (unfold has_encrypted_payment_id; rewrite Hn; reflexivity).
    assert (HP : has_payment_id n = false) by (unfold has_payment_id; rewrite Hn; reflexivity).
    split; [exact HE|split; [exact HP|]]. destruct (G n) as (b & B1 & B2); [lia|]. exists b. split; [exact B1|]. rewrite (Ag n b B2), HE.
    unfold get_encrypted_payment_id_from_tx_extra_nonce. rewrite Hn. cbn [Z.eqb Pos.eqb guard bind].
    rewrite (py_get_nonneg n 0 1) by (reflexivity || lia). cbn [bind Z.eqb Pos.eqb guard]. f_equal. apply py_from_1.
  - set (n := set_payment_id_to_tx_extra_nonce payment_id). assert (Hn : zlen n = 33) by (unfold n, set_payment_id_to_tx_extra_nonce, zlen in *; cbn [length]; lia).
    assert (HE : has_encrypted_payment_id n = false) by (unfold has_encrypted_payment_id; rewrite Hn; reflexivity).
    assert (HP : has_payment_id n = true) by (unfold has_payment_id; rewrite Hn; reflexivity).
    split; [exact HE|split; [exact HP|]]. destruct (G n) as (b & B1 & B2); [lia|]. exists b. split; [exact B1|]. rewrite (Ag n b B2), HE, HP.
    unfold get_payment_id_from_tx_extra_nonce. rewrite Hn. cbn [Z.eqb Pos.eqb guard bind].
    rewrite (py_get_nonneg n 0 0) by (reflexivity || lia). cbn [bind Z.eqb Pos.eqb guard]. f_equal. apply py_from_1.
Qed.
Print Assumptions C42_payment_id_nonces.

(** What the agent takes for the payment id of any extra field: the one in the first nonce
    if that nonce has one of the two forms, and otherwise none; it never raises. *)
Theorem C42_payment_id_read fs : Forall field_ok fs ->
  exists p, agent_payment_id (extra_bytes fs) = Ok p /\
    match nonces fs with
    | n :: _ => nonce_id n p \/ ((forall q, ~ nonce_id n q) /\ p = [])
    | [] => p = []
    end.
Proof.
  intros F. unfold agent_payment_id. destruct (C42_roundtrip fs F) as [P Q]. rewrite P. cbn [bind]. rewrite Q by lia. change (Z.to_nat 0) with 0%nat. clear P Q F.
  assert (N : nth_error (filter (is_kind KNonce) fs) 0 = match nonces fs with n :: _ => Some (FNonce n) | [] => None end).
  { induction fs as [|[k|n|ks] fs IH]; [reflexivity|exact IH|reflexivity|exact IH]. }
  rewrite N. destruct (nonces fs) as [|n r]; [eexists; split; reflexivity|]. clear.
  unfold has_encrypted_payment_id, has_payment_id, get_encrypted_payment_id_from_tx_extra_nonce, get_payment_id_from_tx_extra_nonce.
  assert (Z0 : forall (x : Z) t, py_get (x :: t) 0 = Ok x) by (intros; apply py_get_nonneg; [lia|reflexivity]).
  destruct n as [|x t].
  { exists []. split; [reflexivity|]. right. split; [|reflexivity]. intros q [[H _]|[H _]]; discriminate H. }
  assert (LZ : zlen (x :: t) = 1 + zlen t) by (unfold zlen; cbn [length]; lia). unfold nonce_id.
  destruct ((zlen (x :: t) =? 9) && (nth 0 (x :: t) 0 =? 1)) eqn:E1; [|destruct ((zlen (x :: t) =? 33) && (nth 0 (x :: t) 1 =? 0)) eqn:E2].
  - apply andb_true_iff in E1. destruct E1 as [E1 E1']. rewrite E1. cbn [guard bind]. rewrite Z0. cbn [bind]. cbn [nth] in E1'. rewrite E1'. cbn [guard bind].
    exists t. split; [f_equal; apply py_from_1|]. left. left. unfold zlen in *. split; [f_equal; lia|lia].
  - apply andb_true_iff in E2. destruct E2 as [E2 E2']. rewrite E2. cbn [guard bind]. rewrite Z0. cbn [bind]. cbn [nth] in E2'. rewrite E2'. cbn [guard bind].
    exists t. split; [f_equal; apply py_from_1|]. left. right. unfold zlen in *. split; [f_equal; lia|lia].
  - exists []. split; [reflexivity|]. right. split; [|reflexivity]. cbn [nth] in E1, E2. intros q [[H Hq]|[H Hq]]; assert (x :: t = x :: q /\ t = q) as [_ X] by (split; congruence); subst q; unfold zlen in *.
    + assert (x = 1) by congruence. subst x. rewrite LZ, Hq in E1. discriminate E1.
    + assert (x = 0) by congruence. subst x. rewrite LZ, Hq in E2. discriminate E2.
Qed.
Print Assumptions C42_payment_id_read.
Example C42_payment_id_read_example :
  agent_payment_id (extra_bytes [FPub (repeat 4 32); FNonce (7 :: repeat 3 8); FNonce (1 :: repeat 3 8)]) = Ok [] /\
  agent_payment_id (extra_bytes [FPub (repeat 4 32); FNonce (1 :: repeat 3 8)]) = Ok (repeat 3 8).
Proof. vm_compute. split; reflexivity. Qed.
Example C42_payment_id_nonces_example :
  agent_payment_id (extra_bytes [FPub (repeat 4 32); FNonce (1 :: repeat 8 8)]) = Ok (repeat 8 8) /\
  agent_payment_id (extra_bytes [FPub (repeat 4 32); FNonce (0 :: repeat 8 32)]) = Ok (repeat 8 32).
Proof. vm_compute. split; reflexivity. Qed.

(** The tx key is returned when there is exactly one; with two the transaction is refused. *)
Theorem C42_tx_pub_key fs : Forall field_ok fs ->
  (forall k, filter (is_kind KPub) fs = [FPub k] -> get_tx_pub_key_from_received_outs (extra_bytes fs) = Ok k) /\
  ((2 <= length (filter (is_kind KPub) fs))%nat -> get_tx_pub_key_from_received_outs (extra_bytes fs) = Err ValueError).
Proof.
  intros F. destruct (C42_roundtrip fs F) as [P Q]. unfold get_tx_pub_key_from_received_outs. rewrite P. cbn [bind].
  rewrite !Q by lia. change (Z.to_nat 1) with 1%nat. change (Z.to_nat 0) with 0%nat. split.
  - intros k ->. reflexivity.
  - intros H. destruct (filter (is_kind KPub) fs) as [|x [|y l]]; cbn [length] in H; try lia. reflexivity.
Qed.
Print Assumptions C42_tx_pub_key.
Example C42_tx_pub_key_example :
  get_tx_pub_key_from_received_outs (extra_bytes [FNonce [1]; FPub (repeat 4 32)]) = Ok (repeat 4 32) /\
  get_tx_pub_key_from_received_outs (extra_bytes [FPub (repeat 5 32); FPub (repeat 4 32)]) = Err ValueError.
Proof. vm_compute. split; reflexivity. Qed.
