(** C38, C39, C40: receiving money. *)
From Verif Require Import Py PyLemmas Digits Ints_model Ec_model Ec_spec Ec_toy Sigs_spec Sigs_proof Mlsag_model Mlsag_spec Rsig_model KeySep_proof Wallet_model Wallet_spec Wallet_proof Ec_proof.

Lemma toy_hash_bytes : hash_bytes toy.
Proof.
  intros x. cbn [hash toy]. unfold toy_hash. split; [apply le_digits_length|].
  apply (le_digits_ok 256 32); reflexivity.
Qed.

(** ** C38 *)
(** First encoding: for every shared secret (any byte string), mask and amount. *)
Theorem C38_first_encoding (E : ecops) mask amount secret : scalar mask -> scalar amount ->
  ecdh_decode E (ecdh_encode E (mask, amount) secret false) secret false = (mask, amount).
Proof. apply v1_roundtrip. Qed.
Print Assumptions C38_first_encoding.
Example C38_first_encoding_example :
  ecdh_encode toy (1000, 2 ^ 63) [1; 2; 3] false <> (1000, 2 ^ 63) /\
  ecdh_decode toy (ecdh_encode toy (1000, 2 ^ 63) [1; 2; 3] false) [1; 2; 3] false = (1000, 2 ^ 63).
Proof. split; [vm_compute; congruence|apply C38_first_encoding; split; [discriminate|reflexivity|discriminate|reflexivity]]. Qed.

(** Second (compact) encoding: the amount comes back, and the mask is the one both
    sides derive from the secret. *)
Theorem C38_second_encoding (E : ecops) mask amount secret : hash_bytes E -> 0 <= amount < 2 ^ 64 ->
  ecdh_decode E (ecdh_encode E (mask, amount) secret true) secret true = (commitment_mask E secret, amount).
Proof. apply v2_roundtrip. Qed.
Print Assumptions C38_second_encoding.
Example C38_second_encoding_example :
  snd (ecdh_encode toy (7, 123456789) [1; 2; 3] true) <> 123456789 /\
  snd (ecdh_decode toy (ecdh_encode toy (7, 123456789) [1; 2; 3] true) [1; 2; 3] true) = 123456789.
Proof. split; [vm_compute; congruence|]. rewrite (C38_second_encoding toy 7 123456789 [1; 2; 3] toy_hash_bytes); [reflexivity|split; [discriminate|reflexivity]]. Qed.

(** What is written for an output, byte by byte.  Compact: byte k of the amount xor byte k of H("amount" ak), and the mask is
    Hs("commitment_mask" ak); first encoding: mask + Hs(ak) and amount + Hs(Hs(ak)) modulo the group order. *)
Theorem C38_on_the_wire (E : ecops) P mask amount ak key com info : 0 <= amount < 2 ^ 64 ->
  commitment_mask E (enc_sc ak) = hash_to_scalar E ([99; 111; 109; 109; 105; 116; 109; 101; 110; 116; 95; 109; 97; 115; 107] ++ enc_sc ak) /\
  (s6_ecdh_info_and_out_pk E P amount mask ak true = (key, com, info) ->
   info = map (fun k => Z.lxor (nth k (le_digits 256 8 amount) 0) (nth k (hash E ([97; 109; 111; 117; 110; 116] ++ enc_sc ak)) 0)) (seq 0 8)) /\
  (s6_ecdh_info_and_out_pk E P amount mask ak false = (key, com, info) ->
   let h1 := hash_to_scalar E (enc_sc ak) in
   info = le_digits 256 32 ((mask + h1) mod l) ++ le_digits 256 32 ((amount + hash_to_scalar E (le_digits 256 32 h1)) mod l)).
Proof.
  intros Ha. split; [reflexivity|]. assert (M : amount mod l = amount) by (apply Z.mod_small; split; [lia|]; apply Z.lt_trans with (2 ^ 64); [lia|reflexivity]).
  split; intros H; unfold s6_ecdh_info_and_out_pk in H; apply pair_equal_spec in H; destruct H as [_ <-]; unfold s6_serialize_ecdh, s6_ecdh_encode; cbv zeta; rewrite M.
  - cbn [snd]. change (ecdh_hash E (enc_sc ak)) with (hash E ([97; 109; 111; 117; 110; 116] ++ enc_sc ak)). set (h := hash E _). clearbody h. reflexivity.
  - cbn [fst snd]. unfold enc_sc. rewrite !firstn_all2 by (rewrite le_digits_length; lia). reflexivity.
Qed.
Print Assumptions C38_on_the_wire.
Example C38_on_the_wire_example : exists key com info, s6_ecdh_info_and_out_pk toy (Gb toy) 5000 77 9 true = (key, com, info) /\ length info = 8%nat.
Proof. destruct (s6_ecdh_info_and_out_pk toy (Gb toy) 5000 77 9 true) as [[key com] info] eqn:H. exists key, com, info. split; [reflexivity|]. destruct (C38_on_the_wire toy (Gb toy) 77 5000 9 key com info) as (_ & K & _); [split; [discriminate|reflexivity]|]. rewrite (K H). reflexivity. Qed.

(** From the device to the wallet: what the device serialises for an output with
    one-time key [P] and amount key [ak], once parsed by the agent into the transaction
    at position [i], is decoded by the wallet to that amount and mask. *)
Theorem C38_device_to_wallet (E : ecops) : ec_laws E -> hash_bytes E -> forall P mask amount der i (v2 : bool) (rv : rv_outs) key com info,
  scalar mask -> 0 <= amount < 2 ^ 64 -> 0 <= i ->
  let ak := derivation_to_scalar E der i in
  (v2 = true -> mask = commitment_mask E (enc_sc ak)) ->
  s6_ecdh_info_and_out_pk E P amount mask ak v2 = (key, com, info) ->
  (if v2 then rv_type rv = 4 else 1 <= rv_type rv <= 3) ->
  length (rv_outPk rv) = length (rv_ecdh rv) ->
  nth_error (rv_outPk rv) (Z.to_nat i) = Some com ->
  nth_error (rv_ecdh rv) (Z.to_nat i) = Some (agent_parse_ecdh info v2) ->
  ecdh_decode_rv E rv der i = Ok (amount, mask).
Proof.
  intros L Hh P mask amount der i v2 rv key com info Hm Ha Hi ak Hv Hs Ht Hl Ho He. unfold s6_ecdh_info_and_out_pk in Hs.
  apply pair_equal_spec in Hs. destruct Hs as [Hs <-]. apply pair_equal_spec in Hs. destruct Hs as [_ <-].
  eapply rv_decode; try eassumption. reflexivity.
Qed.
Print Assumptions C38_device_to_wallet.
Example C38_device_to_wallet_example :
  let der := smul toy (Gb toy) 99 in
  let run v2 mask :=
    let '(key, com, info) := s6_ecdh_info_and_out_pk toy (Gb toy) 5000 mask (derivation_to_scalar toy der 1) v2 in
    ecdh_decode_rv toy {| rv_type := if v2 then 4 else 3; rv_ecdh := [([], []); agent_parse_ecdh info v2]; rv_outPk := [[]; com] |} der 1 in
  run false 77 = Ok (5000, 77) /\ (exists mask, run true mask = Ok (5000, mask)) /\ run true 77 = Err ValueError.
Proof.
  split; [vm_compute; reflexivity|split; [|vm_compute; reflexivity]].
  exists (commitment_mask toy (enc_sc (derivation_to_scalar toy (smul toy (Gb toy) 99) 1))). vm_compute. reflexivity.
Qed.

(** Whatever the wallet decodes without an error opens the published commitment. *)
Theorem C38_decoded_amounts_open (E : ecops) : ec_laws E -> forall (rv : rv_outs) der i amount mask, 0 <= i ->
  ecdh_decode_rv E rv der i = Ok (amount, mask) ->
  exists o, nth_error (rv_outPk rv) (Z.to_nat i) = Some o /\ decp E o = Ok (commit E mask amount).
Proof.
  intros L rv der i amount mask Hi H. unfold ecdh_decode_rv in H.
  assert (X : exists v2, ecdh_decode_simple E rv (derivation_to_scalar E der i) i v2 = Ok (amount, mask)).
  { destruct (_ || _); [exists false; exact H|]. destruct (rv_type rv =? 4); [exists true; exact H|discriminate]. }
  destruct X as [v2 X]. destruct (decode_simple_inv E L rv _ i v2 amount mask Hi X) as (o & c & H1 & H2 & ->). eauto.
Qed.
Print Assumptions C38_decoded_amounts_open.
Example C38_decoded_amounts_open_example :
  ecdh_decode_rv toy {| rv_type := 3; rv_ecdh := [(enc_sc 5, enc_sc 6)]; rv_outPk := [encp toy (Gb toy)] |} (Gb toy) 0 = Err ValueError.
Proof. vm_compute. reflexivity. Qed.

(** FALSE for the third way of calling the decoder: with the receiver's secret key in
    place of the shared secret, nothing that was encoded for that key decodes. *)
Theorem C38_receiver_key_refuted (E : ecops) :
  ~ (forall mask amount b esk, scalar mask -> scalar amount -> scalar b -> scalar esk ->
       let '(pk, enc) := ecdh_encode_pk E (mask, amount) (smul E (Gb E) b) esk false in
       ecdh_decode_sk E enc pk b false = Ok (mask, amount)).
Proof.
  intros H. assert (S : scalar 1) by (split; [discriminate|reflexivity]). specialize (H 1 1 1 1 S S S S). discriminate H.
Qed.
Print Assumptions C38_receiver_key_refuted.

(** ** C39 *)
(** Payment, end to end.  The sender pays output [i] to the sub-address (M, m) (main
    address included) of the wallet (a, b), publishing tx key R and additional keys as
    [published] says.  The receiver whose table knows the address finds it: an index
    with the same spend key, the discrete log of the one-time key, the key image, and
    amount and mask.  The only other possibility is a coincidence: with additional keys
    in use, the derivation from the main tx key also turns the output into one of the
    wallet's addresses. *)
Theorem C39_payment_received (E : ecops) : ec_laws E -> hash_bytes E ->
  forall a b M m change need_additional r s va i R adds d amount mask (v2 : bool) (rv : rv_outs),
  nz_scalar a -> nz_scalar b -> nz_scalar r -> nz_scalar s -> nz_scalar va -> u32 M -> u32 m -> 0 <= i ->
  table_sound E a b d -> table_has E a b d M m ->
  (change = true -> va = a) ->
  published E need_additional (dest_of E a b M m change) r s i R adds ->
  scalar mask -> 0 <= amount < 2 ^ 64 ->
  exists P ak, compute_tx_keys E need_additional (dest_of E a b M m change) r s va R i = Ok (P, ak) /\
  forall key com info,
  s6_ecdh_info_and_out_pk E P amount mask ak v2 = (key, com, info) ->
  (v2 = true -> mask = commitment_mask E (enc_sc ak)) ->
  (if v2 then rv_type rv = 4 else 1 <= rv_type rv <= 3) ->
  length (rv_outPk rv) = length (rv_ecdh rv) ->
  nth_error (rv_outPk rv) (Z.to_nat i) = Some com ->
  nth_error (rv_ecdh rv) (Z.to_nat i) = Some (agent_parse_ecdh info v2) ->
  exists recv additional, generate_key_derivation E R a = Ok recv /\
    mapM (fun p => generate_key_derivation E p a) adds = Ok additional /\
    ((exists M' m' x, scan_output E (wallet E a b) d rv key recv additional i =
          Ok (Some ((M', m'), x, smul E (Hp E (encp E P)) x, amount, mask)) /\
        generate_key_image_helper E (wallet E a b) d P R adds i = Ok (x, smul E (Hp E (encp E P)) x, recv) /\
        u32 M' /\ u32 m' /\ sub_D E a b M' m' = sub_D E a b M m /\ scalar x /\ smul E (Gb E) x = P) \/
     (need_additional = true /\ exists M' m', u32 M' /\ u32 m' /\ P = derive_public_key E recv i (sub_D E a b M' m'))).
Proof.
  intros L Hh a b M m change na r s va i R adds d amount mask v2 rv Ha Hb Hr Hs Hva HM Hm Hi Sd Hd Hc Hp Hmask Ham.
  destruct (compute_tx_keys_ok E L na (dest_of E a b M m change) r s va R i Hva Hr Hs) as (P & ak & Hk).
  exists P, ak. split; [exact Hk|]. intros key com info Hinfo Hv Ht Hl Ho He.
  destruct (sender_derivation E L a b M m change na r s va i R adds P ak Ha Hr Hs Hc Hp Hk) as (der & EP & Eak & Hder).
  exists (zmul E (8 * a) R), (map (zmul E (8 * a)) adds).
  split; [apply derivation_ok; assumption|split; [apply mapM_deriv; assumption|]].
  assert (Hder' : der = zmul E (8 * a) R \/ nth_error (map (zmul E (8 * a)) adds) (Z.to_nat i) = Some der).
  { destruct Hder as [H|(Ri & HRi & _ & ->)]; [left; exact H|right; apply map_nth_error, HRi]. }
  unfold s6_ecdh_info_and_out_pk in Hinfo. apply pair_equal_spec in Hinfo. destruct Hinfo as [Hinfo Einfo].
  apply pair_equal_spec in Hinfo. destruct Hinfo as [Ekey Ecom]. subst key com info ak.
  destruct (recognised E L a b d P i M m (zmul E (8 * a) R) (map (zmul E (8 * a)) adds) Sd Hd Hi der EP Hder')
    as [(M' & m' & Hrec & HM' & Hm' & ED)|(Nr & M' & m' & HM' & Hm' & EP')].
  - left. rewrite <- ED in EP. destruct (helper_ok E L a b der i M' m' Hb HM' Hm') as (x & Hx1 & Hx2 & Hx3). rewrite <- EP in Hx1, Hx3.
    exists M', m', x. split; [|split; [|auto 10]].
    + unfold scan_output. rewrite (law_dec E L). cbn [bind]. rewrite Hrec. cbn [bind]. rewrite Hx1. cbn [bind].
      rewrite (rv_decode E L rv der i v2 mask amount (gen_c E mask amount)); try assumption; reflexivity.
    + unfold generate_key_image_helper. change (cr_view E (wallet E a b)) with a. rewrite derivation_ok by assumption. cbn [bind].
      rewrite mapM_deriv by assumption. cbn [bind]. rewrite Hrec. cbn [bind]. rewrite Hx1. reflexivity.
  - right. split; [|exists M', m'; auto].
    destruct na; [reflexivity|]. destruct Hp as [Hp1 _]. destruct Hder as [H|(Ri & HRi & _)]; [contradiction|].
    rewrite (Hp1 eq_refl) in HRi. destruct (Z.to_nat i); discriminate.
Qed.
Print Assumptions C39_payment_received.

(** Non-vacuity: sub-address (1, 2) of the wallet (a, b) = (11, 13), with an additional
    key, as output 0 of the transaction. *)
Definition ex_dest := dest_of toy 11 13 1 2 false.
Definition ex_R := smul toy (Gb toy) 17.
Definition ex_adds := [smul toy (sub_D toy 11 13 1 2) 19].
Definition ex_table : subaddrs := match compute_subaddresses toy 11 (smul toy (Gb toy) 13) 1 [0; 1; 2; 3] [] with Ok d => d | Err _ => [] end.
Example C39_payment_received_example :
  match compute_tx_keys toy true ex_dest 17 19 23 ex_R 0 with
  | Err _ => None
  | Ok (P, ak) =>
      let '(key, com, info) := s6_ecdh_info_and_out_pk toy P 5000 77 ak false in
      match scan_output toy (wallet toy 11 13) ex_table
        {| rv_type := 3; rv_ecdh := [agent_parse_ecdh info false]; rv_outPk := [com] |} key
        (zmul toy (8 * 11) ex_R) (map (zmul toy (8 * 11)) ex_adds) 0 with
      | Ok (Some (idx, x, ki, amount, mask)) => Some (idx, amount, mask, zlist_eqb (encp toy (smul toy (Gb toy) x)) key)
      | _ => None
      end
  end = Some ((1, 2), 5000, 77, true) /\
  published toy true ex_dest 17 19 0 ex_R ex_adds /\
  table_sound toy 11 13 ex_table /\ table_has toy 11 13 ex_table 1 2.
Proof.
  assert (T : table_sound toy 11 13 ex_table /\ table_has toy 11 13 ex_table 1 2).
  { destruct (compute_ok toy toy_laws 11 13 1 ltac:(split; [discriminate|reflexivity]) ltac:(split; [discriminate|reflexivity]) [0; 1; 2; 3] [])
      as (d & H1 & H2 & H3 & _); [repeat constructor; discriminate|intros k M m H; discriminate|].
    unfold ex_table. rewrite H1. split; [exact H2|apply H3; right; right; left; reflexivity]. }
  split; [vm_compute; reflexivity|]. split; [|exact T].
  split; [discriminate|]. split; [|intros _; cbn [ex_dest dest_of ds_sub]; discriminate].
  intros _. split; [discriminate|reflexivity].
Qed.

(** The other direction: whatever output the wallet recognises, sent by anybody, it can
    spend: it derives the discrete log of the output key and the key image. *)
Theorem C39_recognised_is_spendable (E : ecops) : ec_laws E -> forall a b d P der additional i M m der',
  nz_scalar b -> table_sound E a b d ->
  is_out_to_acc_precomp E d P der additional i = Ok (Some ((M, m), der')) ->
  exists x, generate_key_image_helper_precomp E (wallet E a b) P der' i (M, m) = Ok (x, smul E (Hp E (encp E P)) x) /\
    scalar x /\ smul E (Gb E) x = P.
Proof.
  intros L a b d P der additional i M m der' Hb Sd H.
  destruct (recognised_spendable E L a b d P der additional i M m der' Hb Sd H) as (EP & HM & Hm).
  destruct (helper_ok E L a b der' i M m Hb HM Hm) as (x & H1 & H2 & H3). rewrite <- EP in H1, H3. eauto.
Qed.
Print Assumptions C39_recognised_is_spendable.
Example C39_recognised_is_spendable_example :
  let der := smul toy (Gb toy) 12345 in
  let P := derive_public_key toy der 4 (sub_D toy 11 13 1 3) in
  let index r := match r with Ok (Some (idx, _)) => Some idx | _ => None end in
  index (is_out_to_acc_precomp toy ex_table P der [] 4) = Some (1, 3) /\
  index (is_out_to_acc_precomp toy ex_table P der [] 5) = None.
Proof. vm_compute. split; reflexivity. Qed.

(** The precomputed key-image helper never returns a secret that does not open the
    output key it was given, for any account, index, derivation or table. *)
Theorem C39_helper_checked (E : ecops) : ec_laws E -> forall ack P der i idx x ki, cr_multisig E ack = false ->
  generate_key_image_helper_precomp E ack P der i idx = Ok (x, ki) ->
  smul E (Gb E) x = P /\ ki = smul E (Hp E (encp E P)) x.
Proof.
  intros L ack P der i idx x ki Hm H. unfold generate_key_image_helper_precomp in H.
  destruct (sc_isnonzero _); [|discriminate]. cbn [guard bind] in H.
  destruct (derive_secret_key _ _ _ _) as [s1|]; [|discriminate]. cbn [bind] in H.
  destruct (if (fst idx =? 0) && (snd idx =? 0) then _ else _) as [[sk s2]|]; [|discriminate]. cbn [bind] in H.
  rewrite Hm in H. cbn [negb] in H. destruct (pt_eqb E _ P) eqn:Eq; [|discriminate]. cbn [guard bind] in H.
  apply (law_eqb E L) in Eq. apply ok_inj in H. apply pair_equal_spec in H. destruct H as [-> <-].
  unfold scalarmult_base in Eq. split; [exact Eq|]. unfold key_image_of, scalarmult, scalarmult_base. rewrite Eq. reflexivity.
Qed.
Print Assumptions C39_helper_checked.
Example C39_helper_checked_example :
  let der := smul toy (Gb toy) 12345 in
  let P := derive_public_key toy der 4 (sub_D toy 11 13 1 3) in
  let ok r := match r with Ok (_, _) => true | Err _ => false end in
  ok (generate_key_image_helper_precomp toy (wallet toy 11 13) P der 4 (1, 3)) = true /\
  ok (generate_key_image_helper_precomp toy (wallet toy 11 13) P der 4 (1, 2)) = false.
Proof. split; vm_compute; reflexivity. Qed.

(** ** C40 *)
(** The table built for an account and a list of indices (on top of a table of the same
    wallet): every entry is the spend key of the sub-address it names, every requested
    sub-address is found, nothing known before is forgotten, nothing else is added. *)
Theorem C40_table (E : ecops) : ec_laws E -> forall a b account indices d,
  scalar b -> u32 account -> Forall u32 indices -> table_sound E a b d ->
  exists d', compute_subaddresses E a (smul E (Gb E) b) account indices d = Ok d' /\
    (forall k M m, sa_get k d' = Some (M, m) -> k = encp E (sub_D E a b M m)) /\
    (forall m, In m indices -> exists M' m', sa_get (encp E (sub_D E a b account m)) d' = Some (M', m') /\
       sub_D E a b M' m' = sub_D E a b account m) /\
    (forall k, sa_get k d <> None -> sa_get k d' <> None) /\
    (forall k M m, sa_get k d' = Some (M, m) -> sa_get k d = Some (M, m) \/ (M = account /\ In m indices)).
Proof.
  intros L a b account indices d Hb Ha Hi Sd. destruct (compute_ok E L a b account Hb Ha indices d Hi Sd) as (d' & H1 & H2 & H3 & H4 & H5).
  exists d'. split; [exact H1|]. split; [intros k M m H; apply H2, H|]. split; [|auto].
  intros m Hm. specialize (H3 m Hm). unfold table_has in H3. destruct (sa_get _ d') as [[M' m']|] eqn:Eg; [|congruence].
  exists M', m'. split; [reflexivity|]. symmetry. apply (encp_inj E L), H2, Eg.
Qed.
Print Assumptions C40_table.
Example C40_table_example :
  map (fun m => sa_get (encp toy (sub_D toy 11 13 1 m)) ex_table) [0; 1; 2; 3; 4] = [Some (1, 0); Some (1, 1); Some (1, 2); Some (1, 3); None].
Proof. vm_compute. reflexivity. Qed.

(** Addresses given out match the secret keys: for every index pair that fits 32 bits
    the address is (x G, a x G) where x is the secret spend key of the sub-address (the
    main address is (b G, a G)); other index pairs raise an exception. *)
Theorem C40_keys_match (E : ecops) : ec_laws E -> forall a b M m, scalar b ->
  (u32 M -> u32 m ->
     generate_sub_address_keys E a (smul E (Gb E) b) M m = Ok (sub_D E a b M m, sub_C E a b M m) /\
     get_subaddress_spend_public_key E a (smul E (Gb E) b) M m = Ok (sub_D E a b M m)) /\
  ((~ u32 M \/ ~ u32 m) ->
     generate_sub_address_keys E a (smul E (Gb E) b) M m = Err StructError /\
     get_subaddress_spend_public_key E a (smul E (Gb E) b) M m = Err StructError).
Proof.
  intros L a b M m Hb. split; [intros HM Hm; split; [apply sub_keys_ok|apply spend_pub_ok]; assumption|].
  intros H. assert (Z0 : (M =? 0) && (m =? 0) = false).
  { destruct (Z.eqb_spec M 0) as [->|]; [|reflexivity]. destruct (Z.eqb_spec m 0) as [->|]; [|reflexivity].
    exfalso. destruct H as [H|H]; apply H; split; (discriminate || reflexivity). }
  assert (X : get_subaddress_secret_key E a M m = Err StructError).
  { unfold get_subaddress_secret_key, ec_subaddress_secret_key. rewrite Z0.
    destruct H as [H|H]; [rewrite u32_bad by exact H; reflexivity|].
    unfold u32_le at 1. destruct ((0 <=? M) && (M <? 2 ^ 32)); [|reflexivity]. cbn [bind]. rewrite u32_bad by exact H. reflexivity. }
  unfold generate_sub_address_keys, get_subaddress_spend_public_key. rewrite Z0, X. split; reflexivity.
Qed.
Print Assumptions C40_keys_match.
Example C40_keys_match_example :
  match generate_sub_address_keys toy 11 (smul toy (Gb toy) 13) 1 2 with
  | Ok (D, C) => pt_eqb toy C (smul toy D 11) && negb (pt_eqb toy D (smul toy (Gb toy) 13))
  | Err _ => false
  end = true /\
  match generate_sub_address_keys toy 11 (smul toy (Gb toy) 13) 1 (2 ^ 32) with Err StructError => true | _ => false end = true.
Proof. split; vm_compute; reflexivity. Qed.
