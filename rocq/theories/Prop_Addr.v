(** C03, C04, C54, C55, C56, C57: addresses and destinations. *)
From Verif Require Import Py PyLemmas Digits B58Mnr_model B58Mnr_spec B58Mnr_proof Addr_model Addr_spec Addr_proof.

(** a concrete hash for the examples *)
Definition toy_hash (m : list Z) : list Z :=
  [fold_left Z.add m 0 mod 256; zlen m mod 256; 17; fold_left (fun a x => 31 * a + x) m 7 mod 256].
Lemma toy_hash_like : hash_like toy_hash.
Proof.
  intros m. unfold toy_hash. split; [|cbn; lia].
  repeat constructor; unfold byte_ok; try lia; apply Z.mod_pos_bound; lia.
Qed.

(** C03: prefix byte, keys and payment id survive encode + decode, for every
    prefix, every key content and every id. *)
Theorem C03_check_coder_round_trip : forall cn ver spend view pid,
  hash_like cn -> byte_ok ver -> bytes_ok spend -> bytes_ok view ->
  bytes_ok (match pid with Some p => p | None => [] end) ->
  exists s, encode_addr cn ver spend view pid = Ok s /\
    addr_decode_check cn s = Ok (spend ++ view ++ match pid with Some p => p | None => [] end, ver).
Proof. exact encode_addr_round_trip. Qed.
Print Assumptions C03_check_coder_round_trip.

(** C03, user level: an address built for a network and kind decodes to the
    record with these keys, this network, this kind, this id and this text. *)
Theorem C03_address_round_trip : forall cn spend view n k pid,
  hash_like cn -> bytes_ok spend -> bytes_ok view -> bytes_ok pid ->
  length spend = 32%nat -> length view = 32%nat -> (k = Integrated -> length pid = 8%nat) ->
  exists s ai,
    public_addr_encode cn {| spend_public_key := spend; view_public_key := view |}
      (kind_sub k) (Some (net_code n)) (kind_pid k pid) = Ok s /\
    decode_addr cn s = Ok ai /\
    ai_spend_key ai = spend /\ ai_view_key ai = view /\ ai_net_type ai = net_code n /\
    ai_is_sub ai = kind_sub k /\ ai_is_int ai = kind_int k /\ ai_payment_id ai = kind_pid k pid /\
    ai_addr ai = s.
Proof. exact address_round_trip. Qed.
Print Assumptions C03_address_round_trip.

Example C03_case : exists s,
  public_addr_encode toy_hash {| spend_public_key := repeat 1 32; view_public_key := repeat 200 32 |}
    false (Some 2) (Some [1; 2; 3; 4; 5; 6; 7; 8]) = Ok s /\ length s = 106%nat.
Proof. eexists. split; [vm_compute; reflexivity|reflexivity]. Qed.

(** C03: acceptance implies the checksum. *)
Theorem C03_accept_only_checksummed : forall cn s d v,
  hash_like cn -> addr_decode_check cn s = Ok (d, v) ->
  exists body, b58decode_bin s = Ok (body ++ firstn 4 (cn body)) /\ (body = v :: d \/ body = [] /\ d = []).
Proof. exact decode_check_acc. Qed.
Print Assumptions C03_accept_only_checksummed.

(** C04 *)
Theorem C04_prefix_table : forall n k,
  net_version (Some (net_code n)) (kind_sub k) (kind_int k) = Ok (prefix_of n k) /\
  get_addr_type (prefix_of n k) = Ok (net_code n) /\
  is_subaddress (prefix_of n k) = kind_sub k /\ is_integrated (prefix_of n k) = kind_int k.
Proof. exact (fun n k => conj (net_version_prefix n k) (prefix_classified n k)). Qed.
Print Assumptions C04_prefix_table.

Theorem C04_prefix_unique : forall n k n' k',
  prefix_of n k = prefix_of n' k' -> n = n' /\ k = k'.
Proof. exact prefix_inj. Qed.
Print Assumptions C04_prefix_unique.

Theorem C04_refusals : forall net sub int,
  (sub = true /\ int = true \/ (exists t, net = Some t /\ ~ (0 <= t <= 2))) ->
  exists e, net_version net sub int = Err e.
Proof. exact net_version_refuses. Qed.
Print Assumptions C04_refusals.

Theorem C04_known_prefixes_only : forall v n,
  get_addr_type v = Ok n -> exists nw k, v = prefix_of nw k /\ n = net_code nw.
Proof. exact get_addr_type_inv. Qed.
Print Assumptions C04_known_prefixes_only.

Example C04_case : net_version (Some 1) true false = Ok 63 /\ net_version (Some 3) false false = Err ValueError.
Proof. split; reflexivity. Qed.

(** C54: the record's sub-address flag.  Full statement refuted: index (0,1)
    is a sub-address but is not flagged. *)
Theorem C54_sub_flag_refuted : exists cn ai spend view ai',
  hash_like cn /\ recompute_sub cn ai spend view 0 1 = Ok ai' /\ ai_is_sub ai' = false.
Proof.
  exists toy_hash, {| ai_view_key := []; ai_spend_key := []; ai_net_type := 0; ai_is_sub := false;
    ai_is_int := false; ai_payment_id := None; ai_addr := []; ai_base_addr := [] |}, (repeat 1 32), (repeat 2 32).
  eexists. split; [exact toy_hash_like|]. split; [vm_compute; reflexivity|reflexivity].
Qed.
Print Assumptions C54_sub_flag_refuted.

Theorem C54_sub_flag_partial : forall cn ai spend view major minor ai',
  recompute_sub cn ai spend view major minor = Ok ai' ->
  ai_is_sub ai' = negb (major =? 0) && negb (minor =? 0).
Proof. exact recompute_sub_flag. Qed.
Print Assumptions C54_sub_flag_partial.

(** the printed address carries the prefix of the flag *)
Theorem C54_sub_prefix_partial : forall cn ai n spend view major minor ai',
  hash_like cn -> bytes_ok spend -> bytes_ok view -> ai_net_type ai = net_code n ->
  recompute_sub cn ai spend view major minor = Ok ai' ->
  addr_decode_check cn (ai_base_addr ai') =
    Ok (spend ++ view, prefix_of n (if ai_is_sub ai' then Subaddress else Standard)).
Proof. exact recompute_sub_prefix. Qed.
Print Assumptions C54_sub_prefix_partial.

(** C55 *)
Theorem C55_classification : forall ds change,
  Forall (fun d => keys32 (d_addr d)) ds ->
  classify_subaddresses ds change =
  (let l := distinct_dests change ds in
   (count (fun d => negb (d_is_subaddress d)) l, count d_is_subaddress l, last_sub l None)).
Proof. exact classify_spec. Qed.
Print Assumptions C55_classification.

Theorem C55_distinct_dests_meaning : forall ds seen change,
  let l := distinct_from seen change ds in
  NoDup (map d_addr l) /\
  (forall a, In a (map d_addr l) <-> In a (map d_addr ds) /\ ~ In a seen /\ change <> Some a).
Proof. exact distinct_from_spec. Qed.
Print Assumptions C55_distinct_dests_meaning.

(** The tx key is r*D exactly when there is one distinct non-change destination
    and it is a sub-address; additional keys are used exactly when a
    sub-address is among at least two of them. *)
Theorem C55_txkey_choice : forall ds change,
  Forall (fun d => keys32 (d_addr d)) ds ->
  let l := distinct_dests change ds in
  fst (txkey_choice ds change) =
    match l with
    | [d] => if d_is_subaddress d then Some (spend_public_key (d_addr d)) else None
    | _ => None
    end
  /\ snd (txkey_choice ds change) = existsb d_is_subaddress l && (1 <? zlen l).
Proof. exact txkey_choice_spec. Qed.
Print Assumptions C55_txkey_choice.

Example C55_case :
  let a := {| spend_public_key := repeat 1 32; view_public_key := repeat 2 32 |} in
  let b := {| spend_public_key := repeat 3 32; view_public_key := repeat 4 32 |} in
  let ds := [{| d_amount := 5; d_addr := a; d_is_subaddress := true |};
             {| d_amount := 6; d_addr := b; d_is_subaddress := false |};
             {| d_amount := 7; d_addr := a; d_is_subaddress := true |}] in
  Forall (fun d => keys32 (d_addr d)) ds /\
  classify_subaddresses ds (Some b) = (0, 1, Some a) /\ classify_subaddresses ds None = (1, 1, Some a).
Proof. cbn zeta. split; [repeat constructor|vm_compute; auto]. Qed.

(** C56: an accepted address text is the text of the record returned.  False
    in general: extra bytes after the keys are dropped silently. *)
Theorem C56_decode_addr_exact_refuted : forall cn spend view junk,
  hash_like cn -> bytes_ok spend -> bytes_ok view -> bytes_ok junk ->
  length spend = 32%nat -> length view = 32%nat ->
  exists s s0 ai, addr_encode_check cn 18 (spend ++ view ++ junk) = Ok s /\
    addr_encode_check cn 18 (spend ++ view) = Ok s0 /\
    decode_addr cn s = Ok ai /\ ai_spend_key ai = spend /\ ai_view_key ai = view /\ ai_addr ai = s0 /\
    ai_payment_id ai = None /\ (junk <> [] -> s <> s0).
Proof. exact decode_addr_trailing. Qed.
Print Assumptions C56_decode_addr_exact_refuted.

Theorem C56_decode_addr_exact_partial : forall cn s ai d v,
  hash_like cn -> decode_addr cn s = Ok ai -> addr_decode_check cn s = Ok (d, v) ->
  length d = (if ai_is_int ai then 72 else 64)%nat ->
  ai_addr ai = s \/ exists blk, In blk (chunks 11 s) /\ block_spells_2_64 blk.
Proof. exact decode_addr_canonical. Qed.
Print Assumptions C56_decode_addr_exact_partial.

(** C57: the change index is the last output equal to the change entry, and an
    entry of amount zero never matches. *)
Theorem C57_change_index : forall outs c,
  match get_change_addr_idx outs (Some c) with
  | Some i => exists k o, i = Z.of_nat k /\ nth_error outs k = Some o /\
      d_amount o = d_amount c /\ d_addr o = d_addr c /\ d_amount c <> 0 /\
      forall j o', (k < j)%nat -> nth_error outs j = Some o' -> ~ (d_amount o' = d_amount c /\ d_addr o' = d_addr c)
  | None => forall o, In o outs -> ~ (d_amount o = d_amount c /\ d_addr o = d_addr c /\ d_amount c <> 0)
  end.
Proof. exact change_idx_spec. Qed.
Print Assumptions C57_change_index.

Example C57_case :
  let a := {| spend_public_key := repeat 1 32; view_public_key := repeat 2 32 |} in
  let o n := {| d_amount := n; d_addr := a; d_is_subaddress := false |} in
  get_change_addr_idx [o 3; o 5; o 5; o 7] (Some (o 5)) = Some 2.
Proof. vm_compute. reflexivity. Qed.
