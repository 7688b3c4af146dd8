(** Model of the device side of the signing protocol:
    monero_glue/protocol/tsx_sign_builder.py (TTransactionBuilder),
    monero_glue/protocol/tsx_sign.py (TsxSigner),
    monero_glue/protocol/tsx_sign_state.py (TState),
    monero_glue/hwtoken/token.py (tsx_sign),
    monero_glue/xmr/sub/mlsag_hasher.py (PreMlsagHasher).

    The cryptographic operations are the fields of a record, universally
    quantified in every theorem.  Random numbers come from a tape given with each
    message, the user's answer too.  Messages are typed records: a field the code
    reads unconditionally is present (an absent one makes the code raise).  The
    multisig branch is not modelled (multi_sig is set to False at 427 and never
    to True).  Progress callbacks and memory tracing have no effect. *)
From Verif Require Import Py Protobuf_model Addr_model Lists_model.

(** curve order, core/backend/ed25519.py *)
Definition ell : Z := 2 ^ 252 + 27742317777372353535851937790883648493.
Definition sc_add (a b : Z) : Z := (a + b) mod ell.
Definition sc_sub (a b : Z) : Z := (a - b) mod ell.

(** * Messages *)
(** MoneroTransactionDestinationEntry *)
Record dst_entry := { de_amount : Z; de_addr : pubaddr; de_is_subaddress : option bool;
                      de_original : option (list Z); de_is_integrated : option bool }.
(** truth value of an optional bool *)
Definition truthy (o : option bool) : bool := match o with Some b => b | None => false end.
Definition to_dest (e : dst_entry) : dest :=
  {| d_amount := de_amount e; d_addr := de_addr e; d_is_subaddress := truthy (de_is_subaddress e) |}.
(** MoneroOutputEntry with its MoneroRctKeyPublic *)
Record ring_entry := { re_idx : Z; re_dest : list Z; re_commitment : list Z }.
(** MoneroTransactionSourceEntry *)
Record src_entry := { se_outputs : list ring_entry; se_real_output : Z; se_real_out_tx_key : list Z;
                      se_additional : list (list Z); se_real_output_in_tx_index : Z; se_amount : Z;
                      se_rct : option bool; se_mask : option (list Z);
                      se_multisig : option (list Z * list Z * list Z * list Z);
                      se_subaddr_minor : option Z }.
(** MoneroTransactionData with its MoneroTransactionRsigData *)
Record tsx_data := { td_payment_id : option (list Z); td_unlock_time : Z; td_outputs : list dst_entry;
                     td_change : option dst_entry; td_num_inputs : Z; td_fee : Z;
                     td_account : option Z; td_minor_indices : list Z; td_client_version : option Z;
                     td_rsig_type : Z; td_grouping : list Z; td_bp_version : option Z }.

(** schemas from monero_glue/messages/*.py get_fields *)
Definition addr_schema : schema := [(1, TBytes, false); (2, TBytes, false)].
Definition dst_schema : schema :=
  [(1, TUVarint, false); (2, TMsg addr_schema, false); (3, TBool, false); (4, TBytes, false); (5, TBool, false)].
Definition rctkey_schema : schema := [(1, TBytes, false); (2, TBytes, false)].
Definition outentry_schema : schema := [(1, TUVarint, false); (2, TMsg rctkey_schema, false)].
Definition klrki_schema : schema := [(1, TBytes, false); (2, TBytes, false); (3, TBytes, false); (4, TBytes, false)].
Definition src_schema : schema :=
  [(1, TMsg outentry_schema, true); (2, TUVarint, false); (3, TBytes, false); (4, TBytes, true);
   (5, TUVarint, false); (6, TUVarint, false); (7, TBool, false); (8, TBytes, false);
   (9, TMsg klrki_schema, false); (10, TUVarint, false)].
Definition opt {A} (f : A -> value) (o : option A) : list value :=
  match o with Some a => [f a] | None => [] end.
(** the records as messages in schema order *)
Definition dst_message (e : dst_entry) : message :=
  [[VInt (de_amount e)];
   [VMsg [[VBytes (spend_public_key (de_addr e))]; [VBytes (view_public_key (de_addr e))]]];
   opt VBool (de_is_subaddress e); opt VBytes (de_original e); opt VBool (de_is_integrated e)].
Definition src_message (e : src_entry) : message :=
  [map (fun r => VMsg [[VInt (re_idx r)]; [VMsg [[VBytes (re_dest r)]; [VBytes (re_commitment r)]]]]) (se_outputs e);
   [VInt (se_real_output e)]; [VBytes (se_real_out_tx_key e)]; map VBytes (se_additional e);
   [VInt (se_real_output_in_tx_index e)]; [VInt (se_amount e)]; opt VBool (se_rct e); opt VBytes (se_mask e);
   opt (fun '(k, l, r, ki) => VMsg [[VBytes k]; [VBytes l]; [VBytes r]; [VBytes ki]]) (se_multisig e);
   opt VInt (se_subaddr_minor e)].
(** protobuf.dump_message(writer, entry) *)
Definition dump_dst (e : dst_entry) : res (list Z) := dump_bytes dst_schema (dst_message e).
Definition dump_src (e : src_entry) : res (list Z) := dump_bytes src_schema (src_message e).

(** * Cryptographic operations *)
Record ops := {
  pt : Type;
  dec_pt : list Z -> res pt;                   (* crypto.decodepoint *)
  enc_pt : pt -> list Z;                       (* crypto.encodepoint *)
  smul : pt -> Z -> pt;                        (* crypto.scalarmult *)
  smul_base : Z -> pt;                         (* crypto.scalarmult_base *)
  gen_c : Z -> Z -> pt;                        (* crypto.gen_c(mask, amount) *)
  point_eqb : pt -> pt -> bool;                (* crypto.point_eq *)
  enc_int : Z -> list Z;                       (* crypto.encodeint *)
  dec_int : list Z -> Z;                       (* crypto.decodeint *)
  cn_hash : list Z -> list Z;                  (* keccak digest *)
  keccak2 : list Z -> list Z;                  (* crypto.keccak_2hash *)
  hmac : list Z -> list Z -> list Z;           (* crypto.compute_hmac(key, msg) *)
  hash_to_sc : list Z -> Z;                    (* crypto.hash_to_scalar *)
  key_derivation : pt -> Z -> pt;              (* crypto.generate_key_derivation *)
  derivation_to_sc : pt -> Z -> Z;             (* crypto.derivation_to_scalar *)
  derive_pub : pt -> Z -> pt -> pt;            (* crypto.derive_public_key *)
  commitment_mask : list Z -> Z;               (* monero.commitment_mask *)
  sub_addr_keys : Z -> pt -> Z -> Z -> pt * pt;  (* monero.generate_sub_address_keys: (D, C) *)
  subs : Type;                                 (* subaddress table *)
  subs_empty : subs;
  compute_subs : Z -> pt -> Z -> list Z -> subs;   (* monero.compute_subaddresses *)
  key_image_helper : Z -> Z -> subs -> pt -> pt -> list pt -> Z -> res (Z * pt);
     (* monero.generate_key_image_helper(view key, spend key, ...) -> xi, ki *)
  encrypt_pid : list Z -> pt -> Z -> list Z;   (* tsx_helper.encrypt_payment_id *)
  dump_tsx : tsx_data -> option (list Z) -> list Z; (* protobuf dump of tsx_data with that payment id *)
  aead_enc : list Z -> list Z -> list Z -> list Z;  (* chacha_poly.encrypt_pack, key nonce plaintext *)
  aead_dec : list Z -> list Z -> res (list Z); (* chacha_poly.decrypt_pack *)
  bp : Type;                                   (* Bulletproof *)
  parse_bp : list Z -> res bp;                 (* misc.parse_msg(rsig, Bulletproof()) *)
  prove_bp : list Z -> list Z -> Z -> res bp;  (* ring_ct.prove_range_bp_batch(amounts, masks) *)
  verify_bp : bp -> list Z -> list Z -> res bool;   (* ring_ct.verify_bp *)
  bp_parts : bp -> list (list Z) * (list (list Z)) * (list (list Z)) * (list (list Z));
     (* [A;S;T1;T2;taux;mu], L, R, [a;b;t] *)
  mlsag_sign : list Z -> list ring_entry -> Z -> Z -> Z -> pt -> Z -> Z -> res (list Z)
     (* prove_rct_mg_simple(message, ring, spend key, mask, alpha, pseudo out, index), its
        self-check and serialisation; the last argument is its randomness *)
}.

(** what a call draws: user's answer, random scalars, random byte strings, prover seed *)
Record tape := { answer : bool; rnd : nat -> Z; rndb : nat -> list Z; seed : Z }.

(** * Hashers *)
(** mlsag_hasher.py:8-22 PreMlsagHasher; a Keccak context is the bytes absorbed *)
Record fhasher := { fh_simple : bool; fh_state : Z; fh_master : list Z; fh_rsig : list Z; fh_rct : list Z }.
Definition fh_new : fhasher := {| fh_simple := false; fh_state := 0; fh_master := []; fh_rsig := []; fh_rct := [] |}.
(** mlsag_hasher.py:46-51 init *)
Definition fh_init (is_simple : bool) (h : fhasher) : res fhasher :=
  let* _ := guard (fh_state h =? 0) ValueError in
  Ok {| fh_simple := is_simple; fh_state := 1; fh_master := fh_master h; fh_rsig := fh_rsig h; fh_rct := fh_rct h |}.
(** mlsag_hasher.py:53-54 set_message *)
Definition fh_set_message (m : list Z) (h : fhasher) : fhasher :=
  {| fh_simple := fh_simple h; fh_state := fh_state h; fh_master := fh_master h ++ m; fh_rsig := fh_rsig h; fh_rct := fh_rct h |}.
(** varint bytes appended to a hash context (xmrserialize uvarint) *)
Definition uvarint (n : Z) : res (list Z) := dump_uvarint bytes_write [] n.
Definition fh_rct_add (st : Z) (bs : list Z) (h : fhasher) : fhasher :=
  {| fh_simple := fh_simple h; fh_state := st; fh_master := fh_master h; fh_rsig := fh_rsig h; fh_rct := fh_rct h ++ bs |}.
(** mlsag_hasher.py:56-65 set_type_fee: RctSigBase type is one byte, txnFee a varint *)
Definition fh_set_type_fee (rv_type fee : Z) (h : fhasher) : res fhasher :=
  let* _ := guard (fh_state h =? 1) ValueError in
  let* f := uvarint fee in
  Ok (fh_rct_add 2 ([rv_type] ++ f) h).
(** mlsag_hasher.py:76-88 set_ecdh, raw *)
Definition fh_set_ecdh (e : list Z) (h : fhasher) : res fhasher :=
  let* _ := guard ((fh_state h =? 2) || (fh_state h =? 3) || (fh_state h =? 4)) ValueError in
  Ok (fh_rct_add 4 e h).
(** mlsag_hasher.py:90-97 set_out_pk: an ECKey is its 32 bytes *)
Definition fh_set_out_pk (p : list Z) (h : fhasher) : res fhasher :=
  let* _ := guard ((fh_state h =? 4) || (fh_state h =? 5)) ValueError in
  Ok (fh_rct_add 5 p h).

Section Device.
  Context (C : ops).

  (** mlsag_hasher.py:99-106 rctsig_base_done *)
  Definition fh_base_done (h : fhasher) : res fhasher :=
    let* _ := guard (fh_state h =? 5) ValueError in
    Ok {| fh_simple := fh_simple h; fh_state := 6; fh_master := fh_master h ++ cn_hash C (fh_rct h);
          fh_rsig := fh_rsig h; fh_rct := [] |}.
  (** mlsag_hasher.py:108-134 rsig_val, bulletproof=True, raw=False *)
  Definition bp_bytes (p : bp C) : list Z :=
    let '(hd, L, R, tl) := bp_parts C p in concat hd ++ concat L ++ concat R ++ concat tl.
  Definition fh_rsig_val (p : bp C) (h : fhasher) : res fhasher :=
    let* _ := guard (negb (fh_state h =? 8)) ValueError in
    Ok {| fh_simple := fh_simple h; fh_state := fh_state h; fh_master := fh_master h;
          fh_rsig := fh_rsig h ++ bp_bytes p; fh_rct := fh_rct h |}.
  (** mlsag_hasher.py:146-155 get_digest *)
  Definition fh_digest (h : fhasher) : res (list Z) :=
    let* _ := guard (fh_state h =? 6) ValueError in
    Ok (cn_hash C (fh_master h ++ cn_hash C (fh_rsig h))).

  (** * State *)
  (** tsx_sign_state.py:9-24 *)
  Inductive tstate := START | INIT | INP_CNT | INPUT | INPUT_DONE | INPUT_PERM | INPUT_VINS | INPUT_ALL_DONE
                    | OUTPUT | RSIG | OUTPUT_DONE | FINAL_MESSAGE | SIGNATURE | SIGNATURE_DONE | FINAL | FAIL.
  Scheme Equality for tstate.

  (** sub/creds.py AccountCreds *)
  Record creds := { view_priv : Z; spend_priv : Z; spend_pub : pt C }.

  (** attributes of TTransactionBuilder that init_transaction sets and nothing changes later *)
  Record cfg := {
    c_creds : creds; c_key_hmac : list Z; c_key_enc : list Z; c_r : Z; c_r_pub : pt C;
    c_need_additional : bool; c_use_bulletproof : bool; c_use_simple : bool;
    c_input_count : Z; c_output_count : Z; c_change : option dst_entry; c_fee : Z; c_account : option Z;
    c_client_version : Z; c_bp_version : Z; c_rsig_type : Z; c_rsig_grp : list Z; c_rsig_offload : bool }.

  (** the other attributes; option = the code sets the attribute to None at some point *)
  Record builder := {
    b_cfg : cfg; b_state : tstate; b_inp_idx : Z; b_out_idx : Z; b_processing_offloaded : bool;
    b_input_last_amount : Z; b_sum_in : Z; b_sum_out : Z;
    b_output_pk : list (list Z); b_amounts : option (list Z); b_masks : option (list Z);
    b_last_mask : option Z; b_sumout : Z; b_sumpouts : Z; b_subs : option (subs C);
    b_extra : list Z; b_perm : list Z; b_prefix : option (list Z); b_prefix_hash : list Z;
    b_full : option fhasher; b_full_message : list Z;
    b_add_priv : list Z; b_add_pub : list (list Z) }.

  (** tsx_sign_builder.py:16-89 __init__ with state None, and _init *)
  Definition new_cfg (cr : creds) : cfg :=
    {| c_creds := cr; c_key_hmac := []; c_key_enc := []; c_r := 0; c_r_pub := smul_base C 0;
       c_need_additional := false; c_use_bulletproof := false; c_use_simple := true;
       c_input_count := 0; c_output_count := 0; c_change := None; c_fee := 0; c_account := Some 0;
       c_client_version := 0; c_bp_version := 1; c_rsig_type := 0; c_rsig_grp := []; c_rsig_offload := false |}.
  Definition new_builder (cr : creds) : builder :=
    {| b_cfg := new_cfg cr; b_state := START; b_inp_idx := -1; b_out_idx := -1; b_processing_offloaded := false;
       b_input_last_amount := 0; b_sum_in := 0; b_sum_out := 0;
       b_output_pk := []; b_amounts := Some []; b_masks := Some []; b_last_mask := None;
       b_sumout := 0; b_sumpouts := 0; b_subs := Some (subs_empty C); b_extra := []; b_perm := [];
       b_prefix := Some []; b_prefix_hash := []; b_full := Some fh_new; b_full_message := [];
       b_add_priv := []; b_add_pub := [] |}.

  (** attribute assignments *)
  Definition set_state (s : tstate) (b : builder) : builder :=
    {| b_cfg := b_cfg b; b_state := s; b_inp_idx := b_inp_idx b; b_out_idx := b_out_idx b;
       b_processing_offloaded := b_processing_offloaded b; b_input_last_amount := b_input_last_amount b;
       b_sum_in := b_sum_in b; b_sum_out := b_sum_out b; b_output_pk := b_output_pk b; b_amounts := b_amounts b;
       b_masks := b_masks b; b_last_mask := b_last_mask b; b_sumout := b_sumout b; b_sumpouts := b_sumpouts b;
       b_subs := b_subs b; b_extra := b_extra b; b_perm := b_perm b; b_prefix := b_prefix b;
       b_prefix_hash := b_prefix_hash b; b_full := b_full b; b_full_message := b_full_message b;
       b_add_priv := b_add_priv b; b_add_pub := b_add_pub b |}.
  Definition set_cfg (v : cfg) (b : builder) : builder :=
    {| b_cfg := v; b_state := b_state b; b_inp_idx := b_inp_idx b; b_out_idx := b_out_idx b; b_processing_offloaded := b_processing_offloaded b; b_input_last_amount := b_input_last_amount b; b_sum_in := b_sum_in b; b_sum_out := b_sum_out b; b_output_pk := b_output_pk b; b_amounts := b_amounts b; b_masks := b_masks b; b_last_mask := b_last_mask b; b_sumout := b_sumout b; b_sumpouts := b_sumpouts b; b_subs := b_subs b; b_extra := b_extra b; b_perm := b_perm b; b_prefix := b_prefix b; b_prefix_hash := b_prefix_hash b; b_full := b_full b; b_full_message := b_full_message b; b_add_priv := b_add_priv b; b_add_pub := b_add_pub b |}.
  Definition set_inp_idx (v : Z) (b : builder) : builder :=
    {| b_cfg := b_cfg b; b_state := b_state b; b_inp_idx := v; b_out_idx := b_out_idx b; b_processing_offloaded := b_processing_offloaded b; b_input_last_amount := b_input_last_amount b; b_sum_in := b_sum_in b; b_sum_out := b_sum_out b; b_output_pk := b_output_pk b; b_amounts := b_amounts b; b_masks := b_masks b; b_last_mask := b_last_mask b; b_sumout := b_sumout b; b_sumpouts := b_sumpouts b; b_subs := b_subs b; b_extra := b_extra b; b_perm := b_perm b; b_prefix := b_prefix b; b_prefix_hash := b_prefix_hash b; b_full := b_full b; b_full_message := b_full_message b; b_add_priv := b_add_priv b; b_add_pub := b_add_pub b |}.
  Definition set_out_idx (v : Z) (b : builder) : builder :=
    {| b_cfg := b_cfg b; b_state := b_state b; b_inp_idx := b_inp_idx b; b_out_idx := v; b_processing_offloaded := b_processing_offloaded b; b_input_last_amount := b_input_last_amount b; b_sum_in := b_sum_in b; b_sum_out := b_sum_out b; b_output_pk := b_output_pk b; b_amounts := b_amounts b; b_masks := b_masks b; b_last_mask := b_last_mask b; b_sumout := b_sumout b; b_sumpouts := b_sumpouts b; b_subs := b_subs b; b_extra := b_extra b; b_perm := b_perm b; b_prefix := b_prefix b; b_prefix_hash := b_prefix_hash b; b_full := b_full b; b_full_message := b_full_message b; b_add_priv := b_add_priv b; b_add_pub := b_add_pub b |}.
  Definition set_processing_offloaded (v : bool) (b : builder) : builder :=
    {| b_cfg := b_cfg b; b_state := b_state b; b_inp_idx := b_inp_idx b; b_out_idx := b_out_idx b; b_processing_offloaded := v; b_input_last_amount := b_input_last_amount b; b_sum_in := b_sum_in b; b_sum_out := b_sum_out b; b_output_pk := b_output_pk b; b_amounts := b_amounts b; b_masks := b_masks b; b_last_mask := b_last_mask b; b_sumout := b_sumout b; b_sumpouts := b_sumpouts b; b_subs := b_subs b; b_extra := b_extra b; b_perm := b_perm b; b_prefix := b_prefix b; b_prefix_hash := b_prefix_hash b; b_full := b_full b; b_full_message := b_full_message b; b_add_priv := b_add_priv b; b_add_pub := b_add_pub b |}.
  Definition set_input_last_amount (v : Z) (b : builder) : builder :=
    {| b_cfg := b_cfg b; b_state := b_state b; b_inp_idx := b_inp_idx b; b_out_idx := b_out_idx b; b_processing_offloaded := b_processing_offloaded b; b_input_last_amount := v; b_sum_in := b_sum_in b; b_sum_out := b_sum_out b; b_output_pk := b_output_pk b; b_amounts := b_amounts b; b_masks := b_masks b; b_last_mask := b_last_mask b; b_sumout := b_sumout b; b_sumpouts := b_sumpouts b; b_subs := b_subs b; b_extra := b_extra b; b_perm := b_perm b; b_prefix := b_prefix b; b_prefix_hash := b_prefix_hash b; b_full := b_full b; b_full_message := b_full_message b; b_add_priv := b_add_priv b; b_add_pub := b_add_pub b |}.
  Definition set_sum_in (v : Z) (b : builder) : builder :=
    {| b_cfg := b_cfg b; b_state := b_state b; b_inp_idx := b_inp_idx b; b_out_idx := b_out_idx b; b_processing_offloaded := b_processing_offloaded b; b_input_last_amount := b_input_last_amount b; b_sum_in := v; b_sum_out := b_sum_out b; b_output_pk := b_output_pk b; b_amounts := b_amounts b; b_masks := b_masks b; b_last_mask := b_last_mask b; b_sumout := b_sumout b; b_sumpouts := b_sumpouts b; b_subs := b_subs b; b_extra := b_extra b; b_perm := b_perm b; b_prefix := b_prefix b; b_prefix_hash := b_prefix_hash b; b_full := b_full b; b_full_message := b_full_message b; b_add_priv := b_add_priv b; b_add_pub := b_add_pub b |}.
  Definition set_sum_out (v : Z) (b : builder) : builder :=
    {| b_cfg := b_cfg b; b_state := b_state b; b_inp_idx := b_inp_idx b; b_out_idx := b_out_idx b; b_processing_offloaded := b_processing_offloaded b; b_input_last_amount := b_input_last_amount b; b_sum_in := b_sum_in b; b_sum_out := v; b_output_pk := b_output_pk b; b_amounts := b_amounts b; b_masks := b_masks b; b_last_mask := b_last_mask b; b_sumout := b_sumout b; b_sumpouts := b_sumpouts b; b_subs := b_subs b; b_extra := b_extra b; b_perm := b_perm b; b_prefix := b_prefix b; b_prefix_hash := b_prefix_hash b; b_full := b_full b; b_full_message := b_full_message b; b_add_priv := b_add_priv b; b_add_pub := b_add_pub b |}.
  Definition set_output_pk (v : list (list Z)) (b : builder) : builder :=
    {| b_cfg := b_cfg b; b_state := b_state b; b_inp_idx := b_inp_idx b; b_out_idx := b_out_idx b; b_processing_offloaded := b_processing_offloaded b; b_input_last_amount := b_input_last_amount b; b_sum_in := b_sum_in b; b_sum_out := b_sum_out b; b_output_pk := v; b_amounts := b_amounts b; b_masks := b_masks b; b_last_mask := b_last_mask b; b_sumout := b_sumout b; b_sumpouts := b_sumpouts b; b_subs := b_subs b; b_extra := b_extra b; b_perm := b_perm b; b_prefix := b_prefix b; b_prefix_hash := b_prefix_hash b; b_full := b_full b; b_full_message := b_full_message b; b_add_priv := b_add_priv b; b_add_pub := b_add_pub b |}.
  Definition set_amounts (v : option (list Z)) (b : builder) : builder :=
    {| b_cfg := b_cfg b; b_state := b_state b; b_inp_idx := b_inp_idx b; b_out_idx := b_out_idx b; b_processing_offloaded := b_processing_offloaded b; b_input_last_amount := b_input_last_amount b; b_sum_in := b_sum_in b; b_sum_out := b_sum_out b; b_output_pk := b_output_pk b; b_amounts := v; b_masks := b_masks b; b_last_mask := b_last_mask b; b_sumout := b_sumout b; b_sumpouts := b_sumpouts b; b_subs := b_subs b; b_extra := b_extra b; b_perm := b_perm b; b_prefix := b_prefix b; b_prefix_hash := b_prefix_hash b; b_full := b_full b; b_full_message := b_full_message b; b_add_priv := b_add_priv b; b_add_pub := b_add_pub b |}.
  Definition set_masks (v : option (list Z)) (b : builder) : builder :=
    {| b_cfg := b_cfg b; b_state := b_state b; b_inp_idx := b_inp_idx b; b_out_idx := b_out_idx b; b_processing_offloaded := b_processing_offloaded b; b_input_last_amount := b_input_last_amount b; b_sum_in := b_sum_in b; b_sum_out := b_sum_out b; b_output_pk := b_output_pk b; b_amounts := b_amounts b; b_masks := v; b_last_mask := b_last_mask b; b_sumout := b_sumout b; b_sumpouts := b_sumpouts b; b_subs := b_subs b; b_extra := b_extra b; b_perm := b_perm b; b_prefix := b_prefix b; b_prefix_hash := b_prefix_hash b; b_full := b_full b; b_full_message := b_full_message b; b_add_priv := b_add_priv b; b_add_pub := b_add_pub b |}.
  Definition set_last_mask (v : option Z) (b : builder) : builder :=
    {| b_cfg := b_cfg b; b_state := b_state b; b_inp_idx := b_inp_idx b; b_out_idx := b_out_idx b; b_processing_offloaded := b_processing_offloaded b; b_input_last_amount := b_input_last_amount b; b_sum_in := b_sum_in b; b_sum_out := b_sum_out b; b_output_pk := b_output_pk b; b_amounts := b_amounts b; b_masks := b_masks b; b_last_mask := v; b_sumout := b_sumout b; b_sumpouts := b_sumpouts b; b_subs := b_subs b; b_extra := b_extra b; b_perm := b_perm b; b_prefix := b_prefix b; b_prefix_hash := b_prefix_hash b; b_full := b_full b; b_full_message := b_full_message b; b_add_priv := b_add_priv b; b_add_pub := b_add_pub b |}.
  Definition set_sumout (v : Z) (b : builder) : builder :=
    {| b_cfg := b_cfg b; b_state := b_state b; b_inp_idx := b_inp_idx b; b_out_idx := b_out_idx b; b_processing_offloaded := b_processing_offloaded b; b_input_last_amount := b_input_last_amount b; b_sum_in := b_sum_in b; b_sum_out := b_sum_out b; b_output_pk := b_output_pk b; b_amounts := b_amounts b; b_masks := b_masks b; b_last_mask := b_last_mask b; b_sumout := v; b_sumpouts := b_sumpouts b; b_subs := b_subs b; b_extra := b_extra b; b_perm := b_perm b; b_prefix := b_prefix b; b_prefix_hash := b_prefix_hash b; b_full := b_full b; b_full_message := b_full_message b; b_add_priv := b_add_priv b; b_add_pub := b_add_pub b |}.
  Definition set_sumpouts (v : Z) (b : builder) : builder :=
    {| b_cfg := b_cfg b; b_state := b_state b; b_inp_idx := b_inp_idx b; b_out_idx := b_out_idx b; b_processing_offloaded := b_processing_offloaded b; b_input_last_amount := b_input_last_amount b; b_sum_in := b_sum_in b; b_sum_out := b_sum_out b; b_output_pk := b_output_pk b; b_amounts := b_amounts b; b_masks := b_masks b; b_last_mask := b_last_mask b; b_sumout := b_sumout b; b_sumpouts := v; b_subs := b_subs b; b_extra := b_extra b; b_perm := b_perm b; b_prefix := b_prefix b; b_prefix_hash := b_prefix_hash b; b_full := b_full b; b_full_message := b_full_message b; b_add_priv := b_add_priv b; b_add_pub := b_add_pub b |}.
  Definition set_subs (v : option (subs C)) (b : builder) : builder :=
    {| b_cfg := b_cfg b; b_state := b_state b; b_inp_idx := b_inp_idx b; b_out_idx := b_out_idx b; b_processing_offloaded := b_processing_offloaded b; b_input_last_amount := b_input_last_amount b; b_sum_in := b_sum_in b; b_sum_out := b_sum_out b; b_output_pk := b_output_pk b; b_amounts := b_amounts b; b_masks := b_masks b; b_last_mask := b_last_mask b; b_sumout := b_sumout b; b_sumpouts := b_sumpouts b; b_subs := v; b_extra := b_extra b; b_perm := b_perm b; b_prefix := b_prefix b; b_prefix_hash := b_prefix_hash b; b_full := b_full b; b_full_message := b_full_message b; b_add_priv := b_add_priv b; b_add_pub := b_add_pub b |}.
  Definition set_extra (v : list Z) (b : builder) : builder :=
    {| b_cfg := b_cfg b; b_state := b_state b; b_inp_idx := b_inp_idx b; b_out_idx := b_out_idx b; b_processing_offloaded := b_processing_offloaded b; b_input_last_amount := b_input_last_amount b; b_sum_in := b_sum_in b; b_sum_out := b_sum_out b; b_output_pk := b_output_pk b; b_amounts := b_amounts b; b_masks := b_masks b; b_last_mask := b_last_mask b; b_sumout := b_sumout b; b_sumpouts := b_sumpouts b; b_subs := b_subs b; b_extra := v; b_perm := b_perm b; b_prefix := b_prefix b; b_prefix_hash := b_prefix_hash b; b_full := b_full b; b_full_message := b_full_message b; b_add_priv := b_add_priv b; b_add_pub := b_add_pub b |}.
  Definition set_perm (v : list Z) (b : builder) : builder :=
    {| b_cfg := b_cfg b; b_state := b_state b; b_inp_idx := b_inp_idx b; b_out_idx := b_out_idx b; b_processing_offloaded := b_processing_offloaded b; b_input_last_amount := b_input_last_amount b; b_sum_in := b_sum_in b; b_sum_out := b_sum_out b; b_output_pk := b_output_pk b; b_amounts := b_amounts b; b_masks := b_masks b; b_last_mask := b_last_mask b; b_sumout := b_sumout b; b_sumpouts := b_sumpouts b; b_subs := b_subs b; b_extra := b_extra b; b_perm := v; b_prefix := b_prefix b; b_prefix_hash := b_prefix_hash b; b_full := b_full b; b_full_message := b_full_message b; b_add_priv := b_add_priv b; b_add_pub := b_add_pub b |}.
  Definition set_prefix (v : option (list Z)) (b : builder) : builder :=
    {| b_cfg := b_cfg b; b_state := b_state b; b_inp_idx := b_inp_idx b; b_out_idx := b_out_idx b; b_processing_offloaded := b_processing_offloaded b; b_input_last_amount := b_input_last_amount b; b_sum_in := b_sum_in b; b_sum_out := b_sum_out b; b_output_pk := b_output_pk b; b_amounts := b_amounts b; b_masks := b_masks b; b_last_mask := b_last_mask b; b_sumout := b_sumout b; b_sumpouts := b_sumpouts b; b_subs := b_subs b; b_extra := b_extra b; b_perm := b_perm b; b_prefix := v; b_prefix_hash := b_prefix_hash b; b_full := b_full b; b_full_message := b_full_message b; b_add_priv := b_add_priv b; b_add_pub := b_add_pub b |}.
  Definition set_prefix_hash (v : list Z) (b : builder) : builder :=
    {| b_cfg := b_cfg b; b_state := b_state b; b_inp_idx := b_inp_idx b; b_out_idx := b_out_idx b; b_processing_offloaded := b_processing_offloaded b; b_input_last_amount := b_input_last_amount b; b_sum_in := b_sum_in b; b_sum_out := b_sum_out b; b_output_pk := b_output_pk b; b_amounts := b_amounts b; b_masks := b_masks b; b_last_mask := b_last_mask b; b_sumout := b_sumout b; b_sumpouts := b_sumpouts b; b_subs := b_subs b; b_extra := b_extra b; b_perm := b_perm b; b_prefix := b_prefix b; b_prefix_hash := v; b_full := b_full b; b_full_message := b_full_message b; b_add_priv := b_add_priv b; b_add_pub := b_add_pub b |}.
  Definition set_full (v : option fhasher) (b : builder) : builder :=
    {| b_cfg := b_cfg b; b_state := b_state b; b_inp_idx := b_inp_idx b; b_out_idx := b_out_idx b; b_processing_offloaded := b_processing_offloaded b; b_input_last_amount := b_input_last_amount b; b_sum_in := b_sum_in b; b_sum_out := b_sum_out b; b_output_pk := b_output_pk b; b_amounts := b_amounts b; b_masks := b_masks b; b_last_mask := b_last_mask b; b_sumout := b_sumout b; b_sumpouts := b_sumpouts b; b_subs := b_subs b; b_extra := b_extra b; b_perm := b_perm b; b_prefix := b_prefix b; b_prefix_hash := b_prefix_hash b; b_full := v; b_full_message := b_full_message b; b_add_priv := b_add_priv b; b_add_pub := b_add_pub b |}.
  Definition set_full_message (v : list Z) (b : builder) : builder :=
    {| b_cfg := b_cfg b; b_state := b_state b; b_inp_idx := b_inp_idx b; b_out_idx := b_out_idx b; b_processing_offloaded := b_processing_offloaded b; b_input_last_amount := b_input_last_amount b; b_sum_in := b_sum_in b; b_sum_out := b_sum_out b; b_output_pk := b_output_pk b; b_amounts := b_amounts b; b_masks := b_masks b; b_last_mask := b_last_mask b; b_sumout := b_sumout b; b_sumpouts := b_sumpouts b; b_subs := b_subs b; b_extra := b_extra b; b_perm := b_perm b; b_prefix := b_prefix b; b_prefix_hash := b_prefix_hash b; b_full := b_full b; b_full_message := v; b_add_priv := b_add_priv b; b_add_pub := b_add_pub b |}.
  Definition set_add_priv (v : list Z) (b : builder) : builder :=
    {| b_cfg := b_cfg b; b_state := b_state b; b_inp_idx := b_inp_idx b; b_out_idx := b_out_idx b; b_processing_offloaded := b_processing_offloaded b; b_input_last_amount := b_input_last_amount b; b_sum_in := b_sum_in b; b_sum_out := b_sum_out b; b_output_pk := b_output_pk b; b_amounts := b_amounts b; b_masks := b_masks b; b_last_mask := b_last_mask b; b_sumout := b_sumout b; b_sumpouts := b_sumpouts b; b_subs := b_subs b; b_extra := b_extra b; b_perm := b_perm b; b_prefix := b_prefix b; b_prefix_hash := b_prefix_hash b; b_full := b_full b; b_full_message := b_full_message b; b_add_priv := v; b_add_pub := b_add_pub b |}.
  Definition set_add_pub (v : list (list Z)) (b : builder) : builder :=
    {| b_cfg := b_cfg b; b_state := b_state b; b_inp_idx := b_inp_idx b; b_out_idx := b_out_idx b; b_processing_offloaded := b_processing_offloaded b; b_input_last_amount := b_input_last_amount b; b_sum_in := b_sum_in b; b_sum_out := b_sum_out b; b_output_pk := b_output_pk b; b_amounts := b_amounts b; b_masks := b_masks b; b_last_mask := b_last_mask b; b_sumout := b_sumout b; b_sumpouts := b_sumpouts b; b_subs := b_subs b; b_extra := b_extra b; b_perm := b_perm b; b_prefix := b_prefix b; b_prefix_hash := b_prefix_hash b; b_full := b_full b; b_full_message := b_full_message b; b_add_priv := b_add_priv b; b_add_pub := v |}.

  (** * Messages to the device and its answers *)
  Inductive msg :=
  | MInit (d : tsx_data)
  | MSetInput (src : src_entry)
  | MPerm (perm : list Z)
  | MVini (src : src_entry) (vini : list Z) (tag : list Z)
  | MAllIn
  | MSetOutput (dst : option dst_entry) (tag : list Z) (rsig : option (list Z)) (offloaded_bp : bool)
  | MAllOut
  | MSign (src : src_entry) (vini tag : list Z) (pseudo_out : option (list Z)) (pseudo_tag : list Z)
          (alpha_ct : option (list Z)) (spend_ct : list Z)
  | MFinal.

  Inductive resp :=
  | RFailure
  | RInit (tags : list (list Z)) (offload : bool)
  | RSetInput (vini tag pseudo_out pseudo_tag alpha_ct spend_ct : list Z)
  | RPerm
  | RVini
  | RAllIn (masks : option (list Z))
  | RSetOutput (tx_out tag : list Z) (rsig mask : option (list Z)) (out_pk ecdh : list Z)
  | ROffloaded
  | RAllOut (extra prefix_hash : list Z) (fee rv_type : Z) (full_message : list Z)
  | RSign (signature pseudo_out : list Z)
  | RFinal (salt rand_mult tx_enc_keys : list Z).

  (** * Helpers *)
  (** tsx_sign_state.py: the transition methods; in_mem is False (tsx_sign_builder.py:428) *)
  Definition transition (from : list tstate) (to : tstate) (b : builder) : res builder :=
    let* _ := guard (existsb (tstate_beq (b_state b)) from) ValueError in Ok (set_state to b).

  (** tsx_sign_builder.py:234-235 get_fee, 237-238 change_address *)
  Definition get_fee (c : cfg) : Z := if 0 <? c_fee c then c_fee c else 0.
  Definition change_address (c : cfg) : option pubaddr :=
    match c_change c with Some e => Some (de_addr e) | None => None end.
  (** tsx_sign_builder.py:240-252 get_rct_type *)
  Definition get_rct_type (c : cfg) : res Z :=
    if c_bp_version c =? 1 then Ok 3 else if c_bp_version c =? 2 then Ok 4 else Err ValueError.
  (** tsx_sign_builder.py:254-258 *)
  Definition is_bp_v2 (c : cfg) : bool := 2 <=? c_bp_version c.
  Definition is_det_mask (c : cfg) : bool := (2 <=? c_bp_version c) || (0 <? c_client_version c).

  (** tsx_sign_builder.py:282-287 the index loop of _build_key on a 48-byte buffer *)
  Fixpoint key_index (fuel : nat) (buff : list Z) (offset index : Z) : res (list Z) :=
    match fuel with
    | O => Err OutOfFuel
    | S fuel =>
        let shifted := Z.shiftr index 7 in
        let* buff := py_set buff offset (Z.lor (Z.land index 127) (if shifted =? 0 then 0 else 128)) in
        if shifted =? 0 then Ok buff else key_index fuel buff (offset + 1) shifted
    end.
  (** compat/utils.py:8-11 memcpy of a whole source *)
  Definition memcpy (dst : list Z) (off : Z) (src : list Z) : res (list Z) :=
    foldM (fun dst i => let* v := py_get src i in py_set dst (off + i) v) (zrange (zlen src)) dst.
  (** tsx_sign_builder.py:268-289 _build_key: the buffer before hashing *)
  Definition key_buffer (secret disc : list Z) (index : option Z) : res (list Z) :=
    let buff := repeat 0 48 in
    let* buff := memcpy buff 0 secret in
    let* buff := memcpy buff 32 disc in
    match index with
    | Some i => key_index 49 buff (32 + zlen disc) i
    | None => Ok buff
    end.
  Definition build_key (secret disc : list Z) (index : option Z) : res (list Z) :=
    let* buff := key_buffer secret disc index in Ok (keccak2 C buff).

  (** discriminators, tsx_sign_builder.py:295-343 *)
  Definition d_txin : list Z := [116;120;105;110].
  Definition d_txin_comm : list Z := [116;120;105;110;45;99;111;109;109].
  Definition d_txdest : list Z := [116;120;100;101;115;116].
  Definition d_txout : list Z := [116;120;111;117;116].
  Definition d_txin_alpha : list Z := [116;120;105;110;45;97;108;112;104;97].
  Definition d_txin_spend : list Z := [116;120;105;110;45;115;112;101;110;100].
  Definition d_out_mask : list Z := [111;117;116;45;109;97;115;107].

  (** an HMAC under a purpose key *)
  Definition tag_of (key_hmac disc : list Z) (idx : Z) (m : list Z) : res (list Z) :=
    let* k := build_key key_hmac disc (Some idx) in Ok (hmac C k m).
  (** tsx_sign_builder.py:345-359 gen_hmac_vini *)
  Definition gen_hmac_vini (c : cfg) (src : src_entry) (vini : list Z) (idx : Z) : res (list Z) :=
    let* s := dump_src src in tag_of (c_key_hmac c) d_txin idx (cn_hash C (s ++ vini)).
  (** tsx_sign_builder.py:361-374 gen_hmac_vouti *)
  Definition gen_hmac_vouti (c : cfg) (dst : dst_entry) (tx_out : list Z) (idx : Z) : res (list Z) :=
    let* s := dump_dst dst in tag_of (c_key_hmac c) d_txout idx (cn_hash C (s ++ tx_out)).
  (** tsx_sign_builder.py:376-387 gen_hmac_tsxdest *)
  Definition gen_hmac_tsxdest (c : cfg) (dst : dst_entry) (idx : Z) : res (list Z) :=
    let* s := dump_dst dst in tag_of (c_key_hmac c) d_txdest idx (cn_hash C s).
  (** tsx_sign_builder.py:339-343 det_comm_masks *)
  Definition det_comm_masks (c : cfg) (idx : Z) : res Z :=
    let* k := build_key (c_key_enc c) d_out_mask (Some idx) in Ok (dec_int C k).

  (** tx_prefix_hasher.buffer *)
  Definition prefix_add (bs : list Z) (b : builder) : res builder :=
    match b_prefix b with
    | Some p => Ok (set_prefix (Some (p ++ bs)) b)
    | None => Err AttributeError
    end.
  Definition full_do (f : fhasher -> res fhasher) (b : builder) : res builder :=
    match b_full b with
    | Some h => let* h := f h in Ok (set_full (Some h) b)
    | None => Err AttributeError
    end.

  (** * Step 1, tsx_sign_builder.py:397-491 init_transaction *)
  (** tsx_sign_builder.py:182-193 get_primary_change_address *)
  Definition primary_change_address (cr : creds) (account : option Z) : res pubaddr :=
    match account with
    | Some a =>
        let '(D, V) := sub_addr_keys C (view_priv cr) (spend_pub cr) a 0 in
        Ok {| spend_public_key := enc_pt C D; view_public_key := enc_pt C V |}
    | None => Err TypeError
    end.
  (** tsx_sign_builder.py:195-225 check_change *)
  Definition check_change (cr : creds) (account : option Z) (outputs : list dst_entry) (change : option dst_entry) : res unit :=
    let change_idx := get_change_addr_idx (map to_dest outputs) (option_map to_dest change) in
    match change with
    | None => Ok tt
    | Some ch =>
        if match change_idx with None => true | Some _ => false end && (de_amount ch =? 0) && (zlen outputs =? 2)
        then Ok tt
        else
          let* _ := guard (existsb (fun o => addr_eqb (de_addr o) (de_addr ch)) outputs) MoneroError in
          let* my := primary_change_address cr account in
          guard (addr_eqb my (de_addr ch)) MoneroError
    end.

  (** crypto.NULL_KEY_ENC *)
  Definition null_key : list Z := repeat 0 32.
  Definition pid_present (p : option (list Z)) : bool := match p with Some (_ :: _) => true | _ => false end.
  (** tsx_sign_builder.py:545-576 get_destination_view_key_pub: the loop and the
      dummy payment id; result: view key, payment id *)
  Fixpoint dest_view_loop (dests : list dst_entry) (change : option pubaddr) (has_pid : bool) (addr : pubaddr) (count : Z)
    : option (pubaddr * Z) :=
    match dests with
    | [] => Some (addr, count)
    | e :: t =>
        if de_amount e =? 0 then dest_view_loop t change has_pid addr count
        else if match change with Some ch => addr_eqb (de_addr e) ch | None => false end
             then dest_view_loop t change has_pid addr count
        else if addr_eqb (de_addr e) addr then dest_view_loop t change has_pid addr count
        else if (0 <? count) && has_pid then None
        else dest_view_loop t change has_pid (de_addr e) (count + 1)
    end.
  Definition dest_view_key (d : tsx_data) (change : option pubaddr) : list Z * option (list Z) :=
    match dest_view_loop (td_outputs d) change (pid_present (td_payment_id d))
            {| spend_public_key := null_key; view_public_key := null_key |} 0 with
    | None => (null_key, td_payment_id d)
    | Some (addr, count) =>
        (view_public_key addr,
         if negb (pid_present (td_payment_id d)) && (count <=? 1) then Some (repeat 0 8) else td_payment_id d)
    end.
  (** tsx_sign_builder.py:493-543 process_payment_id: resulting payment id and tx.extra *)
  Definition process_payment_id (d : tsx_data) (change : option pubaddr) (r : Z) : res (option (list Z) * list Z) :=
    let '(view_key, pid) :=
      if negb (pid_present (td_payment_id d)) || (match td_payment_id d with Some p => zlen p =? 8 | None => false end)
      then dest_view_key d change else (null_key, td_payment_id d) in
    match pid with
    | None | Some [] => Ok (pid, [])
    | Some p =>
        let* (extra_nonce, extra_prefix) :=
          (if zlen p =? 8 then
             let* _ := guard (negb (zlist_eqb view_key null_key)) ValueError in
             let* V := dec_pt C view_key in
             Ok (encrypt_pid C p V r, 1)
           else if zlen p =? 32 then Ok (p, 0)
           else Err ValueError) in
        let* _ := guard (zlen extra_nonce <? 255) ValueError in
        Ok (pid, [2; zlen extra_nonce + 1; extra_prefix] ++ extra_nonce)
    end.

  Definition str_hmac : list Z := [104;109;97;99].
  Definition str_enc : list Z := [101;110;99].
  (** tsx_sign_builder.py:578-594 compute_sec_keys *)
  Definition sec_keys (d : tsx_data) (pid : option (list Z)) (r rand : Z) : list Z * list Z :=
    let digest := cn_hash C (dump_tsx C d pid ++ enc_int C r) in
    let master := keccak2 C (digest ++ enc_int C rand) in
    (keccak2 C (str_hmac ++ master), keccak2 C (str_enc ++ master)).

  (** tsx_sign_builder.py:418-458, 594: the parameters of the transaction as init_transaction
      sets them, and tx.extra *)
  Definition init_params (t : tape) (cr : creds) (d : tsx_data) : res (cfg * list Z) :=
    let r := rnd t 0 in
    let input_count := td_num_inputs d in
    let output_count := zlen (td_outputs d) in
    let client_version := match td_client_version d with Some v => v | None => 0 end in
    let* _ := check_change cr (td_account d) (td_outputs d) (td_change d) in
    let rsig_type := td_rsig_type d in
    let rsig_offload := (0 <? rsig_type) && (2 <? output_count) in
    let use_bulletproof := 0 <? rsig_type in
    let use_simple := (1 <? input_count) || negb (rsig_type =? 0) in
    let bp_version := match td_bp_version d with Some 0 | None => 1 | Some v => v end in
    let change := match td_change d with Some e => Some (de_addr e) | None => None end in
    let '(nstd, nsub, single) := classify_subaddresses (map to_dest (td_outputs d)) change in
    let* r_pub :=
      (if (nstd =? 0) && (nsub =? 1) then
         match single with
         | Some a => let* D := dec_pt C (spend_public_key a) in Ok (smul C D r)
         | None => Err AttributeError
         end
       else Ok (smul_base C r)) in
    let need_additional := (0 <? nsub) && ((0 <? nstd) || (1 <? nsub)) in
    let* (pid, extra) := process_payment_id d change r in
    let '(key_hmac, key_enc) := sec_keys d pid r (rnd t 1) in
    Ok ({| c_creds := cr; c_key_hmac := key_hmac; c_key_enc := key_enc; c_r := r; c_r_pub := r_pub;
           c_need_additional := need_additional; c_use_bulletproof := use_bulletproof;
           c_use_simple := use_simple; c_input_count := input_count; c_output_count := output_count;
           c_change := td_change d; c_fee := td_fee d; c_account := td_account d;
           c_client_version := client_version; c_bp_version := bp_version; c_rsig_type := rsig_type;
           c_rsig_grp := td_grouping d; c_rsig_offload := rsig_offload |}, extra).

  (** [None] as response: the user refused (Failure returned, nothing raised) *)
  Definition init_transaction (t : tape) (d : tsx_data) (b : builder) : res (builder * option resp) :=
    let cr := c_creds (b_cfg b) in
    let* b := transition [START] INIT b in
    if negb (answer t) then Ok (b, None)
    else
      let* b := transition [INIT] INP_CNT b in
      let* (c, extra) := init_params t cr d in
      let b := set_cfg c (set_extra extra b) in
      (* _tprefix_update, tsx_sign_builder.py:389-395 *)
      let* v := uvarint 2 in
      let* u := uvarint (td_unlock_time d) in
      let* n := uvarint (c_input_count c) in
      let* b := prefix_add (v ++ u ++ n) b in
      let* b := full_do (fh_init (c_use_simple c)) b in
      let* rv_type := get_rct_type c in
      let* b := full_do (fh_set_type_fee rv_type (get_fee c)) b in
      let b := match td_account d, td_minor_indices d with
               | Some a, _ :: _ => set_subs (Some (compute_subs C (view_priv cr) (spend_pub cr) a (td_minor_indices d))) b
               | _, _ => b
               end in
      let* tags := mapM (fun '(idx, e) => gen_hmac_tsxdest c e idx) (combine (zrange (c_output_count c)) (td_outputs d)) in
      Ok (b, Some (RInit tags (c_rsig_offload c))).

  (** * Step 2, tsx_sign_builder.py:604-700 set_input *)
  (** xmrserialize of TxinToKey with prefix byte 2 (misc.dump_msg) *)
  Definition dump_vini (amount : Z) (offsets : list Z) (k_image : list Z) : res (list Z) :=
    let* a := uvarint amount in
    let* n := uvarint (zlen offsets) in
    let* os := mapM uvarint offsets in
    Ok ([2] ++ a ++ n ++ concat os ++ k_image).
  (** tsx_sign_builder.py:702-710 tsx_inputs_done *)
  Definition tsx_inputs_done (b : builder) : res builder :=
    let* b := transition [INPUT] INPUT_DONE b in
    let b := set_subs None b in
    let* _ := guard (b_inp_idx b + 1 =? c_input_count (b_cfg b)) ValueError in Ok b.
  Definition set_input (t : tape) (src : src_entry) (b : builder) : res (builder * resp) :=
    let* b := transition [INP_CNT; INPUT] INPUT b in
    let b := set_inp_idx (b_inp_idx b + 1) b in
    let c := b_cfg b in
    let* _ := guard (b_inp_idx b <? c_input_count c) ValueError in
    let* _ := guard (se_real_output src <? zlen (se_outputs src)) ValueError in
    let b := set_sum_in (b_sum_in b + se_amount src) b in
    let* real := py_get (se_outputs src) (se_real_output src) in
    let* out_key := dec_pt C (re_dest real) in
    let* tx_key := dec_pt C (se_real_out_tx_key src) in
    let* additional := mapM (dec_pt C) (se_additional src) in
    let* subs := match b_subs b with Some s => Ok s | None => Err TypeError end in
    let* (xi, ki) := key_image_helper C (view_priv (c_creds c)) (spend_priv (c_creds c)) subs out_key tx_key
                       additional (se_real_output_in_tx_index src) in
    let* offsets := offsets_to_relative (map re_idx (se_outputs src)) in
    let* vini := dump_vini (if truthy (se_rct src) then 0 else se_amount src) offsets (enc_pt C ki) in
    let* tag := gen_hmac_vini c src vini (b_inp_idx b) in
    (* _gen_commitment, 840-853 *)
    let alpha := rnd t 0 in
    let b := set_sumpouts (sc_add (b_sumpouts b) alpha) b in
    let pseudo_out := enc_pt C (gen_c C alpha (se_amount src)) in
    let* pseudo_tag := tag_of (c_key_hmac c) d_txin_comm (b_inp_idx b) pseudo_out in
    let* ka := build_key (c_key_enc c) d_txin_alpha (Some (b_inp_idx b)) in
    let* ks := build_key (c_key_enc c) d_txin_spend (Some (b_inp_idx b)) in
    let alpha_ct := aead_enc C ka (rndb t 0) (enc_int C alpha) in
    let spend_ct := aead_enc C ks (rndb t 1) (enc_int C xi) in
    let* b := (if b_inp_idx b + 1 =? c_input_count c then
                 tsx_inputs_done (set_input_last_amount (se_amount src) b)
               else Ok b) in
    Ok (b, RSetInput vini tag pseudo_out pseudo_tag alpha_ct spend_ct).

  (** * Step 3, tsx_sign_builder.py:722-740 tsx_inputs_permutation *)
  Definition inputs_permutation (perm : list Z) (b : builder) : res (builder * resp) :=
    let* b := transition [INPUT_DONE] INPUT_PERM b in
    Ok (set_inp_idx (-1) (set_perm perm b), RPerm).

  (** * Step 4, tsx_sign_builder.py:742-778 input_vini *)
  Definition input_vini (src : src_entry) (vini tag : list Z) (b : builder) : res (builder * resp) :=
    let* _ := guard (b_inp_idx b <? c_input_count (b_cfg b)) ValueError in
    let* b := transition [INPUT_PERM; INPUT_VINS] INPUT_VINS b in
    let b := set_inp_idx (b_inp_idx b + 1) b in
    let* idx := py_get (b_perm b) (b_inp_idx b) in
    let* comp := gen_hmac_vini (b_cfg b) src vini idx in
    let* _ := guard (zlist_eqb comp tag) ValueError in
    let* b := prefix_add vini b in
    let* _ := guard (c_use_bulletproof (b_cfg b)) ValueError in
    Ok (b, RVini).

  (** * Step 5, tsx_sign_builder.py:780-838 all_in_set and _compute_masks *)
  Definition compute_masks (b : builder) : res (builder * option (list Z)) :=
    let c := b_cfg b in
    let* (b, masks) := foldM (fun '(b, masks) i =>
        let* (cur, b) := (if i + 1 =? c_output_count c then
                            let cur := sc_sub (b_sumpouts b) (b_sumout b) in Ok (cur, set_last_mask (Some cur) b)
                          else let* m := det_comm_masks c i in Ok (m, b)) in
        let b := set_sumout (sc_add (b_sumout b) cur) b in
        Ok (b, masks ++ enc_int C cur)) (zrange (c_output_count c)) (b, []) in
    let* _ := guard (b_sumpouts b =? b_sumout b) ValueError in
    Ok (set_sumout 0 b, if c_rsig_offload c then Some masks else None).
  Definition all_in_set (b : builder) : res (builder * resp) :=
    let* b := transition [INPUT_VINS] INPUT_ALL_DONE b in
    let b := set_sumout 0 b in
    if is_det_mask (b_cfg b) then Ok (b, RAllIn None)
    else let* (b, masks) := compute_masks b in Ok (b, RAllIn masks).

  (** * Step 6, tsx_sign_builder.py:855-1407 set_output *)
  (** tsx_sign_builder.py:1367-1376 _get_rsig_batch *)
  Fixpoint get_rsig_batch_loop (fuel : nat) (grp : list Z) (idx r c : Z) : res Z :=
    if c <? idx + 1 then
      match fuel with
      | O => Err OutOfFuel
      | S fuel => let* g := py_get grp r in get_rsig_batch_loop fuel grp idx (r + 1) (c + g)
      end
    else Ok (r - 1).
  Definition get_rsig_batch (grp : list Z) (idx : Z) : res Z :=
    get_rsig_batch_loop (S (length grp)) grp idx 0 0.
  (** tsx_sign_builder.py:1378-1384 _is_last_in_batch *)
  Definition is_last_in_batch (grp : list Z) (idx bidx : Z) : res bool :=
    let* size := py_get grp bidx in
    Ok (idx - fold_left Z.add (py_upto grp bidx) 0 + 1 =? size).

  (** tsx_sign_builder.py:942-988 _s6_validate *)
  Definition s6_validate (dst : option dst_entry) (tag : list Z) (offl : bool) (b : builder) : res (builder * option dst_entry) :=
    let c := b_cfg b in
    let* _ := guard (negb (offl && (negb (c_rsig_offload c) || negb (is_det_mask c)))) ValueError in
    let* b := (if is_det_mask c && c_rsig_offload c then
                 let* bidx := get_rsig_batch (c_rsig_grp c) (b_out_idx b) in
                 let* last := is_last_in_batch (c_rsig_grp c) (b_out_idx b) bidx in
                 let* _ := guard (negb last || negb (Bool.eqb (b_processing_offloaded b) offl)) AssertionError in
                 Ok (set_processing_offloaded offl b)
               else Ok b) in
    let* b := (if negb (b_processing_offloaded b) then
                 transition [INPUT_ALL_DONE; OUTPUT] OUTPUT (set_out_idx (b_out_idx b + 1) b)
               else Ok b) in
    let* _ := guard (match dst with Some e => 0 <=? de_amount e | None => true end) AssertionError in
    let* _ := guard (b_inp_idx b + 1 =? c_input_count c) AssertionError in
    let* _ := guard (b_out_idx b <? c_output_count c) AssertionError in
    let* _ := guard (is_det_mask c || negb (b_processing_offloaded b)) AssertionError in
    if negb (b_processing_offloaded b) then
      match dst with
      | Some e =>
          let* comp := gen_hmac_tsxdest c e (b_out_idx b) in
          let* _ := guard (zlist_eqb tag comp) AssertionError in
          Ok (b, Some e)
      | None => Err AttributeError
      end
    else Ok (b, None).

  (** tsx_sign_builder.py:1313-1335 _s6_set_out_additional_keys *)
  Definition s6_additional_keys (t : tape) (e : dst_entry) (b : builder) : res (builder * option Z) :=
    if negb (c_need_additional (b_cfg b)) then Ok (b, None)
    else
      let k := rnd t 0 in
      let* K := (if truthy (de_is_subaddress e) then
                   let* D := dec_pt C (spend_public_key (de_addr e)) in Ok (smul C D k)
                 else Ok (smul_base C k)) in
      Ok (set_add_pub (b_add_pub b ++ [enc_pt C K]) (set_add_priv (b_add_priv b ++ [k]) b), Some k).
  (** tsx_sign_builder.py:1337-1365 _s6_set_out_derivation *)
  Definition s6_derivation (e : dst_entry) (add_priv : option Z) (b : builder) : res (pt C) :=
    let c := b_cfg b in
    if match change_address c with Some ch => addr_eqb (de_addr e) ch | None => false end then
      Ok (key_derivation C (c_r_pub c) (view_priv (c_creds c)))
    else
      let* k := (if truthy (de_is_subaddress e) && c_need_additional c then
                   match add_priv with Some k => Ok k | None => Err TypeError end
                 else Ok (c_r c)) in
      let* A := dec_pt C (view_public_key (de_addr e)) in
      Ok (key_derivation C A k).
  (** tsx_sign_builder.py:990-1022 _s6_compute_tx_keys (not offloaded): builder, output key, amount key, mask *)
  Definition s6_tx_keys (t : tape) (e : dst_entry) (b : builder) : res (builder * pt C * Z * Z) :=
    let* (b, add_priv) := s6_additional_keys t e b in
    let* derivation := s6_derivation e add_priv b in
    let c := b_cfg b in
    let amount_key := derivation_to_sc C derivation (b_out_idx b) in
    let* B := dec_pt C (spend_public_key (de_addr e)) in
    let tx_out_key := derive_pub C derivation (b_out_idx b) B in
    let* (mask, b) :=
      (if is_det_mask c then Ok (commitment_mask C (enc_int C amount_key), b)
       else if b_out_idx b + 1 <? c_output_count c then let* m := det_comm_masks c (b_out_idx b) in Ok (m, b)
       else match b_last_mask b with
            | Some m => Ok (m, set_last_mask None b)
            | None => Err TypeError
            end) in
    let* masks := match b_masks b with Some l => Ok l | None => Err AttributeError end in
    Ok (set_masks (Some (masks ++ [mask])) b, tx_out_key, amount_key, mask).

  (** tsx_sign_builder.py:1167-1206 _s6_dump_rsig_bp as the concatenation it writes *)
  Definition dump_rsig_bp (p : bp C) : res (list Z) :=
    let '(hd, L, R, tl) := bp_parts C p in
    let* _ := guard (zlen L <=? 127) ValueError in
    Ok (concat hd ++ [zlen L] ++ concat L ++ [zlen R] ++ concat R ++ concat tl).
  (** tsx_sign_builder.py:1120-1144 _s6_rsig_bp *)
  Definition s6_rsig_bp (t : tape) (b : builder) : res (builder * list Z) :=
    match b_amounts b, b_masks b with
    | Some amounts, Some masks =>
        let* p := prove_bp C amounts masks (seed t) in
        let* b := full_do (fh_rsig_val p) b in
        let* bytes := dump_rsig_bp p in
        Ok (set_amounts (Some []) (set_masks (Some []) b), bytes)
    | _, _ => Err TypeError
    end.
  (** tsx_sign_builder.py:1146-1165 _s6_rsig_process_bp *)
  Definition s6_process_bp (rsig : list Z) (b : builder) : res builder :=
    let* p := parse_bp C rsig in
    let* b := full_do (fh_rsig_val p) b in
    match b_amounts b, b_masks b with
    | Some amounts, Some masks =>
        let* ok := verify_bp C p amounts masks in
        let* _ := guard ok AssertionError in
        Ok (set_amounts (Some []) (set_masks (Some []) b))
    | _, _ => Err TypeError
    end.
  (** tsx_sign_builder.py:1043-1118 _s6_range_proof; [mask] is output_masks[-1] when
      not processing an offloaded proof.  Result: builder, rsig, mask to return. *)
  Definition s6_range_proof (t : tape) (rsig : option (list Z)) (mask : option Z) (b : builder)
    : res (builder * option (list Z) * option (list Z)) :=
    let c := b_cfg b in
    let provided := match rsig with Some (_ :: _) => true | _ => false end in
    let* _ := guard (negb (negb (c_rsig_offload c) && provided)) ValueError in
    let* bidx := get_rsig_batch (c_rsig_grp c) (b_out_idx b) in
    let* last := is_last_in_batch (c_rsig_grp c) (b_out_idx b) bidx in
    let* _ := guard (negb (c_rsig_offload c && provided && negb last)) ValueError in
    let* _ := guard (negb (c_rsig_offload c && last && negb provided &&
                           (negb (is_det_mask c) || b_processing_offloaded b))) ValueError in
    let ret_mask := match mask with
                    | Some m => if negb (m =? 0) && is_det_mask c && c_rsig_offload c then Some (enc_int C m) else None
                    | None => None
                    end in
    if negb last then Ok (b, None, ret_mask)
    else
      let* (b, out) :=
        (if negb (c_rsig_offload c) then
           let* (b, bytes) := s6_rsig_bp t b in Ok (b, Some bytes)
         else if is_det_mask c && negb (b_processing_offloaded b) then Ok (b, None)
         else
           match rsig with
           | Some bytes => let* b := s6_process_bp bytes b in Ok (b, None)
           | None => Err TypeError
           end) in
      let b := if (b_out_idx b + 1 =? c_output_count c) && (negb (c_rsig_offload c) || b_processing_offloaded b)
               then set_amounts None (set_masks None b) else b in
      Ok (b, out, ret_mask).

  (** tsx_sign_builder.py:1263-1311 _s6_ecdh_hash, _s6_ecdh_encode; 1247-1261 _s6_serialize_ecdh *)
  Definition str_amount : list Z := [97;109;111;117;110;116].
  Definition ecdh_bytes (c : cfg) (mask amount : Z) (amount_key : list Z) : list Z :=
    if is_bp_v2 c then
      let h := cn_hash C (str_amount ++ amount_key) in
      firstn 8 (map (fun '(x, y) => Z.lxor x y) (combine (enc_int C (amount mod ell)) h))
    else
      let k1 := hash_to_sc C amount_key in
      let k2 := hash_to_sc C (enc_int C k1) in
      enc_int C (sc_add mask k1) ++ enc_int C (sc_add (amount mod ell) k2).

  Definition set_output (t : tape) (dst : option dst_entry) (tag : list Z) (rsig : option (list Z)) (offl : bool) (b : builder)
    : res (builder * resp) :=
    let* (b, dst) := s6_validate dst tag offl b in
    match dst with
    | None =>
        let* (b, _, _) := s6_range_proof t rsig None b in
        Ok (b, ROffloaded)
    | Some e =>
        let c := b_cfg b in
        let* n := uvarint (c_output_count c) in
        let* b := (if b_out_idx b =? 0 then prefix_add n b else Ok b) in
        let* amounts := match b_amounts b with Some l => Ok l | None => Err AttributeError end in
        let b := set_sum_out (b_sum_out b + de_amount e) (set_amounts (Some (amounts ++ [de_amount e])) b) in
        let* (b, tx_out_key, amount_key, mask) := s6_tx_keys t e b in
        let* (b, rsig_out, mask_out) := s6_range_proof t rsig (Some mask) b in
        (* _s6_set_out_tx_out, 1024-1041 *)
        let tx_out := [0; 2] ++ enc_pt C tx_out_key in
        let* b := prefix_add tx_out b in
        let* vout_tag := gen_hmac_vouti c e tx_out (b_out_idx b) in
        (* _s6_get_ecdh_info_and_out_pk, 1227-1245 *)
        let commitment := enc_pt C (gen_c C mask (de_amount e)) in
        let b := set_sumout (sc_add (b_sumout b) mask) b in
        let ecdh := ecdh_bytes c mask (de_amount e) (enc_int C amount_key) in
        let* b := full_do (fh_set_ecdh ecdh) b in
        let b := set_output_pk (b_output_pk b ++ [commitment]) b in
        Ok (b, RSetOutput tx_out vout_tag rsig_out mask_out (enc_pt C tx_out_key ++ commitment) ecdh)
    end.

  (** * Step 7, tsx_sign_builder.py:1409-1492 all_out1_set *)
  (** tsx_helper.py add_tx_pub_key_to_extra, add_additional_tx_pub_keys_to_extra (1386-1397) *)
  Definition extra_with_keys (b : builder) : res (list Z) :=
    let c := b_cfg b in
    let extra := b_extra b ++ [1] ++ enc_pt C (c_r_pub c) in
    if c_need_additional c then
      let* n := uvarint (zlen (b_add_pub b)) in
      Ok (extra ++ [4] ++ n ++ concat (b_add_pub b))
    else Ok extra.
  Definition all_out_set (b : builder) : res (builder * resp) :=
    let c := b_cfg b in
    let* b := transition [OUTPUT] OUTPUT_DONE b in
    let* _ := guard (b_out_idx b + 1 =? c_output_count c) ValueError in
    let* _ := guard (c_fee c =? b_sum_in b - b_sum_out b) ValueError in
    let* extra := extra_with_keys b in
    let* _ := guard (negb (b_sum_in b <? b_sum_out b)) ValueError in
    (* all_out1_set_tx_prefix, 1399-1407: BlobType is length and bytes *)
    let* n := uvarint (zlen extra) in
    let* b := prefix_add (n ++ extra) b in
    let* prefix := match b_prefix b with Some p => Ok p | None => Err AttributeError end in
    let prefix_hash := cn_hash C prefix in
    let b := set_prefix None (set_prefix_hash prefix_hash b) in
    let* b := full_do (fun h => Ok (fh_set_message prefix_hash h)) b in
    let* rv_type := get_rct_type c in
    let* b := transition [OUTPUT_DONE] FINAL_MESSAGE b in
    (* tsx_mlsag_out_pk, 1494-1502 *)
    let* _ := guard (c_output_count c =? zlen (b_output_pk b)) ValueError in
    let* b := foldM (fun b p => full_do (fh_set_out_pk p) b) (b_output_pk b) b in
    let* b := full_do fh_base_done b in
    let b := set_out_idx (-1) (set_inp_idx (-1) b) in
    let* h := match b_full b with Some h => Ok h | None => Err AttributeError end in
    let* full := fh_digest h in
    let b := set_full None (set_full_message full b) in
    Ok (b, RAllOut extra prefix_hash (get_fee c) rv_type full).

  (** * Step 9, tsx_sign_builder.py:1504-1668 sign_input *)
  Definition sign_input (t : tape) (src : src_entry) (vini tag : list Z) (pseudo_out : option (list Z)) (pseudo_tag : list Z)
    (alpha_ct : option (list Z)) (spend_ct : list Z) (b : builder) : res (builder * resp) :=
    let c := b_cfg b in
    let* b := transition [FINAL_MESSAGE; SIGNATURE] SIGNATURE b in
    let b := set_inp_idx (b_inp_idx b + 1) b in
    let* _ := guard (b_inp_idx b <? c_input_count c) ValueError in
    let* alpha_ct := match alpha_ct with Some a => Ok a | None => Err ValueError end in
    let* pseudo_out := match pseudo_out with Some a => Ok a | None => Err ValueError end in
    let* inv_idx := py_get (b_perm b) (b_inp_idx b) in
    let* comp := gen_hmac_vini c src vini inv_idx in
    let* _ := guard (zlist_eqb comp tag) ValueError in
    let* ka := build_key (c_key_enc c) d_txin_alpha (Some inv_idx) in
    let* alpha_bytes := aead_dec C ka alpha_ct in
    let alpha := dec_int C alpha_bytes in
    let* (b, alpha, pseudo_c) :=
      (if is_det_mask c && (inv_idx + 1 =? c_input_count c) then
         let diff := sc_sub (b_sumout b) (b_sumpouts b) in
         let alpha := sc_add alpha diff in
         let b := set_sumpouts (sc_add (b_sumpouts b) diff) b in
         let* _ := guard (b_sumpouts b =? b_sumout b) AssertionError in
         Ok (b, alpha, gen_c C alpha (b_input_last_amount b))
       else
         let* _ := guard (negb (b_inp_idx b + 1 =? c_input_count c) || (b_sumpouts b =? b_sumout b)) AssertionError in
         let* comp := tag_of (c_key_hmac c) d_txin_comm inv_idx pseudo_out in
         let* _ := guard (zlist_eqb comp pseudo_tag) ValueError in
         let* P := dec_pt C pseudo_out in
         Ok (b, alpha, P)) in
    let* ks := build_key (c_key_enc c) d_txin_spend (Some inv_idx) in
    let* spend_bytes := aead_dec C ks spend_ct in
    let spend := dec_int C spend_bytes in
    let* mask := match se_mask src with Some m => Ok (dec_int C m) | None => Err TypeError end in
    let* real := py_get (se_outputs src) (se_real_output src) in
    let* P := dec_pt C (re_dest real) in
    let* _ := guard (point_eqb C P (smul_base C spend)) AssertionError in
    let* Q := dec_pt C (re_commitment real) in
    let* _ := guard (point_eqb C Q (gen_c C mask (se_amount src))) AssertionError in
    let* sig := mlsag_sign C (b_full_message b) (se_outputs src) spend mask alpha pseudo_c (se_real_output src) (seed t) in
    let* b := (if b_inp_idx b + 1 =? c_input_count c then transition [SIGNATURE] SIGNATURE_DONE b else Ok b) in
    Ok (b, RSign sig (enc_pt C pseudo_c)).

  (** * Step 10, tsx_sign_builder.py:1670-1699 final_msg; hwtoken/misc.py:61-75 compute_tx_key *)
  Definition final_msg (t : tape) (b : builder) : res (builder * resp) :=
    let c := b_cfg b in
    let* b := transition [SIGNATURE_DONE] FINAL b in
    let salt := rndb t 0 in
    let rand_mult := rnd t 0 in
    let passwd := keccak2 C (enc_int C (sc_add (spend_priv (c_creds c)) rand_mult) ++ b_prefix_hash b) in
    let tx_key := hmac C salt passwd in
    let key_buff := enc_int C (c_r c) ++ concat (map (enc_int C) (b_add_priv b)) in
    Ok (b, RFinal salt (enc_int C rand_mult) (aead_enc C tx_key (rndb t 1) key_buff)).

  (** * The dispatcher *)
  (** tsx_sign.py:107-145 sign: on a builder *)
  Definition sign (t : tape) (m : msg) (b : builder) : res (builder * option resp) :=
    let some := fun x : res (builder * resp) => let* (b, r) := x in Ok (b, Some r) in
    match m with
    | MInit d => init_transaction t d b
    | MSetInput src => some (set_input t src b)
    | MPerm perm => some (inputs_permutation perm b)
    | MVini src vini tag => some (input_vini src vini tag b)
    | MAllIn => some (all_in_set b)
    | MSetOutput dst tag rsig offl => some (set_output t dst tag rsig offl b)
    | MAllOut => some (all_out_set b)
    | MSign src vini tag po pt' a s => some (sign_input t src vini tag po pt' a s b)
    | MFinal => some (final_msg t b)
    end.
  Definition is_terminal (b : builder) : bool :=
    match b_state b with FINAL | FAIL => true | _ => false end.

  (** hwtoken/token.py:112-134 tsx_sign: one message.  [cr] are the device's
      credentials; the state is the saved builder.  wake_up restores the saved
      state except for an init message (tsx_sign.py:82-105); an exception
      leaves no saved state; otherwise the state is saved unless terminal. *)
  Definition tsx_sign (cr : creds) (st : option builder) (t : tape) (m : msg) : option builder * resp :=
    let b := match m, st with
             | MInit _, _ => new_builder cr
             | _, Some b => b
             | _, None => new_builder cr
             end in
    match sign t m b with
    | Err _ => (None, RFailure)
    | Ok (b, r) =>
        (if is_terminal b then None else Some b,
         match r with Some r => r | None => RFailure end)
    end.

  (** a history of messages *)
  Fixpoint run (cr : creds) (st : option builder) (h : list (tape * msg)) : option builder * list resp :=
    match h with
    | [] => (st, [])
    | (t, m) :: h =>
        let '(st, r) := tsx_sign cr st t m in
        let '(st, rs) := run cr st h in
        (st, r :: rs)
    end.
End Device.
