(** Receiving money: key derivation (xmr/core/ec_py.py:990-1074), sub-addresses,
    output recognition and one-time keys (xmr/monero.py), amount masking
    (xmr/ring_ct.py:431-484), and the sender's side in the device
    (protocol/tsx_sign_builder.py:173-178, 444-452, 990-1006, 1226-1365).
    Points that reach these functions have passed [decodepoint], so the on-curve
    checks (ec_py.py:1001-1004, 1020, 1034-1036) never fail here. *)
From Coq Require Import String Ascii.
From Verif Require Import Py Digits Ints_model Protobuf_spec Ec_model Mlsag_model Rsig_model KeySep_model.

Definition ascii_bytes (s : string) : list Z := map (fun c => Z.of_nat (nat_of_ascii c)) (list_ascii_of_string s).

Section W.
Context (E : ecops).
Local Notation pt := (pt E).

(** ec_py.py:990-1010: 8 (key2 key1); [sc_check] refuses zero *)
Definition generate_key_derivation (key1 : pt) (key2 : Z) : res pt :=
  let* _ := guard (sc_check key2 =? 0) ValueError in
  Ok (point_mul8 E (scalarmult E key1 key2)).
(** ec_py.py:1013-1022; output indices are non-negative *)
Definition derivation_to_scalar (derivation : pt) (output_index : Z) : Z :=
  hash_to_scalar E (encp E derivation ++ varint output_index).
(** ec_py.py:1025-1041 *)
Definition derive_public_key (derivation : pt) (output_index : Z) (base : pt) : pt :=
  point_add E base (scalarmult_base E (derivation_to_scalar derivation output_index)).
(** ec_py.py:1044-1055 *)
Definition derive_secret_key (derivation : pt) (output_index base : Z) : res Z :=
  let* _ := guard (sc_check base =? 0) ValueError in
  Ok (sc_add base (derivation_to_scalar derivation output_index)).

(** ec_py.py:1058-1074: struct "<7sb32sLL" *)
Definition u32_le (v : Z) : res (list Z) :=
  if (0 <=? v) && (v <? 2 ^ 32) then Ok (le_digits 256 4 v) else Err StructError.
Definition ec_subaddress_secret_key (secret_key major minor : Z) : res Z :=
  let* ma := u32_le major in
  let* mi := u32_le minor in
  Ok (hash_to_scalar E (ascii_bytes "SubAddr" ++ 0 :: enc_sc secret_key ++ ma ++ mi)).
(** monero.py:50-62 *)
Definition get_subaddress_secret_key (secret_key major minor : Z) : res Z :=
  if (major =? 0) && (minor =? 0) then Ok secret_key else ec_subaddress_secret_key secret_key major minor.
(** monero.py:65-75 *)
Definition get_subaddress_spend_public_key (view_private : Z) (spend_public : pt) (major minor : Z) : res pt :=
  if (major =? 0) && (minor =? 0) then Ok spend_public else
  let* m := get_subaddress_secret_key view_private major minor in
  Ok (point_add E spend_public (scalarmult_base E m)).
(** monero.py:445-461 *)
Definition generate_sub_address_keys (view_sec : Z) (spend_pub : pt) (major minor : Z) : res (pt * pt) :=
  if (major =? 0) && (minor =? 0) then Ok (spend_pub, scalarmult_base E view_sec) else
  let* m := get_subaddress_secret_key view_sec major minor in
  let D := point_add E spend_pub (scalarmult_base E m) in
  Ok (D, scalarmult E D view_sec).

(** the sub-address dictionary: bytes -> (major, minor), most recent assignment first *)
Definition subaddrs := list (list Z * (Z * Z)).
Fixpoint sa_get (k : list Z) (d : subaddrs) : option (Z * Z) :=
  match d with [] => None | (k', v) :: d => if zlist_eqb k k' then Some v else sa_get k d end.
Definition sa_set (k : list Z) (v : Z * Z) (d : subaddrs) : subaddrs := (k, v) :: d.
(** monero.py:368-391 *)
Fixpoint compute_subaddresses (view_private : Z) (spend_public : pt) (account : Z) (indices : list Z) (d : subaddrs) : res subaddrs :=
  match indices with
  | [] => Ok d
  | idx :: indices =>
      if (account =? 0) && (idx =? 0) then compute_subaddresses view_private spend_public account indices (sa_set (encp E spend_public) (0, 0) d)
      else
        let* pub := get_subaddress_spend_public_key view_private spend_public account idx in
        compute_subaddresses view_private spend_public account indices (sa_set (encp E pub) (account, idx) d)
  end.

(** monero.py:78-86 *)
Definition derive_subaddress_public_key (out_key derivation : pt) (output_index : Z) : pt :=
  point_sub E out_key (scalarmult_base E (derivation_to_scalar derivation output_index)).
(** monero.py:98-125 *)
Definition is_out_to_acc_precomp (d : subaddrs) (out_key derivation : pt) (additional : list pt) (output_index : Z)
  : res (option ((Z * Z) * pt)) :=
  match sa_get (encp E (derive_subaddress_public_key out_key derivation output_index)) d with
  | Some i => Ok (Some (i, derivation))
  | None =>
      match additional with
      | [] => Ok None
      | _ =>
          let* _ := guard (output_index <? zlen additional) ValueError in
          let* ad := py_get additional output_index in
          match sa_get (encp E (derive_subaddress_public_key out_key ad output_index)) d with
          | Some i => Ok (Some (i, ad))
          | None => Ok None
          end
      end
  end.

(** account credentials; monero.py uses the keys and the list of multisig keys *)
Record creds := { cr_view : Z; cr_spend : Z; cr_spend_pub : pt; cr_multisig : bool }.

(** monero.py:89-95 over the encoded key *)
Definition key_image_of (pub : list Z) (sec : Z) : pt := scalarmult E (Hp E pub) sec.
(** monero.py:128-183 *)
Definition generate_key_image_helper_precomp (ack : creds) (out_key recv_derivation : pt) (real_output_index : Z) (received : Z * Z)
  : res (Z * pt) :=
  let* _ := guard (sc_isnonzero (cr_spend ack)) ValueError in
  let* step1 := derive_secret_key recv_derivation real_output_index (cr_spend ack) in
  let main := (fst received =? 0) && (snd received =? 0) in
  let* (subaddr_sk, step2) :=
    if main then Ok (0, step1)
    else let* sk := get_subaddress_secret_key (cr_view ack) (fst received) (snd received) in Ok (sk, sc_add step1 sk) in
  let pub_ver :=
    if negb (cr_multisig ack) then scalarmult_base E step2
    else
      let p := derive_public_key recv_derivation real_output_index (cr_spend_pub ack) in
      if main then p else point_add E p (scalarmult_base E subaddr_sk) in
  let* _ := guard (pt_eqb E pub_ver out_key) ValueError in
  Ok (step2, key_image_of (encp E pub_ver) step2).

(** monero.py:186-229; XmrNoSuchAddressException is [MoneroError] *)
Definition generate_key_image_helper (ack : creds) (d : subaddrs) (out_key tx_public_key : pt) (additional_tx_public_keys : list pt)
  (real_output_index : Z) : res (Z * pt * pt) :=
  let* recv := generate_key_derivation tx_public_key (cr_view ack) in
  let* additional := mapM (fun p => generate_key_derivation p (cr_view ack)) additional_tx_public_keys in
  let* r := is_out_to_acc_precomp d out_key recv additional real_output_index in
  match r with
  | None => Err MoneroError
  | Some (i, der) =>
      let* (xi, ki) := generate_key_image_helper_precomp ack out_key der real_output_index i in
      Ok (xi, ki, recv)
  end.

(** ** amounts *)
(** crypto.py:130-133 *)
Definition xor8 (buff key : list Z) : list Z :=
  map (fun ib => if (fst ib <? 8)%nat then Z.lxor (snd ib) (nth (fst ib) key 0) else snd ib) (combine (seq 0 (length buff)) buff).
(** monero.py:464-474 (slice assignment: any length of key) *)
Definition commitment_mask (key : list Z) : Z := hash_to_scalar E (ascii_bytes "commitment_mask" ++ key).
(** monero.py:477-484 *)
Definition ecdh_hash (shared_sec : list Z) : list Z := hash E (ascii_bytes "amount" ++ shared_sec).

(** an EcdhTuple of scalars (mask, amount) *)
(** ring_ct.py:457-484 with a given derivation *)
Definition ecdh_encdec (masked : Z * Z) (derivation : list Z) (v2 enc : bool) : Z * Z :=
  let '(mask, amount) := masked in
  if v2 then
    (commitment_mask derivation, dec_sc (xor8 (enc_sc amount) (ecdh_hash derivation)))
  else
    let h1 := hash_to_scalar E derivation in
    let h2 := hash_to_scalar E (enc_sc h1) in
    if enc then (sc_add mask h1, sc_add amount h2) else (sc_sub mask h1, sc_sub amount h2).
(** ring_ct.py:431-446 with a given derivation, and with a receiver key: a fresh
    secret [esk], returning the sender's public key as well *)
Definition ecdh_encode (unmasked : Z * Z) (derivation : list Z) (v2 : bool) : Z * Z := ecdh_encdec unmasked derivation v2 true.
Definition ecdh_encode_pk (unmasked : Z * Z) (receiver_pk : pt) (esk : Z) (v2 : bool) : pt * (Z * Z) :=
  (scalarmult_base E esk, ecdh_encdec unmasked (encp E (scalarmult E receiver_pk esk)) v2 true).
(** ring_ct.py:449-454 with a given derivation *)
Definition ecdh_decode (masked : Z * Z) (derivation : list Z) (v2 : bool) : Z * Z := ecdh_encdec masked derivation v2 false.
(** ring_ct.py:449-464 with a receiver's secret key: the derivation stays a point object
    (line 464 does not encode it); bytearray slice assignment (monero.py:470) and the
    sponge (keccak2.py:333) iterate its coordinates, which exceed a byte: ValueError *)
Definition ecdh_decode_sk (masked : Z * Z) (senderPk : pt) (receiver_sk : Z) (v2 : bool) : res (Z * Z) := Err ValueError.

(** tsx_sign_builder.py:1274-1311: the (mask, amount) byte strings *)
Definition s6_ecdh_encode (mask amount : Z) (amount_key : list Z) (v2 : bool) : list Z * list Z :=
  let amnt := amount mod l in
  if v2 then (repeat 0 32, xor8 (enc_sc amnt) (ecdh_hash amount_key))
  else
    let h1 := hash_to_scalar E amount_key in
    let h2 := hash_to_scalar E (enc_sc h1) in
    (enc_sc (sc_add mask h1), enc_sc (sc_add amnt h2)).
(** tsx_sign_builder.py:1249-1263 *)
Definition s6_serialize_ecdh (e : list Z * list Z) (v2 : bool) : list Z :=
  if v2 then firstn 8 (snd e) else firstn 32 (fst e) ++ firstn 32 (snd e).
(** agent_lite.py:648-659: hard fork 9 parses 64 bytes, later ones pad 8 bytes *)
Definition agent_parse_ecdh (info : list Z) (v2 : bool) : list Z * list Z :=
  if v2 then (repeat 0 32, info ++ skipn 8 (repeat 0 32)) else (firstn 32 info, skipn 32 info).

(** what a transaction's ring signature data tells about outputs: the type, per output the
    masked amount, and per output the commitment *)
Record rv_outs := { rv_type : Z; rv_ecdh : list (list Z * list Z); rv_outPk : list (list Z) }.
(** monero.py:309-327 *)
Definition ecdh_decode_simple (rv : rv_outs) (sk i : Z) (v2 : bool) : res (Z * Z) :=
  let* _ := guard (i <? zlen (rv_ecdh rv)) ValueError in
  let* _ := guard (zlen (rv_outPk rv) =? zlen (rv_ecdh rv)) ValueError in
  let* e := py_get (rv_ecdh rv) i in
  let ecdh_info := (dec_sc (fst e), dec_sc (snd e)) in
  let '(mask, amount) := ecdh_decode ecdh_info (enc_sc sk) v2 in
  let c_tmp := add_keys2 E mask amount (Hb E) in
  let* o := py_get (rv_outPk rv) i in
  let* c := decp E o in
  let* _ := guard (pt_eqb E c_tmp c) ValueError in
  Ok (amount, mask).
(** monero.py:294-306; RctType Full 1, Simple 2, Bulletproof 3, Bulletproof2 4 *)
Definition ecdh_decode_rv (rv : rv_outs) (derivation : pt) (i : Z) : res (Z * Z) :=
  let scalar := derivation_to_scalar derivation i in
  if (rv_type rv =? 1) || (rv_type rv =? 2) || (rv_type rv =? 3) then ecdh_decode_simple rv scalar i false
  else if rv_type rv =? 4 then ecdh_decode_simple rv scalar i true
  else Err ValueError.

(** monero.py:232-262 and 265-291, not multisig, for an output with explicit amount zero
    (every RingCT output); the running total per sub-address is left out.  The result is
    the sub-address index, one-time secret, key image, amount and mask. *)
Definition scan_output (ack : creds) (d : subaddrs) (rv : rv_outs) (out_key : list Z) (derivation : pt) (additional : list pt) (i : Z)
  : res (option ((Z * Z) * Z * pt * Z * Z)) :=
  let* P := decp E out_key in
  let* received := is_out_to_acc_precomp d P derivation additional i in
  match received with
  | None => Ok None
  | Some (idx, der) =>
      let* P := decp E out_key in
      let* (x, ki) := generate_key_image_helper_precomp ack P der i idx in
      let* (amount, mask) := ecdh_decode_rv rv der i in
      Ok (Some (idx, x, ki, amount, mask))
  end.

(** ** the sender (device) *)
(** a destination: its keys and whether it is a sub-address, or the sender's own change *)
Record dest := { ds_spend : pt; ds_view : pt; ds_sub : bool; ds_change : bool }.
(** tsx_sign_builder.py:173-178, 444-447: the transaction key R *)
Definition tx_pub_key (r : Z) (single_sub : option pt) : pt :=
  match single_sub with Some D => scalarmult E D r | None => scalarmult_base E r end.
(** tsx_sign_builder.py:1313-1335: the additional key of this output, with its secret *)
Definition additional_key (need_additional : bool) (dst : dest) (s : Z) : option pt :=
  if need_additional then Some (if ds_sub dst then scalarmult E (ds_spend dst) s else scalarmult_base E s) else None.
(** tsx_sign_builder.py:1337-1365; [view] is the sender's secret view key *)
Definition out_derivation (need_additional : bool) (dst : dest) (r s view : Z) (R : pt) : res pt :=
  if ds_change dst then generate_key_derivation R view
  else generate_key_derivation (ds_view dst) (if ds_sub dst && need_additional then s else r).
(** tsx_sign_builder.py:990-1009: one-time key and amount key of output [idx] *)
Definition compute_tx_keys (need_additional : bool) (dst : dest) (r s view : Z) (R : pt) (idx : Z) : res (pt * Z) :=
  let* der := out_derivation need_additional dst r s view R in
  Ok (derive_public_key der idx (ds_spend dst), derivation_to_scalar der idx).
(** tsx_sign_builder.py:1226-1247: encoded output key, commitment, serialised ecdh *)
Definition s6_ecdh_info_and_out_pk (tx_out_key : pt) (amount mask amount_key : Z) (v2 : bool) : list Z * list Z * list Z :=
  (encp E tx_out_key, encp E (gen_c E mask amount), s6_serialize_ecdh (s6_ecdh_encode mask amount (enc_sc amount_key) v2) v2).
End W.
