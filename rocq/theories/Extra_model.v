(** Payment ids and the transaction's extra field: xmr/sub/tsx_helper.py,
    protocol/tsx_sign_builder.py:493-576 and 1386-1396, agent/agent_lite.py:340-349,
    xmr/monero.py:393-415.
    The reader of the extra field belongs to the library monero_serialize; it is
    modelled from the format (tag byte, then the field) for the tags this code writes. *)
From Verif Require Import Py Digits Ints_model Protobuf_spec Ec_model Rsig_model Wallet_model.

(** ** writing *)
(** tsx_helper.py:81-87 *)
Definition set_payment_id_to_tx_extra_nonce (payment_id : list Z) : list Z := 0 :: payment_id.
(** tsx_helper.py:181-182 *)
Definition set_encrypted_payment_id_to_tx_extra_nonce (payment_id : list Z) : list Z := 1 :: payment_id.
(** tsx_helper.py:210-220 *)
Definition add_extra_nonce_to_tx_extra (extra nonce : list Z) : res (list Z) :=
  if 255 <? zlen nonce then Err ValueError else Ok (extra ++ 2 :: zlen nonce :: nonce).
(** tsx_helper.py:223-233, on the encoded point *)
Definition add_tx_pub_key_to_extra (extra pub : list Z) : list Z := extra ++ 1 :: pub.
(** tsx_helper.py:236-258 with [pub_enc]; an empty list falls through to iterating over None *)
Definition add_additional_tx_pub_keys_to_extra (extra : list Z) (pub_enc : list (list Z)) : res (list Z) :=
  match pub_enc with [] => Err TypeError | _ => Ok (extra ++ 4 :: varint (zlen pub_enc) ++ concat pub_enc) end.
(** tsx_sign_builder.py:1386-1396 *)
Definition all_out1_set_tx_extra (extra r_pub : list Z) (need_additional : bool) (additional : list (list Z)) : res (list Z) :=
  let extra := add_tx_pub_key_to_extra extra r_pub in
  if need_additional then add_additional_tx_pub_keys_to_extra extra additional else Ok extra.

(** ** reading *)
Inductive field := FPub (key : list Z) | FNonce (nonce : list Z) | FAdditional (keys : list (list Z)).
(** library: base-128 varint *)
Fixpoint read_uvarint (b : list Z) : res (Z * list Z) :=
  match b with
  | [] => Err EOFErr
  | x :: b => if x <? 128 then Ok (x, b) else let* (v, r) := read_uvarint b in Ok (x - 128 + 128 * v, r)
  end.
Definition take (n : Z) (b : list Z) : res (list Z * list Z) :=
  if n <=? zlen b then Ok (firstn (Z.to_nat n) b, skipn (Z.to_nat n) b) else Err EOFErr.
Fixpoint take_keys (n : nat) (b : list Z) : res (list (list Z) * list Z) :=
  match n with
  | O => Ok ([], b)
  | S n => let* (k, b) := take 32 b in let* (ks, b) := take_keys n b in Ok (k :: ks, b)
  end.
(** library: one variant; other tags are not written by this code and not modelled *)
Definition read_field (b : list Z) : res (field * list Z) :=
  match b with
  | [] => Err EOFErr
  | t :: b =>
      if t =? 1 then let* (k, b) := take 32 b in Ok (FPub k, b)
      else if t =? 2 then let* (n, b) := read_uvarint b in let* (x, b) := take n b in Ok (FNonce x, b)
      else if t =? 4 then
        let* (n, b) := read_uvarint b in
        let* _ := guard (n <=? zlen b) EOFErr in
        let* (ks, b) := take_keys (Z.to_nat n) b in Ok (FAdditional ks, b)
      else Err ValueError
  end.
(** tsx_helper.py:12-23 *)
Fixpoint parse_loop (fuel : nat) (b : list Z) : res (list field) :=
  match b with
  | [] => Ok []
  | _ => match fuel with
         | O => Err OutOfFuel
         | S fuel => let* (f, b) := read_field b in let* fs := parse_loop fuel b in Ok (f :: fs)
         end
  end.
Definition parse_extra_fields (b : list Z) : res (list field) := parse_loop (length b) b.
(** tsx_helper.py:26-40: the [idx]-th field of a kind *)
Inductive kind := KPub | KNonce | KAdditional.
Definition is_kind (k : kind) (f : field) : bool :=
  match k, f with KPub, FPub _ | KNonce, FNonce _ | KAdditional, FAdditional _ => true | _, _ => false end.
Fixpoint find_loop (fs : list field) (k : kind) (idx cur : Z) : option field :=
  match fs with
  | [] => None
  | x :: fs => if is_kind k x then (if cur =? idx then Some x else find_loop fs k idx (cur + 1)) else find_loop fs k idx cur
  end.
Definition find_tx_extra_field_by_type (fs : list field) (k : kind) (idx : Z) : option field := find_loop fs k idx 0.
(** tsx_helper.py:43-58 *)
Definition has_encrypted_payment_id (n : list Z) : bool := (zlen n =? 9) && (nth 0 n 0 =? 1).
Definition has_payment_id (n : list Z) : bool := (zlen n =? 33) && (nth 0 n 1 =? 0).
(** tsx_helper.py:61-78 *)
Definition get_payment_id_from_tx_extra_nonce (n : list Z) : res (list Z) :=
  let* _ := guard (zlen n =? 33) ValueError in
  let* t := py_get n 0 in let* _ := guard (t =? 0) ValueError in Ok (py_from n 1).
Definition get_encrypted_payment_id_from_tx_extra_nonce (n : list Z) : res (list Z) :=
  let* _ := guard (zlen n =? 9) ValueError in
  let* t := py_get n 0 in let* _ := guard (t =? 1) ValueError in Ok (py_from n 1).
(** agent_lite.py:340-349: the payment id the agent sends to the device *)
Definition agent_payment_id (extra : list Z) : res (list Z) :=
  let* fs := parse_extra_fields extra in
  match find_tx_extra_field_by_type fs KNonce 0 with
  | Some (FNonce n) =>
      if has_encrypted_payment_id n then get_encrypted_payment_id_from_tx_extra_nonce n
      else if has_payment_id n then get_payment_id_from_tx_extra_nonce n else Ok []
  | _ => Ok []
  end.
(** monero.py:393-415; [None.pub_key] is an AttributeError *)
Definition get_tx_pub_key_from_received_outs (extra : list Z) : res (list Z) :=
  let* fs := parse_extra_fields extra in
  match find_tx_extra_field_by_type fs KPub 1 with
  | None => match find_tx_extra_field_by_type fs KPub 0 with Some (FPub k) => Ok k | _ => Err AttributeError end
  | Some _ => Err ValueError
  end.

Section E.
Context (E : ecops).
(** tsx_helper.py:138-157: exclusive-or of the first 8 bytes; index errors on shorter input *)
Definition encrypt_payment_id (payment_id : list Z) (public_key : pt E) (secret_key : Z) : res (list Z) :=
  let* der := generate_key_derivation E public_key secret_key in
  let h := hash E (encp E der ++ [141]) in
  foldM (fun pm i => let* x := py_get pm i in let* k := py_get h i in py_set pm i (Z.lxor x k)) (zrange 8) payment_id.

(** an address in a message: encoded spend and view keys *)
Record addr := { ad_spend : list Z; ad_view : list Z }.
Definition NULL_KEY_ENC : list Z := repeat 0 32.
Definition addr_eq (a b : addr) : bool := zlist_eqb (ad_spend a) (ad_spend b) && zlist_eqb (ad_view a) (ad_view b).
(** tsx_sign_builder.py:545-576: the destination's view key, and the payment id, which is
    set to eight zero bytes when empty and at most one destination was counted *)
Fixpoint view_key_loop (outs : list (Z * addr)) (change : option addr) (pid : list Z) (cur : addr) (count : Z) : option (addr * Z) :=
  match outs with
  | [] => Some (cur, count)
  | (amount, a) :: outs =>
      if amount =? 0 then view_key_loop outs change pid cur count
      else if match change with Some c => addr_eq a c | None => false end then view_key_loop outs change pid cur count
      else if addr_eq a cur then view_key_loop outs change pid cur count
      else if (0 <? count) && negb (zlen pid =? 0) then None
      else view_key_loop outs change pid a (count + 1)
  end.
Definition get_destination_view_key_pub (outs : list (Z * addr)) (change : option addr) (pid : list Z) : list Z * list Z :=
  match view_key_loop outs change pid {| ad_spend := NULL_KEY_ENC; ad_view := NULL_KEY_ENC |} 0 with
  | None => (NULL_KEY_ENC, pid)
  | Some (a, count) => (ad_view a, if (zlen pid =? 0) && (count <=? 1) then repeat 0 8 else pid)
  end.
(** tsx_sign_builder.py:493-543: the extra field after this step (None: left empty) *)
Definition process_payment_id (outs : list (Z * addr)) (change : option addr) (payment_id : list Z) (r : Z) : res (option (list Z)) :=
  let '(view, pid) :=
    if (zlen payment_id =? 0) || (zlen payment_id =? 8) then get_destination_view_key_pub outs change payment_id
    else ([], payment_id) in
  if zlen pid =? 0 then Ok None
  else
    let* (nonce, prefix) :=
      if zlen pid =? 8 then
        let* _ := guard (negb (zlist_eqb view NULL_KEY_ENC)) ValueError in
        let* V := decp E view in
        let* e := encrypt_payment_id pid V r in Ok (e, 1)
      else if zlen pid =? 32 then Ok (pid, 0)
      else Err ValueError in
    Ok (Some (2 :: zlen nonce + 1 :: prefix :: nonce)).
End E.
