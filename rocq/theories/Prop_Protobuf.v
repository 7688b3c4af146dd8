(** C06, C07, C08: properties of monero_glue/protobuf.py *)
From Verif Require Import Py Digits Protobuf_model Protobuf_spec Protobuf_proof.

(** C06: the bytes written for n are the minimal base-128 digits; reading them
    back returns n and leaves exactly what follows; the counting writer predicts
    the length; negative numbers are refused.  [lims] are the limits of the
    enclosing LimitedReaders. *)
Theorem C06_varint_write : forall n,
  dump_uvarint bytes_write [] n = (if n <? 0 then Err ValueError else Ok (varint n)).
Proof. exact dump_uvarint_bytes. Qed.
Print Assumptions C06_varint_write.

Theorem C06_varint_round_trip : forall n tail lims, 0 <= n -> Forall (fun l => zlen (varint n) <= l) lims ->
  load_uvarint {| rest := varint n ++ tail; limits := lims |}
  = UVal n {| rest := tail; limits := map (fun l => l - zlen (varint n)) lims |}.
Proof. exact load_varint. Qed.
Print Assumptions C06_varint_round_trip.

Theorem C06_varint_length : forall n, 0 <= n ->
  dump_uvarint count_write 0 n = Ok (zlen (varint n)) /\ zlen (varint n) = Z.log2 n / 7 + 1.
Proof. exact (fun n H => conj (dump_uvarint_count n H) (varint_length n H)). Qed.
Print Assumptions C06_varint_length.

Theorem C06_varint_bytes : forall n, 0 <= n -> bytes_ok (varint n).
Proof. exact varint_bytes. Qed.
Print Assumptions C06_varint_bytes.

(** a varint cut before its last byte is an end-of-file *)
Theorem C06_varint_truncated : forall n, 0 <= n -> forall p q r sh, varint n = p ++ q -> q <> [] ->
  exists rd, load_uvarint_from p [] r sh = UEof rd.
Proof. exact load_cut. Qed.
Print Assumptions C06_varint_truncated.

Example C06_case : dump_uvarint bytes_write [] 300 = Ok [172; 2] /\ varint 300 = [172; 2] /\
  varint (2 ^ 70) = repeat 128 10 ++ [1] /\
  load_uvarint {| rest := [172; 2; 9]; limits := [5] |} = UVal 300 {| rest := [9]; limits := [3] |}.
Proof. vm_compute. repeat split. Qed.

(** C07 *)
Theorem C07_zigzag_decode_encode : forall n, uint_to_sint (sint_to_uint n) = n.
Proof. exact uint_sint. Qed.
Print Assumptions C07_zigzag_decode_encode.
Theorem C07_zigzag_encode_decode : forall u, 0 <= u -> sint_to_uint (uint_to_sint u) = u.
Proof. exact sint_uint. Qed.
Print Assumptions C07_zigzag_encode_decode.
Theorem C07_zigzag_value : forall n, sint_to_uint n = (if n <? 0 then - 2 * n - 1 else 2 * n) /\ 0 <= sint_to_uint n.
Proof. exact (fun n => conj (sint_to_uint_spec n) (eq_ind_r (fun z => 0 <= z) (zigzag_nonneg n) (sint_to_uint_spec n))). Qed.
Print Assumptions C07_zigzag_value.
Example C07_case : map sint_to_uint [0; -1; 1; -2; 2] = [0; 1; 2; 3; 4].
Proof. reflexivity. Qed.

(** C08: for every schema and every message that fits it, dumping succeeds and
    loading the bytes gives the message; the size counted for an embedded message
    is the size written. *)
Theorem C08_message_round_trip : forall utf8_ok s m, message_fits utf8_ok s m ->
  exists bs, dump_bytes s m = Ok bs /\ load_message utf8_ok s bs = Ok m.
Proof. exact message_round_trip. Qed.
Print Assumptions C08_message_round_trip.

Theorem C08_message_wire_format : forall utf8_ok s m, message_fits utf8_ok s m ->
  dump_bytes s m = Ok (message_bytes m s) /\
  dump_message count_write s m 0 = Ok (zlen (message_bytes m s)) /\
  bytes_ok (message_bytes m s).
Proof. exact (fun u s m H => conj (dump_bytes_wire u s m H) (conj (dump_count_wire u s m H) (message_bytes_ok u s m H))). Qed.
Print Assumptions C08_message_wire_format.

(** any stream of known fields (in any order, repeated) and unknown fields is
    received as specified: unknown fields change nothing *)
Theorem C08_stream : forall utf8_ok s items, tags_ok s -> Forall (item_ok utf8_ok s) items ->
  load_message utf8_ok s (concat (map item_bytes items)) = Ok (fold_left (receive s) items (empty_msg s)).
Proof. exact load_stream. Qed.
Print Assumptions C08_stream.

(** on arbitrary bytes the reader stops, with a message or one of three exceptions *)
Theorem C08_reader_total : forall utf8_ok s bs,
  match load_message utf8_ok s bs with
  | Ok _ => True | Err e => e = EOFErr \/ e = ValueError \/ e = TypeError end.
Proof. exact load_message_total. Qed.
Print Assumptions C08_reader_total.

(** a numeric field cut inside its value is refused *)
Theorem C58_truncated_number_partial : forall utf8_ok s items tag ft n p q,
  tags_ok s -> Forall (item_ok utf8_ok s) items -> (exists rep, In (tag, ft, rep) s) -> wire_type ft = 0 ->
  0 <= n -> varint n = p ++ q -> q <> [] ->
  load_message utf8_ok s (concat (map item_bytes items) ++ key_bytes tag 0 ++ p) = Err EOFErr.
Proof. exact load_cut_value. Qed.
Print Assumptions C58_truncated_number_partial.

(** Finding: a byte string field cut short is NOT refused, it is padded with
    zeros: the buffer of the announced length is only partly filled. *)
Theorem C58_truncation_refused_refuted : exists s m bs cut m',
  dump_bytes s m = Ok bs /\ cut = firstn (length bs - 2) bs /\
  load_message (fun _ => true) s cut = Ok m' /\ m' <> m.
Proof.
  exists [(1, TBytes, false)], [[VBytes [7; 8; 9]]], [10; 3; 7; 8; 9], [10; 3; 7], [[VBytes [7; 0; 0]]].
  repeat split. discriminate.
Qed.
Print Assumptions C58_truncation_refused_refuted.

Example C08_case :
  let inner := [(1, TSVarint, true); (2, TUnicode, false)] in
  let s := [(3, TUVarint, false); (5, TMsg inner, true); (6, TBytes, false); (200, TBool, false)] in
  let m := [[VInt 100000]; [VMsg [[VInt (-5); VInt 70]; [VStr [97; 98]]]; VMsg [[]; []]]; []; [VBool true]] in
  message_fits (fun _ => true) s m /\
  (let* bs := dump_bytes s m in
   load_message (fun _ => true) s ([56; 1] ++ bs ++ [66; 2; 0; 0])) = Ok m.
Proof.
  split; [|vm_compute; reflexivity].
  assert (T1 : tags_ok [(1, TSVarint, true); (2, TUnicode, false)]).
  { split; [repeat constructor; cbn; intuition discriminate|repeat constructor; cbn; lia]. }
  constructor.
  - split; [repeat constructor; cbn; intuition discriminate|repeat constructor; cbn; lia].
  - repeat constructor; cbn; try lia; try discriminate; try (apply T1).
Qed.
