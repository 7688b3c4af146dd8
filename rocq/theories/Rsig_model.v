(** Serialisation of range proofs: xmr/sub/recode_ext.py:6-72 and
    hwtoken/misc.py:152-193 (= protocol/tsx_sign_builder.py:1167-1206, line by line). *)
From Verif Require Import Py Digits Ints_model Ec_model Mlsag_model Borromean_model.

(** a RangeSig whose components are byte strings *)
Record rsig_bytes := { rb_s0 : list (list Z); rb_s1 : list (list Z); rb_ee : list Z; rb_Ci : list (list Z) }.

Section R.
Context (E : ecops).
(** recode_ext.py:6-31 with encode=True *)
Definition encode_rangesig (r : rangesig E) : rsig_bytes :=
  {| rb_s0 := map enc_sc (rs_s0 E r); rb_s1 := map enc_sc (rs_s1 E r); rb_ee := enc_sc (rs_ee E r); rb_Ci := map (encp E) (rs_Ci E r) |}.
(** ec_py.py:268-270 decodeint: reduces *)
Definition dec_sc (b : list Z) : Z := le_val 256 b mod l.
(** recode_ext.py:6-31 with encode=False *)
Definition decode_rangesig (r : rsig_bytes) : res (rangesig E) :=
  let* Ci := mapM (decp E) (rb_Ci r) in
  Ok {| rs_Ci := Ci; rs_s0 := map dec_sc (rb_s0 r); rs_s1 := map dec_sc (rb_s1 r); rs_ee := dec_sc (rb_ee r) |}.
(** ring_ct.py:388-418 with the default [decode=True] *)
Definition ver_range_decode (C : option (pt E)) (r : rsig_bytes) : res bool :=
  let* r := decode_rangesig r in ver_range E C r.
End R.

(** recode_ext.py:34-49 *)
Definition flatten_rsig (r : rsig_bytes) : list Z :=
  concat (rb_s0 r) ++ concat (rb_s1 r) ++ rb_ee r ++ concat (rb_Ci r).
(** recode_ext.py:65-71: [x[i], buff = buff[:32], buff[32:]]; slices never raise *)
Fixpoint take_keys (n : nat) (buff : list Z) : list (list Z) * list Z :=
  match n with
  | O => ([], buff)
  | S n => let x := py_upto buff 32 in let '(xs, buff) := take_keys n (py_from buff 32) in (x :: xs, buff)
  end.
(** recode_ext.py:52-72 *)
Definition inflate_rsig (buff : list Z) : rsig_bytes :=
  let '(s0, buff) := take_keys 64 buff in
  let '(s1, buff) := take_keys 64 buff in
  let ee := py_upto buff 32 in
  let '(Ci, _) := take_keys 64 (py_from buff 32) in
  {| rb_s0 := s0; rb_s1 := s1; rb_ee := ee; rb_Ci := Ci |}.
(** ring_ct.py:241-252, 202-210: prove_range(amount, last_mask, byte_enc=True), Python backend *)
Definition prove_range_bytes (E : ecops) (amount : Z) (last_mask : option Z) (ra al sr : list Z) : res (pt E * Z * list Z) :=
  let* (Ca, R) := prove_range_mem E amount last_mask ra al sr in
  Ok (Ca, flatten_rsig (encode_rangesig E R)).

(** a Bulletproof with encoded components (V is not serialised) *)
Record bulletproof := { bp_A : list Z; bp_S : list Z; bp_T1 : list Z; bp_T2 : list Z; bp_taux : list Z; bp_mu : list Z;
                        bp_L : list (list Z); bp_R : list (list Z); bp_a : list Z; bp_b : list Z; bp_t : list Z }.
(** compat/utils.py:8-11 memcpy(dst, off, src, 0, 32) *)
Definition memcpy32 (dst : list Z) (off : Z) (src : list Z) : res (list Z) :=
  foldM (fun dst i => let* v := py_get src i in py_set dst (off + i) v) (zrange 32) dst.
(** misc.py:176-178, 183-185: for x in ks: memcpy(buff, offset, x, 0, 32); offset += 32 *)
Fixpoint put_keys (buff : list Z) (offset : Z) (ks : list (list Z)) : res (list Z * Z) :=
  match ks with
  | [] => Ok (buff, offset)
  | x :: ks => let* buff := memcpy32 buff offset x in put_keys buff (offset + 32) ks
  end.
(** assignment of a byte into a bytearray: values outside 0..255 raise ValueError *)
Definition put_byte (buff : list Z) (offset v : Z) : res (list Z) :=
  let* _ := guard (byte_okb v) ValueError in py_set buff offset v.
(** misc.py:152-193 *)
Definition dump_rsig_bp (p : bulletproof) : res (list Z) :=
  let* _ := guard (zlen (bp_L p) <=? 127) ValueError in
  let buff := repeat 0 (Z.to_nat (32 * (9 + 2 * zlen (bp_L p)) + 2)) in
  let* buff := memcpy32 buff 0 (bp_A p) in
  let* buff := memcpy32 buff 32 (bp_S p) in
  let* buff := memcpy32 buff (32 * 2) (bp_T1 p) in
  let* buff := memcpy32 buff (32 * 3) (bp_T2 p) in
  let* buff := memcpy32 buff (32 * 4) (bp_taux p) in
  let* buff := memcpy32 buff (32 * 5) (bp_mu p) in
  let* buff := put_byte buff (32 * 6) (zlen (bp_L p)) in
  let offset := 32 * 6 + 1 in
  let* (buff, offset) := put_keys buff offset (bp_L p) in
  let* buff := put_byte buff offset (zlen (bp_R p)) in
  let offset := offset + 1 in
  let* (buff, offset) := put_keys buff offset (bp_R p) in
  let* buff := memcpy32 buff offset (bp_a p) in
  let offset := offset + 32 in
  let* buff := memcpy32 buff offset (bp_b p) in
  let offset := offset + 32 in
  memcpy32 buff offset (bp_t p).
