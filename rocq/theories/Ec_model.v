(** The elliptic curve interface of xmr/core/ec_py.py as the protocols use it:
    scalars are integers modulo [l], points are elements of an abstract group.

    Simplification: a point of the code is a quadruple of coordinates compared
    by [point_equal] and serialised after normalisation; here a point is the
    group element it denotes, with equality.  The coordinate level is the
    subject of Ed25519_model.v.  The curve membership checks
    ([check_ed25519point], [ge_frombytes_vartime_check]) therefore hold of
    every point and are left out. *)
From Verif Require Import Py Digits Ints_model.

(** ec_py.py:97-158 (EdPoint), 607-650 (base point, H), 815-909 (hashing).
    [hash] is Keccak-256 [cn_fast_hash]; [Hp] is [hash_to_point];
    [encp] is [encodepoint] (ed25519_2.py:204-212), [decp] [decodepoint]
    (ed25519_2.py:261-269), the error being the exception raised for a string
    that is no point. *)
Record ecops := {
  pt : Type;
  pt_eqb : pt -> pt -> bool;
  padd : pt -> pt -> pt;
  pneg : pt -> pt;
  pid : pt;
  smul : pt -> Z -> pt;
  Gb : pt;
  Hb : pt;
  encp : pt -> list Z;
  decp : list Z -> res pt;
  hash : list Z -> list Z;
  Hp : list Z -> pt;
}.

(** ** Scalars: ec_py.py:36-94, every operation of EdScalar reduces modulo l *)
(** ec_py.py:502-503 *)
Definition sc_add (a b : Z) : Z := (a + b) mod l.
(** ec_py.py:511-512 *)
Definition sc_sub (a b : Z) : Z := (a - b) mod l.
(** ec_py.py:528-529 *)
Definition sc_mul (a b : Z) : Z := (a * b) mod l.
(** ec_py.py:537-541: cc - aa * bb *)
Definition sc_mulsub (aa bb cc : Z) : Z := (cc - (aa * bb) mod l) mod l.
(** ec_py.py:552-553: cc + aa * bb *)
Definition sc_muladd (aa bb cc : Z) : Z := (cc + (aa * bb) mod l) mod l.
(** ec_py.py:520-521 *)
Definition sc_isnonzero (c : Z) : bool := negb (c =? 0).
(** ec_py.py:661-662: the constant INV_EIGHT, read by [decodeint] *)
Definition INV_EIGHT : list Z :=
  [0x79; 0x2f; 0xdc; 0xe2; 0x29; 0xe5; 0x06; 0x61; 0xd0; 0xda; 0x1c; 0x7d; 0xb3; 0x9d; 0xd3; 0x07;
   0; 0; 0; 0; 0; 0; 0; 0; 0; 0; 0; 0; 0; 0; 0; 0x06].
Definition inv_eight : Z := le_val 256 INV_EIGHT mod l.

Section Ec.
Context (E : ecops).
Local Notation pt := (pt E).

(** ec_py.py:826-834: [decodeint] of the Keccak digest (little-endian, mod l) *)
Definition hash_to_scalar (data : list Z) : Z := le_val 256 (hash E data) mod l.
(** ec_py.py:607-608 *)
Definition scalarmult_base (a : Z) : pt := smul E (Gb E) a.
(** ec_py.py:617-618 *)
Definition scalarmult (P : pt) (e : Z) : pt := smul E P e.
(** ec_py.py:626-627 *)
Definition point_add (A B : pt) : pt := padd E A B.
(** ec_py.py:635-636, 118-120: A - B = A + (-B) *)
Definition point_sub (A B : pt) : pt := padd E A (pneg E B).
(** ec_py.py:656-657, 666 *)
Definition point_mul8 (P : pt) : pt := smul E P 8.
(** ec_py.py:685-696: a A + b G *)
Definition ge_double_scalarmult_base_vartime (a : Z) (A : pt) (b : Z) : pt :=
  point_add (scalarmult A a) (scalarmult_base b).
(** ec_py.py:713-730: a A + b B (the precomputation ec_py.py:792-806 is the identity) *)
Definition ge_double_scalarmult_precomp_vartime (a : Z) (A : pt) (b : Z) (B : pt) : pt :=
  point_add (scalarmult A a) (scalarmult B b).
(** ec_py.py:939-940, 76-79: [ensure_scalar] reduces an int *)
Definition scalarmult_h (i : Z) : pt := smul E (Hb E) (i mod l).
(** ec_py.py:943-951: aG + bB *)
Definition add_keys2 (a b : Z) (B : pt) : pt := point_add (scalarmult_base a) (scalarmult B b).
(** ec_py.py:959-968: aA + bB *)
Definition add_keys3 (a : Z) (A : pt) (b : Z) (B : pt) : pt := point_add (scalarmult A a) (scalarmult B b).
(** ec_py.py:976-986 *)
Definition gen_c (a amount : Z) : pt := point_add (scalarmult_base a) (scalarmult_h amount).
End Ec.
