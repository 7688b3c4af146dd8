(** The curve arithmetic of the pure Python backend: xmr/core/backend/ed25519_2.py (extended
    coordinates), ed25519ietf.py, ed25519.py (affine), and the point operations of
    xmr/core/ec_py.py built on them. *)
From Verif Require Import Py Ints_model Primes.

(** a point of the code: the tuple (x, y, z, t) *)
Definition quad : Type := (Z * Z * Z * Z)%type.

(** pow(b, e, m) for e >= 0; ed25519.py:13-19 [expmod] is the same recursion
    (there the intermediate square is reduced before the multiplication by b) *)
Definition pypow (b e m : Z) : Z :=
  match e with
  | Z0 => 1 mod m
  | Zpos p => powm (fun x => x mod m) b p
  | Zneg _ => 0
  end.
(** ed25519.py:13-19 *)
Fixpoint expmod_pos (b : Z) (e : positive) (m : Z) : Z :=
  match e with
  | xH => (((1 ^ 2) mod m) * b) mod m
  | xO e => ((expmod_pos b e m) ^ 2) mod m
  | xI e => ((((expmod_pos b e m) ^ 2) mod m) * b) mod m
  end.
Definition expmod (b e m : Z) : Z := match e with Zpos p => expmod_pos b p m | _ => 1 end.

(** ed25519_2.py:67-72; [p] is the literal iteration count *)
Fixpoint pow2 (x : Z) (p : nat) : Z := match p with O => x | S p => pow2 (x * x mod q) p end.
(** ed25519_2.py:75-89 *)
Definition inv (z : Z) : Z :=
  let z2 := z * z mod q in
  let z9 := pow2 z2 2 * z mod q in
  let z11 := z9 * z2 mod q in
  let z2_5_0 := (z11 * z11) mod q * z9 mod q in
  let z2_10_0 := pow2 z2_5_0 5 * z2_5_0 mod q in
  let z2_20_0 := pow2 z2_10_0 10 * z2_10_0 mod q in
  let z2_40_0 := pow2 z2_20_0 20 * z2_20_0 mod q in
  let z2_50_0 := pow2 z2_40_0 10 * z2_10_0 mod q in
  let z2_100_0 := pow2 z2_50_0 50 * z2_50_0 mod q in
  let z2_200_0 := pow2 z2_100_0 100 * z2_100_0 mod q in
  let z2_250_0 := pow2 z2_200_0 50 * z2_50_0 mod q in
  pow2 z2_250_0 5 * z11 mod q.
(** ed25519_2.py:92-93 *)
Definition d : Z := (-121665 * inv 121666) mod q.
Definition I_ : Z := pypow 2 ((q - 1) / 4) q.
(** ed25519_2.py:96-106 *)
Definition xrecover (y : Z) : Z :=
  let xx := (y * y - 1) * inv (d * y * y + 1) in
  let x := pypow xx ((q + 3) / 8) q in
  let x := if negb ((x * x - xx) mod q =? 0) then (x * I_) mod q else x in
  if negb (x mod 2 =? 0) then q - x else x.
(** ed25519_2.py:109-112 *)
Definition By : Z := 4 * inv 5.
Definition Bx : Z := xrecover By.
Definition B : quad := (Bx mod q, By mod q, 1, (Bx * By) mod q).
Definition ident : quad := (0, 1, 1, 0).
(** ed25519_2.py:115-134 *)
Definition edwards_add (P Q : quad) : quad :=
  let '(x1, y1, z1, t1) := P in
  let '(x2, y2, z2, t2) := Q in
  let a := (y1 - x1) * (y2 - x2) mod q in
  let b := (y1 + x1) * (y2 + x2) mod q in
  let c := t1 * 2 * d * t2 mod q in
  let dd := z1 * 2 * z2 mod q in
  let e := b - a in
  let f := dd - c in
  let g := dd + c in
  let h := b + a in
  let x3 := e * f in
  let y3 := g * h in
  let t3 := e * h in
  let z3 := f * g in
  (x3 mod q, y3 mod q, z3 mod q, t3 mod q).
(** ed25519_2.py:137-155 *)
Definition edwards_double (P : quad) : quad :=
  let '(x1, y1, z1, t1) := P in
  let a := x1 * x1 mod q in
  let b := y1 * y1 mod q in
  let c := 2 * z1 * z1 mod q in
  let e := ((x1 + y1) * (x1 + y1) - a - b) mod q in
  let g := - a + b in
  let f := g - c in
  let h := - a - b in
  let x3 := e * f in
  let y3 := g * h in
  let t3 := e * h in
  let z3 := f * g in
  (x3 mod q, y3 mod q, z3 mod q, t3 mod q).
(** ed25519_2.py:158-165: recursion on e // 2; scalars are never negative (a negative
    [e] would recurse for ever: not modelled, the identity is returned) *)
Fixpoint scalarmult_pos (P : quad) (e : positive) : quad :=
  match e with
  | xH => edwards_add (edwards_double ident) P
  | xO e => edwards_double (scalarmult_pos P e)
  | xI e => edwards_add (edwards_double (scalarmult_pos P e)) P
  end.
Definition scalarmult (P : quad) (e : Z) : quad := match e with Zpos p => scalarmult_pos P p | _ => ident end.
(** ed25519_2.py:168-179 *)
Fixpoint make_Bpow (n : nat) (P : quad) : list quad := match n with O => [] | S n => P :: make_Bpow n (edwards_double P) end.
Definition Bpow : list quad := make_Bpow 253 B.
(** ed25519_2.py:182-194: the loop over the table *)
Fixpoint scalarmult_B_loop (tbl : list quad) (P : quad) (e : Z) : quad * Z :=
  match tbl with
  | [] => (P, e)
  | Bi :: tbl => scalarmult_B_loop tbl (if Z.odd e then edwards_add P Bi else P) (e / 2)
  end.
Definition scalarmult_B (e : Z) : res quad :=
  let '(P, e) := scalarmult_B_loop Bpow ident (e mod l) in
  let* _ := guard (e =? 0) AssertionError in
  Ok P.
(** ed25519_2.py:204-212: the 255 low bits of y and the parity of x, packed into bytes *)
Definition encodepoint (P : quad) : res (list Z) :=
  let '(x, y, z, t) := P in
  let zi := inv z in
  let x := (x * zi) mod q in
  let y := (y * zi) mod q in
  let bits := map (fun i => Z.land (Z.shiftr y i) 1) (zrange 255) ++ [Z.land x 1] in
  mapM (fun i =>
    let* bs := mapM (fun j => let* b := py_get bits (i * 8 + j) in Ok (Z.shiftl b j)) (zrange 8) in
    Ok (zsum' bs)) (zrange 32).
(** ed25519_2.py:248-254 *)
Definition isoncurve (P : quad) : bool :=
  let '(x, y, z, t) := P in
  negb (z mod q =? 0) && (x * y mod q =? z * t mod q) && ((y * y - x * x - z * z - d * t * t) mod q =? 0).
(** ed25519_2.py:261-269 *)
Definition decodepoint (s : list Z) : res quad :=
  let* ts := mapM (fun i => let* b := bit s i in Ok (2 ^ i * b)) (zrange 255) in
  let y := zsum' ts in
  let x := xrecover y in
  let* sb := bit s 255 in
  let x := if negb (Z.land x 1 =? sb) then q - x else x in
  let P := (x, y, 1, (x * y) mod q) in
  let* _ := guard (isoncurve P) ValueError in
  Ok P.

(** ** ed25519ietf.py *)
(** ed25519ietf.py:42-43 *)
Definition modp_inv (x : Z) : Z := pypow x (q - 2) q.
(** ed25519ietf.py:47 *)
Definition ietf_d : Z := (-121665 * modp_inv 121666) mod q.
(** ed25519ietf.py:57-66 *)
Definition ietf_point_add (P Q : quad) : quad :=
  let '(p0, p1, p2, p3) := P in
  let '(q0, q1, q2, q3) := Q in
  let A := (p1 - p0) * (q1 - q0) mod q in
  let B := (p1 + p0) * (q1 + q0) mod q in
  let C := 2 * p3 * q3 * ietf_d mod q in
  let D := 2 * p2 * q2 mod q in
  let E := B - A in
  let F := D - C in
  let G := D + C in
  let H := B + A in
  (E * F, G * H, F * G, E * H).
(** ed25519ietf.py:70-78: the while loop on the bits of s *)
Fixpoint ietf_mul_loop (s : positive) (Q P : quad) : quad :=
  match s with
  | xH => ietf_point_add Q P
  | xO s => ietf_mul_loop s Q (ietf_point_add P P)
  | xI s => ietf_mul_loop s (ietf_point_add Q P) (ietf_point_add P P)
  end.
Definition ietf_point_mul (s : Z) (P : quad) : quad :=
  match s with Zpos p => ietf_mul_loop p (0, 1, 1, 0) P | _ => (0, 1, 1, 0) end.
(** ed25519ietf.py:81-87 *)
Definition point_equal (P Q : quad) : bool :=
  let '(p0, p1, p2, p3) := P in
  let '(q0, q1, q2, q3) := Q in
  if negb ((p0 * q2 - q0 * p2) mod q =? 0) then false
  else if negb ((p1 * q2 - q1 * p2) mod q =? 0) then false
  else true.
(** ed25519ietf.py:90 *)
Definition modp_sqrt_m1 : Z := pypow 2 ((q - 1) / 4) q.
(** ed25519ietf.py:95-113; None is the failure *)
Definition recover_x (y sign : Z) : option Z :=
  let x2 := (y * y - 1) * modp_inv (ietf_d * y * y + 1) in
  if x2 =? 0 then (if negb (sign =? 0) then None else Some 0)
  else
    let x := pypow x2 ((q + 3) / 8) q in
    let x := if negb ((x * x - x2) mod q =? 0) then x * modp_sqrt_m1 mod q else x in
    if negb ((x * x - x2) mod q =? 0) then None
    else Some (if negb (Z.land x 1 =? sign) then q - x else x).
(** ed25519ietf.py:126-130 *)
Definition point_compress (P : quad) : res (list Z) :=
  let '(p0, p1, p2, p3) := P in
  let zinv := modp_inv p2 in
  let x := p0 * zinv mod q in
  let y := p1 * zinv mod q in
  encodeint_raw (Z.lor y (Z.shiftl (Z.land x 1) 255)).
(** ed25519ietf.py:133-146 *)
Definition point_decompress (s : list Z) : res (option quad) :=
  let* y := decodeint_raw s in
  let sign := Z.shiftr y 255 in
  let y := Z.land y (Z.shiftl 1 255 - 1) in
  Ok (match recover_x y sign with None => None | Some x => Some (x, y, 1, x * y mod q) end).

(** ** ed25519.py, affine *)
(** ed25519.py:22-23 *)
Definition aff_inv (x : Z) : Z := expmod x (q - 2) q.
(** ed25519.py:26: not reduced *)
Definition aff_d : Z := -121665 * aff_inv 121666.
(** ed25519.py:78-86 *)
Definition edwards (P Q : Z * Z) : Z * Z :=
  let '(x1, y1) := P in
  let '(x2, y2) := Q in
  let x3 := (x1 * y2 + x2 * y1) * aff_inv (1 + aff_d * x1 * x2 * y1 * y2) in
  let y3 := (y1 * y2 + x1 * x2) * aff_inv (1 - aff_d * x1 * x2 * y1 * y2) in
  (x3 mod q, y3 mod q).
(** ed25519.py:89-96 *)
Definition edwards_Minus (P Q : Z * Z) : Z * Z :=
  let '(x1, y1) := P in
  let '(x2, y2) := Q in
  let x2 := (-1 * x2) mod q in
  let x3 := (x1 * y2 + x2 * y1) * aff_inv (1 + aff_d * x1 * x2 * y1 * y2) in
  let y3 := (y1 * y2 + x1 * x2) * aff_inv (1 - aff_d * x1 * x2 * y1 * y2) in
  (x3 mod q, y3 mod q).
(** ed25519.py:99-106 *)
Fixpoint aff_scalarmult_pos (P : Z * Z) (e : positive) : Z * Z :=
  match e with
  | xH => edwards (edwards (0, 1) (0, 1)) P
  | xO e => let Q := aff_scalarmult_pos P e in edwards Q Q
  | xI e => let Q := aff_scalarmult_pos P e in edwards (edwards Q Q) P
  end.
Definition aff_scalarmult (P : Z * Z) (e : Z) : Z * Z := match e with Zpos p => aff_scalarmult_pos P p | _ => (0, 1) end.
(** ed25519.py:157-160 *)
Definition aff_isoncurve (P : Z * Z) : bool :=
  let '(x, y) := P in (- x * x + y * y - 1 - aff_d * x * x * y * y) mod q =? 0.

(** ** ec_py.py *)
(** ec_py.py:133-135 *)
Definition invert_v (v : quad) : quad := let '(v0, v1, v2, v3) := v in ((-1 * v0) mod q, v1, v2, (-1 * v3) mod q).
(** ec_py.py:152-154 *)
Definition point_sub_v (P Q : quad) : quad := edwards_add P (invert_v Q).
(** ec_py.py:313-328 *)
Definition conv_ext_to_xy (P : quad) : Z * Z :=
  let '(x, y, z, t) := P in let zi := inv z in ((x * zi) mod q, (y * zi) mod q).
(** ec_py.py:303-310 *)
Definition conv_xy_to_ext (P : Z * Z) : quad := let '(x, y) := P in (x mod q, y mod q, 1, (x * y) mod q).

(** ec_base.py:33-66 *)
Definition fe_sqrtm1 : Z := 0x2B8324804FC1DF0B2B4D00993DFBD7A72F431806AD2FE478C4EE1B274A0EA0B0.
Definition fe_fffb1 : Z := 0x018E04102529E4E8DF563AC8BE04E61C2E6BFB5746D58C72DD58968ACDE3BDFF.
Definition fe_fffb2 : Z := 0x32F9E1F5FBA5D3096E2BAE483FE9A041AE21FCB9FBA908202D219B7C9F83650D.
Definition fe_fffb3 : Z := 0x18B5EEF2EB3DF710476AB9BFC0F25D12BFDB00B15A69BDD6A7E48278E8CFD387.
Definition fe_fffb4 : Z := 0x1A43F3031067DBF926C0F4887EF7432EEE46FC08A13F4A49853D1903B6B39186.

(** ec_py.py:842-905, on the Keccak digest of the argument; up to the multiplication by 8 *)
Definition fromfe (digest : list Z) : res quad :=
  let* u := decodeint_raw digest in
  let u := u mod q in
  let A := 486662 in
  let w := (2 * u * u + 1) mod q in
  let xp := (w * w - 2 * A * A * u * u) mod q in
  let rx := expmod (w * aff_inv xp) ((q + 3) / 8) q in
  let x := rx * rx * (w * w - 2 * A * A * u * u) mod q in
  let y := (2 * u * u + 1 - x) mod q in
  let '(rx, negative) :=
    if negb (y =? 0) then
      let y := (w + x) mod q in
      if negb (y =? 0) then (rx, true)
      else (rx * -1 * fe_fffb1 mod q, false)
    else ((rx * -1 * fe_fffb2) mod q, false) in
  let '(rx, z, sign) :=
    if negb negative then ((rx * u) mod q, (-2 * A * u * u) mod q, 0)
    else
      let z := -1 * A in
      let x := x * fe_sqrtm1 mod q in
      let y := (w - x) mod q in
      let rx := if negb (y =? 0) then rx * fe_fffb3 mod q else rx * -1 * fe_fffb4 mod q in
      (rx, z, 1) in
  let rx := if negb (rx mod 2 =? sign) then (- rx) mod q else rx in
  let rz := (z + w) mod q in
  let ry := (z - w) mod q in
  let rx := rx * rz mod q in
  let rt := ((rx * ry mod q) * inv rz) mod q in
  Ok (rx, ry, rz, rt).
(** ec_py.py:906-909 *)
Definition hash_to_point (digest : list Z) : res quad :=
  let* P := fromfe digest in Ok (scalarmult P 8).
(** ec_py.py:922-923 *)
Definition XMR_H : list Z :=
  [0x8b; 0x65; 0x59; 0x70; 0x15; 0x37; 0x99; 0xaf; 0x2a; 0xea; 0xdc; 0x9f; 0xf1; 0xad; 0xd0; 0xea;
   0x6c; 0x72; 0x51; 0xd5; 0x41; 0x54; 0xcf; 0xa9; 0x2c; 0x17; 0x3a; 0x0d; 0xd3; 0x9c; 0x1f; 0x94].
