(** Borromean range proofs: xmr/mlsag2.py:129-194 and xmr/ring_ct.py:17-36, 104-418.
    Random scalars are explicit: for bit [i] the mask [ra i], the nonce [al i] and
    the free response [sr i] (s1 when the bit is 0, s0 when it is 1). *)
From Verif Require Import Py Digits Ints_model Ec_model Mlsag_model.

(** ring_ct.py:17-24: [while n: b[i] = n & 1; i += 1; n >>= 1]; a value that does
    not fit writes past the end of the list (IndexError) *)
Fixpoint d2b_loop (fuel : nat) (n i : Z) (b : list Z) : res (list Z) :=
  if n =? 0 then Ok b else
  match fuel with
  | O => Err OutOfFuel
  | S fuel => let* b := py_set b i (Z.land n 1) in d2b_loop fuel (Z.shiftr n 1) (i + 1) b
  end.
Definition d2b (n : Z) (digits : nat) : res (list Z) := d2b_loop (S digits) n 0 (repeat 0 digits).

(** ring_ct.py:14 *)
Definition ATOMS : nat := 64.

Section B.
Context (E : ecops).
Local Notation pt := (pt E).

(** ec_py.py:644-645 *)
Definition point_double (P : pt) : pt := padd E P P.
(** crypto.py:46-57 *)
Fixpoint gen_Hpow_from (n : nat) (P : pt) : list pt :=
  match n with O => [] | S n => P :: gen_Hpow_from n (point_double P) end.
Definition gen_Hpow (size : nat) : list pt := gen_Hpow_from size (Hb E).
(** ring_ct.py:27-36 *)
Definition sum_Ci (Cis : list pt) : pt := fold_left (fun s c => point_add E s c) Cis (pid E).

(** mlsag2.py:139-150: first pass; returns the hashed string and s1 *)
Fixpoint gb_first (al sr : list Z) (P2 : list pt) (indices : list Z) : list Z * list Z :=
  match al, sr, P2, indices with
  | a :: al, s :: sr, Q :: P2, b :: indices =>
      let L := scalarmult_base E a in
      let '(h, s1) := gb_first al sr P2 indices in
      if b =? 0 then
        let c := hash_to_scalar E (encp E L) in
        let L := add_keys2 E s c Q in
        (encp E L ++ h, s :: s1)
      else (encp E L ++ h, 0 :: s1)
  | _, _, _, _ => ([], [])
  end.
(** mlsag2.py:157-164: second pass; returns s0 and s1 *)
Fixpoint gb_second (ee : Z) (x al sr s1 : list Z) (P1 : list pt) (indices : list Z) : list Z * list Z :=
  match x, al, sr, s1, P1, indices with
  | x0 :: x, a :: al, s :: sr, s1j :: s1, P :: P1, b :: indices =>
      let '(s0, s1') := gb_second ee x al sr s1 P1 indices in
      if b =? 0 then (sc_mulsub x0 ee a :: s0, s1j :: s1')
      else
        let LL := add_keys2 E s ee P in
        let cc := hash_to_scalar E (encp E LL) in
        (s :: s0, sc_mulsub x0 cc a :: s1')
  | _, _, _, _, _, _ => ([], [])
  end.
(** mlsag2.py:129-166.  All lists have the same length at the only call site. *)
Definition gen_borromean (x : list Z) (P1 P2 : list pt) (indices al sr : list Z) : list Z * list Z * Z :=
  let '(h, s1) := gb_first al sr P2 indices in
  let ee := hash_to_scalar E h in
  let '(s0, s1) := gb_second ee x al sr s1 P1 indices in
  (s0, s1, ee).

(** mlsag2.py:182-189 *)
Fixpoint vb_points (P1 P2 : list pt) (s0 s1 : list Z) (ee : Z) : res (list Z) :=
  match P1 with
  | [] => Ok []
  | P :: P1 =>
      match P2, s0, s1 with
      | Q :: P2, x :: s0, y :: s1 =>
          let LL := add_keys2 E x ee P in
          let chash := hash_to_scalar E (encp E LL) in
          let* h := vb_points P1 P2 s0 s1 ee in
          Ok (encp E (add_keys2 E y chash Q) ++ h)
      | _, _, _ => Err IndexError
      end
  end.
(** mlsag2.py:169-194 *)
Definition ver_borromean (P1 P2 : list pt) (s0 s1 : list Z) (ee : Z) : res bool :=
  let* h := vb_points P1 P2 s0 s1 ee in
  Ok (hash_to_scalar E h =? ee).

(** RangeSig: Ci and asig (s0, s1, ee) *)
Record rangesig := { rs_Ci : list pt; rs_s0 : list Z; rs_s1 : list Z; rs_ee : Z }.

(** ring_ct.py:276-288; [i] is the loop index.  Returns (ai, Ci, CiH, a). *)
Fixpoint po_loop (last_mask : option Z) (i : nat) (ra bb : list Z) (H2 : list pt) (a : Z) : list Z * list pt * list pt * Z :=
  match ra, bb, H2 with
  | r :: ra, b :: bb, H :: H2 =>
      let ai := match last_mask with
                | Some m => if (i =? ATOMS - 1)%nat then sc_sub m a else r
                | None => r
                end in
      let a := sc_add a ai in
      let Ci := if b =? 0 then scalarmult_base E ai else point_add E (scalarmult_base E ai) H in
      let CiH := point_sub E Ci H in
      let '(ais, Cis, CiHs, a) := po_loop last_mask (S i) ra bb H2 a in
      (ai :: ais, Ci :: Cis, CiH :: CiHs, a)
  | _, _, _ => ([], [], [], a)
  end.
(** ring_ct.py:255-298 (the bits are 0 or 1, so the two [if]s at 284-287 are one choice) *)
Definition prove_range_orig (amount : Z) (last_mask : option Z) (ra al sr : list Z) : res (pt * Z * rangesig) :=
  let* bb := d2b amount ATOMS in
  let H2 := gen_Hpow ATOMS in
  let '(ai, Ci, CiH, a) := po_loop last_mask 0 ra bb H2 0 in
  let '(s0, s1, ee) := gen_borromean ai Ci CiH bb al sr in
  Ok (sum_Ci Ci, a, {| rs_Ci := Ci; rs_s0 := s0; rs_s1 := s1; rs_ee := ee |}).

(** ring_ct.py:330-357: first pass of the memory optimised prover.  Returns
    (ai, Ci, s1, hashed string, a, C). *)
Fixpoint pm_first (last_mask : option Z) (i : nat) (ra al sr bb : list Z) (c_H : pt) (a : Z) (C : pt)
  : list Z * list pt * list Z * list Z * Z * pt :=
  match ra, al, sr, bb with
  | r :: ra, alpha :: al, s :: sr, b :: bb =>
      let ai := match last_mask with
                | Some m => if (i =? ATOMS - 1)%nat then sc_sub m a else r
                | None => r
                end in
      let a := sc_add a ai in
      let L := scalarmult_base E alpha in
      let Ci := if b =? 0 then scalarmult_base E ai else point_add E (scalarmult_base E ai) c_H in
      let C := point_add E C Ci in
      let '(s1, h0) :=
        if b =? 0 then
          let c := hash_to_scalar E (encp E L) in
          (s, encp E (add_keys2 E s c (point_sub E Ci c_H)))
        else (0, encp E L) in
      let '(ais, Cis, s1s, h, a, C) := pm_first last_mask (S i) ra al sr bb (point_double c_H) a C in
      (ai :: ais, Ci :: Cis, s1 :: s1s, h0 ++ h, a, C)
  | _, _, _, _ => ([], [], [], [], a, C)
  end.
(** ring_ct.py:301-385; the second pass (367-375) is that of gen_borromean
    (mlsag2.py:157-164), line by line *)
Definition prove_range_mem (amount : Z) (last_mask : option Z) (ra al sr : list Z) : res (pt * Z * rangesig) :=
  let* bb := d2b amount ATOMS in
  let '(ai, Ci, s1, h, a, C) := pm_first last_mask 0 ra al sr bb (Hb E) 0 (pid E) in
  let ee := hash_to_scalar E h in
  let '(s0, s1) := gb_second ee ai al sr s1 Ci bb in
  Ok (C, a, {| rs_Ci := Ci; rs_s0 := s0; rs_s1 := s1; rs_ee := ee |}).

(** ring_ct.py:128-161: first pass of the chunked prover: everything is kept
    encoded.  Returns the encoded (ai, alphai, Cis, s1s), the hashed string, a, C. *)
Fixpoint pc_first (amount : Z) (last_mask : option Z) (n i : nat) (ra al sr : list Z) (C_h : pt) (a : Z) (C_acc : pt)
  : list (list Z) * list (list Z) * list (list Z) * list (list Z) * list Z * Z * pt :=
  match n, ra, al, sr with
  | S n, r :: ra, alpha :: al, s :: sr =>
      let ai := match last_mask with
                | Some m => if (i =? 63)%nat then sc_sub m a else r
                | None => r
                end in
      let a := sc_add a ai in
      let bit := Z.land (Z.shiftr amount (Z.of_nat i)) 1 in
      let L := scalarmult_base E alpha in
      let C_tmp := point_add E (scalarmult_base E ai) (if bit =? 0 then pid E else C_h) in
      let C_acc := point_add E C_acc C_tmp in
      let '(s1, L) :=
        if bit =? 0 then
          let c := hash_to_scalar E (encp E L) in
          (enc_sc s, add_keys2 E s c (point_sub E C_tmp C_h))
        else (repeat 0 32, L) in
      let '(ais, als, Cis, s1s, h, a, C_acc) := pc_first amount last_mask n (S i) ra al sr (point_double C_h) a C_acc in
      (enc_sc ai :: ais, enc_sc alpha :: als, encp E C_tmp :: Cis, s1 :: s1s, encp E L ++ h, a, C_acc)
  | _, _, _, _ => ([], [], [], [], [], a, C_acc)
  end.
(** ring_ct.py:172-190: second pass *)
Fixpoint pc_second (amount : Z) (i : nat) (ee : Z) (ais als Cis s1s : list (list Z)) (sr : list Z) : res (list (list Z) * list (list Z)) :=
  match ais, als, Cis, s1s, sr with
  | bai :: ais, bal :: als, bC :: Cis, bs1 :: s1s, s :: sr =>
      let alpha := le_val 256 bal mod l in
      let ai := le_val 256 bai mod l in
      let bit := Z.land (Z.shiftr amount (Z.of_nat i)) 1 in
      if bit =? 0 then
        let* (s0s, s1s) := pc_second amount (S i) ee ais als Cis s1s sr in
        Ok (enc_sc (sc_mulsub ai ee alpha) :: s0s, bs1 :: s1s)
      else
        let* C_tmp := decp E bC in
        let c := hash_to_scalar E (encp E (add_keys2 E s ee C_tmp)) in
        let* (s0s, s1s) := pc_second amount (S i) ee ais als Cis s1s sr in
        Ok (enc_sc s :: s0s, enc_sc (sc_mulsub ai c alpha) :: s1s)
  | _, _, _, _, _ => Ok ([], [])
  end.
(** ring_ct.py:104-199: returns C, a and the encoded s0, s1, ee, Ci *)
Definition prove_range_chunked (amount : Z) (last_mask : option Z) (ra al sr : list Z)
  : res (pt * Z * (list (list Z) * list (list Z) * list Z * list (list Z))) :=
  let '(ais, als, Cis, s1s, h, a, C) := pc_first amount last_mask 64 0 ra al sr (Hb E) 0 (pid E) in
  let ee := hash_to_scalar E h in
  let* (s0s, s1s) := pc_second amount 0 ee ais als Cis s1s sr in
  Ok (C, a, (s0s, s1s, enc_sc ee, Cis)).

(** ring_ct.py:406-409: CiH and the sum of Ci *)
Fixpoint vr_loop (n : nat) (Ci : list pt) (c_H C_tmp : pt) : res (list pt * pt) :=
  match n with
  | O => Ok ([], C_tmp)
  | S n =>
      match Ci with
      | [] => Err IndexError
      | c :: Ci =>
          let* (CiH, C_tmp) := vr_loop n Ci (point_double c_H) (point_add E C_tmp c) in
          Ok (point_sub E c c_H :: CiH, C_tmp)
      end
  end.
(** ring_ct.py:388-418, Borromean branch with a decoded signature *)
Definition ver_range (C : option pt) (rsig : rangesig) : res bool :=
  let* (CiH, C_tmp) := vr_loop ATOMS (rs_Ci rsig) (Hb E) (pid E) in
  if match C with Some C => negb (pt_eqb E C_tmp C) | None => false end then Ok false
  else ver_borromean (rs_Ci rsig) CiH (rs_s0 rsig) (rs_s1 rsig) (rs_ee rsig).
End B.
