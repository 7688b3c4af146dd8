(** Integer and bit-level helpers: limb formats, extended gcd, scalar byte
    format, deterministic generator, BIP39 packing, date-to-height search. *)
From Verif Require Import Py.

(** monero_glue/xmr/core/backend/ed25519.py:5-6 (same constants in
    ed25519_2.py:59-60 and ed25519ietf.py:39,51): field prime and group order *)
Definition q : Z := 2 ^ 255 - 19.
Definition l : Z := 2 ^ 252 + 27742317777372353535851937790883648493.

(** monero_glue/xmr/core/ec_base.py:91,114,131,150: the radix 25.5 limb widths *)
Definition bits25 : list Z := [26; 25; 26; 25; 26; 25; 26; 25; 26; 25].

(** ec_base.py:115-117 and 167-169: the loop [limbs[i] = n & mask; n >>= bits[i]] *)
Fixpoint enc_loop (bits : list Z) (n : Z) : list Z :=
  match bits with
  | [] => []
  | b :: bits => Z.land n (Z.shiftl 1 b - 1) :: enc_loop bits (Z.shiftr n b)
  end.

(** ec_base.py:132-136 and 184-188; a limb list that is too short raises
    IndexError, surplus limbs are not looked at. *)
Fixpoint dec_loop (bits limbs : list Z) (n c shift : Z) : res Z :=
  match bits with
  | [] => Ok n
  | b :: bits =>
      match limbs with
      | [] => Err IndexError
      | x :: limbs =>
          dec_loop bits limbs (n + Z.shiftl (Z.land x (Z.shiftl 1 b - 1) + c) shift)
            (Z.shiftr x b) (shift + b)
      end
  end.

(** ec_base.py:105-118 *)
Definition encode_ed25519 (n : Z) : list Z := enc_loop bits25 (n mod q).
(** ec_base.py:121-136 *)
Definition decode_ed25519 (limbs : list Z) : res Z := dec_loop bits25 limbs 0 0 0.
(** ec_base.py:158-170 *)
Definition bits30 : list Z := [30; 30; 30; 30; 30; 30; 30; 30; 30].
Definition encode_modm (n : Z) : list Z := enc_loop bits30 (n mod l).
(** ec_base.py:173-188 *)
Definition decode_modm (limbs : list Z) : res Z := dec_loop bits30 limbs 0 0 0.

(** ec_base.py:151-154: carry loop over the first nine limbs; [x] is the limb
    being processed, the tail of the array is still zero, so it is not carried
    around. *)
Fixpoint sign_loop (bits : list Z) (x : Z) : list Z :=
  match bits with
  | [] => [x]
  | b :: bits =>
      let carry := (x + Z.shiftl 1 (b - 1)) / Z.shiftl 1 b in
      (x - carry * Z.shiftl 1 b) :: sign_loop bits (0 + carry)
  end.
(** ec_base.py:139-155 *)
Definition encode_ed25519_sign (x : Z) : list Z :=
  let x := x mod q in
  let x := if q <? x + x then x - q else x in
  sign_loop (firstn 9 bits25) x.

(** ec_base.py:84-102; [enumerate(arr)] longer than ten entries raises IndexError *)
Fixpoint const_loop (bits arr : list Z) (c : Z) : res (list Z) :=
  match arr with
  | [] => Ok []
  | x :: arr =>
      match bits with
      | [] => if x <? 0 then Err IndexError
              else let* t := const_loop [] arr 0 in Ok ((x + c) :: t)
      | b :: bits =>
          let r := x + c in
          if x <? 0
          then let* t := const_loop bits arr (Z.shiftr x b) in Ok ((r + Z.shiftl 1 b) :: t)
          else let* t := const_loop bits arr 0 in Ok (r :: t)
      end
  end.
Definition encode_edd25519_xmr_const (arr : list Z) : res (list Z) := const_loop bits25 arr 0.

(** ** ec_py.py:575-592 *)
(** ec_py.py:578-584: the while loop on (lastremainder, remainder, x, lastx, y, lasty) *)
Fixpoint egcd_loop (fuel : nat) (lr r x lx y ly : Z) : res (Z * Z * Z) :=
  match fuel with
  | O => Err OutOfFuel
  | S fuel =>
      if r =? 0 then Ok (lr, lx, ly)
      else let quot := lr / r in
           egcd_loop fuel r (lr mod r) (lx - quot * x) x (ly - quot * y) y
  end.
Definition extended_gcd (aa bb : Z) : res (Z * Z * Z) :=
  let fuel := (2 * Z.to_nat (Z.log2_up (Z.abs bb + 1)) + 1)%nat in
  let* (g, lx, ly) := egcd_loop fuel (Z.abs aa) (Z.abs bb) 0 1 1 0 in
  Ok (g, lx * (if aa <? 0 then -1 else 1), ly * (if bb <? 0 then -1 else 1)).
(** ec_py.py:588-592; [x % 0] raises ZeroDivisionError *)
Definition modinv (a m : Z) : res Z :=
  let* (g, x, _) := extended_gcd a m in
  if negb (g =? 1) then Err ValueError
  else if m =? 0 then Err ZeroDivision else Ok (x mod m).

(** ** Scalars: ed25519.py:120-124,136-137,167-168; ec_py.py:36-50,268-284,472-495 *)
Definition zsum' (l : list Z) : Z := fold_left Z.add l 0.
(** ed25519.py:120-124 *)
Definition encodeint_raw (y : Z) : res (list Z) :=
  let bits := map (fun i => Z.land (Z.shiftr y i) 1) (zrange 256) in
  mapM (fun i =>
    let* bs := mapM (fun j => let* b := py_get bits (i * 8 + j) in Ok (Z.shiftl b j)) (zrange 8) in
    Ok (zsum' bs)) (zrange 32).
(** ed25519.py:136-137 *)
Definition bit (h : list Z) (i : Z) : res Z :=
  let* c := py_get h (i / 8) in Ok (Z.land (Z.shiftr c (i mod 8)) 1).
(** ed25519.py:167-168 *)
Definition decodeint_raw (s : list Z) : res Z :=
  let* ts := mapM (fun i => let* b := bit s i in Ok (2 ^ i * b)) (zrange 256) in
  Ok (zsum' ts).
(** ec_py.py:41-50: an EdScalar is its value [v]; from an int, from bytes *)
Definition scalar_of_int (v : Z) : Z := v mod l.
(** ec_py.py:262-269 *)
Definition offset_of (x : list Z) (off : Z) : list Z := if off =? 0 then x else py_from x off.
Definition decodeint (x : list Z) (off : Z) : res Z :=
  let* v := decodeint_raw (offset_of x off) in Ok (v mod l).
(** ec_py.py:277-280 *)
Definition decodeint_noreduce (x : list Z) (off : Z) : res Z := decodeint_raw (offset_of x off).
(** ec_py.py:283-284 *)
Definition encodeint (v : Z) : res (list Z) := encodeint_raw v.
(** ec_py.py:494-495 *)
Definition sc_reduce32 (v : Z) : Z := v mod l.
(** ec_py.py:472-481 *)
Definition sc_check (v : Z) : Z :=
  if v mod l =? 0 then -1 else if v =? sc_reduce32 v then 0 else -1.

(** ** xmr/core/ec.py:34-76.  [H] is Keccak-256 on byte strings (get_keccak,
    reset, update, digest); [leftover] is never used by the code. *)
Record prng := { pr_seed : list Z; pr_state : list Z; pr_ctr : Z }.
(** ec.py:37-43 *)
Definition prng_new (seed : list Z) : prng := {| pr_seed := seed; pr_state := seed; pr_ctr := 0 |}.
(** ec.py:45-52 *)
Definition prng_reset (p : prng) (seed : option (list Z)) : prng :=
  let s := match seed with Some s => s | None => pr_seed p end in
  {| pr_seed := s; pr_state := s; pr_ctr := 0 |}.
(** int.to_bytes(32, 'big') *)
Fixpoint be_bytes (n : nat) (v : Z) : list Z :=
  match n with O => [] | S n => be_bytes n (v / 256) ++ [v mod 256] end.
Definition to_bytes32 (v : Z) : res (list Z) :=
  if (0 <=? v) && (v <? 2 ^ 256) then Ok (be_bytes 32 v) else Err OverflowErr.

Section Prng.
Variable H : list Z -> list Z.
(** ec.py:54-58 *)
Definition prng_gen (p : prng) : res (prng * list Z) :=
  let c := pr_ctr p + 1 in
  let* cb := to_bytes32 c in
  Ok ({| pr_seed := pr_seed p; pr_state := pr_state p; pr_ctr := c |}, H (pr_state p ++ cb)).
(** ec.py:63-72 with [buff=None] or a buffer of [num] bytes: the buffer is
    [done ++ rest-not-yet-written]; only the written part is carried.  A block
    of length 0 would loop forever: fuel. *)
Fixpoint prng_loop (fuel : nat) (p : prng) (num : Z) (done : list Z) : res (prng * list Z) :=
  match fuel with
  | O => Err OutOfFuel
  | S fuel =>
      let left := num - zlen done in
      if 0 <? left then
        let* (p, cur) := prng_gen p in
        let tocopy := Z.min (zlen cur) left in
        prng_loop fuel p num (done ++ firstn (Z.to_nat tocopy) cur)
      else Ok (p, done)
  end.
Definition prng_next (p : prng) (num : Z) : res (prng * list Z) :=
  prng_loop (S (Z.to_nat num)) p num [].
(** ec.py:60-61 *)
Definition prng_rewind (p : prng) (n : Z) : res prng :=
  let* (p, _) := prng_next p n in Ok p.

(** bulletproof.py:863-911 KeyVPrngMask: [sc] is the current scalar, returned
    when [raw]; otherwise its 32-byte encoding is returned, which carries the
    same information (see C46). *)
Record pmask := { pm_size : Z; pm_seed : list Z; pm_prng : prng; pm_last : Z; pm_sc : Z; pm_nonlin : bool }.
(** bulletproof.py:870-878 *)
Definition pmask_new (size : Z) (seed : list Z) (nonlin : bool) : pmask :=
  {| pm_size := size; pm_seed := seed; pm_prng := prng_new seed; pm_last := 0; pm_sc := 0; pm_nonlin := nonlin |}.
(** bulletproof.py:884-887 *)
Definition pmask_step (m : pmask) : res (pmask * Z) :=
  let* (p, cur) := prng_next (pm_prng m) 32 in
  let* s := decodeint cur 0 in
  Ok ({| pm_size := pm_size m; pm_seed := pm_seed m; pm_prng := p; pm_last := pm_last m; pm_sc := s;
         pm_nonlin := pm_nonlin m |}, s).
Definition pm_set_prng (m : pmask) (p : prng) : pmask :=
  {| pm_size := pm_size m; pm_seed := pm_seed m; pm_prng := p; pm_last := pm_last m; pm_sc := pm_sc m;
     pm_nonlin := pm_nonlin m |}.
Definition pm_set_last (m : pmask) (i : Z) : pmask :=
  {| pm_size := pm_size m; pm_seed := pm_seed m; pm_prng := pm_prng m; pm_last := i; pm_sc := pm_sc m;
     pm_nonlin := pm_nonlin m |}.
(** bulletproof.py:880-882 *)
Definition pmask_reset (m : pmask) : res (pmask * Z) :=
  pmask_step (pm_set_prng m (prng_reset (pm_prng m) (Some (pm_seed m)))).
(** bulletproof.py:343-348 *)
Definition idxize (size idx : Z) : res Z :=
  let idx := if idx <? 0 then size + idx else idx in
  if size <=? idx then Err IndexError else Ok idx.
(** bulletproof.py:889-911 *)
Definition pmask_get (m : pmask) (item : Z) : res (pmask * Z) :=
  let prev := pm_last m in
  let* item := idxize (pm_size m) item in
  let m := pm_set_last m item in
  if item =? 0 then pmask_reset m
  else if item =? prev then Ok (m, pm_sc m)
  else if item =? prev + 1 then pmask_step m
  else if negb (pm_nonlin m) then Err IndexError
  else
    let* (m, prev) := (if item <? prev then let* (m, _) := pmask_reset m in Ok (m, 0) else Ok (m, prev)) in
    let* p := prng_rewind (pm_prng m) (32 * (item - prev - 1)) in
    pmask_step (pm_set_prng m p).
End Prng.

(** ** misc/bip/bip32.py:188-256 *)
(** bip32.py:202-218: loop state (indices, carry, carry_bits); [rest] tells
    whether [idx + 1 == seed_len] *)
Fixpoint b2i_loop (bits : Z) (seed : list Z) (indices : list Z) (carry carry_bits : Z) : list Z :=
  match seed with
  | [] => indices
  | b :: rest =>
      let cleft := Z.min 8 (bits - carry_bits) in
      let cleft_bl := 8 - cleft in
      let flush := cleft =? bits - carry_bits in
      let carry_bits := carry_bits + cleft in
      let carry := Z.lor (Z.shiftl carry cleft) (Z.land (Z.shiftr b cleft_bl) (2 ^ cleft - 1)) in
      let last_byte := match rest with [] => true | _ => false end in
      let '(carry, flush) :=
        if last_byte && negb (cleft =? 0) then (Z.shiftl carry (bits - carry_bits), true) else (carry, flush) in
      if flush
      then b2i_loop bits rest (indices ++ [carry]) (Z.land b (2 ^ cleft_bl - 1)) cleft_bl
      else b2i_loop bits rest indices carry carry_bits
  end.
Definition bytes_to_indices (seed : list Z) (bits : Z) : list Z := b2i_loop bits seed [] 0 0.

(** bip32.py:238-256: [indices[cidx]] with its unread low bits [avail]; the
    final [bytes(barr)] raises ValueError for an entry above 255. *)
Fixpoint i2b_loop (fuel : nat) (bits : Z) (cur : Z) (rest : list Z) (barr : list Z) (carry carry_bits avail : Z)
  : res (list Z) :=
  match fuel with
  | O => Err OutOfFuel
  | S fuel =>
      let cb := 8 - carry_bits in
      let cons := Z.min cb avail in
      let carry := Z.shiftl carry cons in
      let carry := Z.lor carry (Z.land (Z.shiftr cur (avail - cons)) (Z.shiftl 1 cons - 1)) in
      let carry_bits := carry_bits + cons in
      let avail := avail - cons in
      let '(barr, carry, carry_bits) :=
        if cb =? cons then (barr ++ [carry], 0, 0) else (barr, carry, carry_bits) in
      if avail =? 0 then
        match rest with
        | [] => if bytes_okb barr then Ok barr else Err ValueError
        | nxt :: rest => i2b_loop fuel bits nxt rest barr carry carry_bits bits
        end
      else i2b_loop fuel bits cur rest barr carry carry_bits avail
  end.
(** bip32.py:223-256; an empty list fails at [indices[0]] *)
Definition indices_to_bytes (indices : list Z) (bits : Z) : res (list Z) :=
  match indices with
  | [] => Err IndexError
  | i :: rest => i2b_loop (S (length indices * Z.to_nat (bits + 1))) bits i rest [] 0 0 bits
  end.

(** bip32.py:267-271 without the word table: the indices handed to it *)
Definition to_seed_indices (sha256 : list Z -> list Z) (secret : list Z) : list Z :=
  bytes_to_indices (secret ++ firstn 1 (sha256 secret)) 11.

(** ** xmr/wallet.py:361-395.  [ts h] is the timestamp of the block at height
    [h] as the daemon reports it, [height] the daemon's chain height, [date] the
    UTC timestamp of the requested day (datetime arithmetic is not modelled). *)
Fixpoint height_loop (fuel : nat) (ts : Z -> Z) (date hmin hmax : Z) : res Z :=
  match fuel with
  | O => Err OutOfFuel
  | S fuel =>
      let hmid := (hmin + hmax) / 2 in
      let t_min := ts hmin in
      let t_mid := ts hmid in
      let t_max := ts hmax in
      if negb ((t_min <=? t_mid) && (t_mid <=? t_max)) then Ok (Z.min hmin (Z.min hmid hmax))
      else if t_max <? date then Err ValueError
      else if date <=? t_min + 2 * 24 * 60 * 60 then Ok hmin
      else
        let '(hmin, hmax) := if date <=? t_mid then (hmin, hmid) else (hmid, hmax) in
        if hmax - hmin <=? 2 * 24 * 30 then Ok hmin
        else height_loop fuel ts date hmin hmax
  end.
Definition height_by_date (ts : Z -> Z) (height date : Z) : res Z :=
  height_loop (S (Z.to_nat (Z.log2_up height))) ts date 0 (height - 1).
