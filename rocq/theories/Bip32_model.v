(** Model of monero_glue/misc/bip/bip32.py, keys.py, utils.py, network.py: hierarchical
    wallets.  Hex strings are lists of character codes, as in the code.  The curve
    SECP256k1 (library ecdsa), HMAC-SHA512, hash160 and double SHA-256 are operations of a
    record.  InvalidPathError and InfinityPointException (plain Exceptions) are [MoneroError]. *)
From Verif Require Import Py B58Mnr_model B58Btc_model Mnemonic_model Ints_model Digits Ec_model Mlsag_model.

(** order of SECP256k1 *)
Definition secp_n : Z := 0xFFFFFFFFFFFFFFFFFFFFFFFFFFFFFFFEBAAEDCE6AF48A03BBFD25E8CD0364141.

Record bops := {
  bE : ecops;                              (* Ed25519 *)
  sp : Type;                               (* points of SECP256k1 without infinity *)
  s_base : Z -> sp;                        (* k * generator, 0 < k < n *)
  s_xy : sp -> Z * Z;                      (* point.x(), point.y() *)
  s_point : Z -> Z -> res sp;              (* _ECDSA_Point(curve, x, y), VerifyingKey.from_public_point *)
  s_lift : Z -> bool -> res (Z * Z);       (* keys.py:264-284: the pair with coordinate x and an odd / even y *)
  hmac512 : list Z -> list Z -> list Z;    (* key, message *)
  hash160 : list Z -> list Z;              (* utils.py:33-36 *)
  sha256 : list Z -> list Z;
}.

(** network.py; compared by identity, here by [n_name] *)
Record network := { n_name : Z; n_SECRET_KEY : Z; n_EXT_PUBLIC : Z; n_EXT_SECRET : Z }.
(** network.py:53-65, 68-80, 194-206 *)
Definition BitcoinMainNet : network := {| n_name := 1; n_SECRET_KEY := 0x80; n_EXT_PUBLIC := 0x0488B21E; n_EXT_SECRET := 0x0488ADE4 |}.
Definition BitcoinTestNet : network := {| n_name := 2; n_SECRET_KEY := 0xEF; n_EXT_PUBLIC := 0x043587CF; n_EXT_SECRET := 0x04358394 |}.
Definition MoneroMainNet : network := {| n_name := 3; n_SECRET_KEY := 0x80; n_EXT_PUBLIC := 0x0488B21E; n_EXT_SECRET := 0x0488ADE4 |}.

(** utils.py:47-52: "{0:0<size>x}".format(v), v >= 0 *)
Definition long_to_hex (v size : Z) : list Z :=
  let nd := Z.max size (Z.log2 v / 4 + 1) in
  map (fun i => hex_char (v / 16 ^ (nd - 1 - i) mod 16)) (zrange nd).
(** binascii.unhexlify; binascii.Error is a ValueError *)
Fixpoint unhexlify (hex : list Z) : res (list Z) :=
  match hex with
  | [] => Ok []
  | [_] => Err ValueError
  | a :: b :: t =>
      let* x := hex_digit a in
      let* y := hex_digit b in
      let* r := unhexlify t in
      Ok (16 * x + y :: r)
  end.

Section B.
Context (O : bops).

(** keys.py:48-55: PrivateKey(exponent, network); keys.py:351-360: Ed25519PrivateKey(hex_key=raw) *)
Inductive priv :=
| PSecp (e : Z) (net : network)
| PEd (raw : list Z) (k : Z).
(** keys.py:193-206 PublicKey; keys.py:389-391 Ed25519PublicKey *)
Inductive pub :=
| QSecp (P : sp O) (net : network)
| QEd (P : pt (bE O)).

(** keys.py:49-55; SigningKey.from_secret_exponent (ecdsa library) asserts 1 <= e < n *)
Definition PrivateKey (e : Z) (net : network) : res priv :=
  let* _ := guard ((1 <=? e) && (e <? secp_n)) AssertionError in
  Ok (PSecp e net).
(** keys.py:57-59 and 362-365; [to_string] is 32 bytes big-endian *)
Definition priv_key (k : priv) : list Z :=
  match k with
  | PSecp e _ => hexlify (be_digits 256 32 e)
  | PEd raw _ => hexlify raw
  end.
(** keys.py:61-68 and 367-368 *)
Definition get_public_key (k : priv) : pub :=
  match k with
  | PSecp e net => QSecp (s_base O e) net
  | PEd _ k => QEd (scalarmult_base (bE O) k)
  end.
(** keys.py:208-235 with compressed=True, 393-394 *)
Definition pub_key (q : pub) : list Z :=
  match q with
  | QSecp P _ => let '(x, y) := s_xy O P in long_to_hex (2 + Z.land y 1) 2 ++ long_to_hex x 64
  | QEd P => hexlify (encp (bE O) P)
  end.
(** keys.py:333-334: the coordinates; an Ed25519PublicKey has no x and y *)
Definition to_public_pair (q : pub) : res (Z * Z) :=
  match q with QSecp P _ => Ok (s_xy O P) | QEd _ => Err AttributeError end.
(** keys.py:303-314, 336-339 *)
Definition from_public_pair (p : Z * Z) (net : network) : res pub :=
  let* P := s_point O (fst p) (snd p) in Ok (QSecp P net).
(** keys.py:36-37, 341-346, 403-406 *)
Definition pub_eqb (a b : pub) : bool :=
  match a, b with
  | QSecp P n1, QSecp Q n2 => (n_name n1 =? n_name n2) && (fst (s_xy O P) =? fst (s_xy O Q)) && (snd (s_xy O P) =? snd (s_xy O Q))
  | QEd P, QEd Q => pt_eqb (bE O) P Q
  | _, _ => false
  end.

(** bip32.py:54-155: the attributes; the prefix 0x of the fingerprint is left out *)
Record wallet := {
  w_priv : option priv; w_pub : pub; w_chain : list Z; w_depth : Z; w_fp : list Z; w_child : Z;
  w_net : network; w_ed : bool; w_seed : option (list Z) }.

(** bip32.py:121-132: [h] of an integer or of a hex string (for bytes is_hex_string always
    holds: it looks at the text "b'...'") *)
Definition hx (v : Z + list Z) (len : Z) : res (list Z) :=
  match v with
  | inl v => Ok (long_to_hex v len)
  | inr s => if zlen s =? len then Ok s else Err ValueError
  end.
(** bip32.py:54-155: the constructor with the arguments used below;
    [child_number] given as hex text (458) is the number it denotes (134-143) *)
Definition new_wallet (chain : Z + list Z) (depth : Z) (fp : Z + list Z) (child : Z) (pe : option Z) (pk : option priv)
    (pp : option (Z * Z)) (pb : option pub) (net : network) (seed : option (list Z)) (ed : bool) : res wallet :=
  let has_pe := match pe with Some e => negb (e =? 0) | None => false end in
  let has_pk := match pk with Some _ => true | None => false end in
  let has_pub := match pp, pb with None, None => false | _, _ => true end in
  let* _ := guard (negb (negb (has_pe || has_pk) && (negb ed && negb has_pub))) ValueError in
  let* k := match pk with
            | Some k => Ok (Some k)
            | None => match pe with
                      | Some e => if e =? 0 then Ok None else let* k := PrivateKey e net in Ok (Some k)
                      | None => Ok None
                      end
            end in
  let* q := match pb with
            | Some q => Ok q
            | None => match (if ed then None else pp) with
                      | Some p => from_public_pair p net
                      | None => match k with Some k => Ok (get_public_key k) | None => Err AttributeError end
                      end
            end in
  let* _ := guard (ed || match k with Some k => pub_eqb (get_public_key k) q | None => true end) ValueError in
  let* f := hx fp 8 in
  let* c := hx chain 64 in
  Ok {| w_priv := k; w_pub := q; w_chain := c; w_depth := depth; w_fp := f; w_child := child;
        w_net := net; w_ed := ed; w_seed := seed |}.

(** "Bitcoin seed", "ed25519 seed" *)
Definition bitcoin_seed : list Z := [66; 105; 116; 99; 111; 105; 110; 32; 115; 101; 101; 100].
Definition ed25519_seed : list Z := [101; 100; 50; 53; 53; 49; 57; 32; 115; 101; 101; 100].
(** bip32.py:672-706 *)
Definition from_master_secret (seed : list Z) (net : network) (ed : bool) : res wallet :=
  let I := hmac512 O (if ed then ed25519_seed else bitcoin_seed) seed in
  let* e := int16 (hexlify (py_upto I 32)) in
  let* c := int16 (hexlify (py_from I 32)) in
  new_wallet (inl c) 0 (inl 0) 0 (Some e) None None None net (Some seed) ed.

(** bip32.py:164-185 *)
Definition identifier (w : wallet) : res (list Z) :=
  let* b := unhexlify (pub_key (w_pub w)) in Ok (hexlify (hash160 O b)).
Definition fingerprint (w : wallet) : res (list Z) :=
  let* i := identifier w in Ok (py_upto i 8).

(** bip32.py:470-479 *)
Definition public_copy (w : wallet) : res wallet :=
  let* p := to_public_pair (w_pub w) in
  new_wallet (inr (w_chain w)) (w_depth w) (inr (w_fp w)) (w_child w) None None (Some p) None (w_net w) None false.

Definition boundary : Z := 0x80000000.
(** bip32.py:363-385 *)
Definition child_kind (child_number : Z) (is_prime : option bool) : res (Z * bool) :=
  let* _ := guard (Z.abs child_number <? boundary) ValueError in
  match is_prime with
  | None =>
      if child_number <? 0 then Ok (Z.abs child_number, true)
      else if boundary <=? child_number then Ok (child_number - boundary, true)
      else Ok (child_number, false)
  | Some p =>
      let* _ := guard (negb ((child_number <? 0) || (boundary <=? child_number))) ValueError in
      Ok (child_number, p)
  end.
(** bip32.py:338-468 without the cache.  Without a private key [PrivateKey(private_exponent)]
    is called with None (448) and raises ValueError. *)
Definition get_child (w : wallet) (child_number : Z) (is_prime : option bool) (as_private : bool) : res wallet :=
  let* (cn, prime) := child_kind child_number is_prime in
  let* _ := guard (match w_priv w with None => negb prime | Some _ => true end) ValueError in
  let cn := if prime then cn + boundary else cn in
  let cn_hex := long_to_hex cn 8 in
  let* data :=
    if prime then match w_priv w with Some k => Ok ([48; 48] ++ priv_key k) | None => Err AttributeError end
    else if w_ed w then Err MoneroError else Ok (pub_key (w_pub w)) in
  let* key := unhexlify (w_chain w) in
  let* msg := unhexlify (data ++ cn_hex) in
  let I := hmac512 O key msg in
  let I_L := py_upto I 32 in
  let I_R := py_from I 32 in
  let* il := int16 (hexlify I_L) in
  let* _ := guard (w_ed w || (il <? secp_n)) ValueError in
  let c_i := hexlify I_R in
  let* (k, q) :=
    match w_priv w with
    | None => if w_ed w then Err MoneroError else Err ValueError
    | Some k0 =>
        if w_ed w then
          let* v := decodeint I_L 0 in
          Ok (PEd I_L v, get_public_key (PEd I_L v))
        else
          let* v := int16 (priv_key k0) in
          let* k := PrivateKey ((il + v) mod secp_n) BitcoinMainNet in
          Ok (k, get_public_key k)
    end in
  let* _ := guard (match q with QSecp _ _ => true | QEd P => negb (pt_eqb (bE O) P (pid (bE O))) end) MoneroError in
  let* fp := fingerprint w in
  let* child := new_wallet (inr c_i) (w_depth w + 1) (inr fp) cn None (Some k) None (Some q) (w_net w) None (w_ed w) in
  if as_private then Ok child else public_copy child.

(** ** bip32.py:285-335: paths *)
(** str.split("/") *)
Fixpoint split_slash (s : list Z) : list (list Z) :=
  match s with
  | [] => [[]]
  | c :: t =>
      let r := split_slash t in
      if c =? 47 then [] :: r else match r with h :: r => (c :: h) :: r | [] => [[c]] end
  end.
(** str.replace(c, "") *)
Definition remove_char (c : Z) (s : list Z) : list Z := filter (fun x => negb (x =? c)) s.
(** int(s) of ASCII text: blanks around, a sign, digits with single "_" between *)
Definition blank (c : Z) : bool := (c =? 32) || ((9 <=? c) && (c <=? 13)).
Fixpoint lstrip_blank (s : list Z) : list Z :=
  match s with c :: t => if blank c then lstrip_blank t else s | [] => [] end.
Definition strip_blank (s : list Z) : list Z := rev (lstrip_blank (rev (lstrip_blank s))).
Fixpoint digits10 (s : list Z) (prev : bool) (acc : Z) : res Z :=
  match s with
  | [] => if prev then Ok acc else Err ValueError
  | c :: t =>
      if (48 <=? c) && (c <=? 57) then digits10 t true (10 * acc + (c - 48))
      else if (c =? 95) && prev then digits10 t false acc
      else Err ValueError
  end.
Definition py_int (s : list Z) : res Z :=
  match strip_blank s with
  | 45 :: t => let* v := digits10 t false 0 in Ok (- v)
  | 43 :: t => digits10 t false 0
  | s => digits10 s false 0
  end.
(** bip32.py:319-332: one part; an empty part raises at [part[-1]] *)
Definition path_part (child : wallet) (part : list Z) : res wallet :=
  if zlist_eqb part [109] || zlist_eqb part [77] then Ok child else
  let* last := py_get part (-1) in
  let prime := (last =? 39) || (last =? 112) in
  let part := if prime then remove_char 112 (remove_char 39 part) else part in
  match py_int part with
  | Ok n => get_child child n (if prime then Some true else None) true
  | Err _ => Err MoneroError
  end.
Definition dot_pub : list Z := [46; 112; 117; 98].
Definition get_child_for_path (w : wallet) (path : list Z) : res wallet :=
  let* _ := guard (negb (zlen path =? 0)) MoneroError in
  let as_private := negb (match path with 77 :: _ => true | _ => false end) in
  let ends := zlist_eqb (py_from path (-4)) dot_pub in
  let path := if ends then py_upto path (-4) else path in
  let* child := foldM path_part (split_slash path) w in
  if as_private && negb ends then Ok child else public_copy child.

(** ** bip32.py:539-567 *)
Definition serialize (w : wallet) (private : bool) : res (list Z) :=
  let* _ := guard (negb private || match w_priv w with Some _ => true | None => false end) ValueError in
  let version := long_to_hex (if private then n_EXT_SECRET (w_net w) else n_EXT_PUBLIC (w_net w)) 8 in
  let ret := version ++ long_to_hex (w_depth w) 2 ++ w_fp w ++ long_to_hex (w_child w) 8 ++ w_chain w in
  if private then match w_priv w with Some k => Ok (ret ++ [48; 48] ++ priv_key k) | None => Err AttributeError end
  else Ok (ret ++ pub_key (w_pub w)).
(** bip32.py:569-571 *)
Definition serialize_b58 (w : wallet) (private : bool) : res (list Z) :=
  let* s := serialize w private in let* b := unhexlify s in b58encode_check (sha256 O) b.
(** keys.py:237-287 on bytes of the lengths that deserialize passes; KeyParseError is [MoneroError] *)
Definition pub_from_key (key : list Z) (net : network) : res pub :=
  let* id := py_get key 0 in
  if id =? 4 then
    let* _ := guard (zlen key =? 65) MoneroError in
    let* x := int16 (hexlify (py_slice key 1 33)) in
    let* y := int16 (hexlify (py_from key 33)) in
    from_public_pair (x, y) net
  else if (id =? 2) || (id =? 3) then
    let* _ := guard (zlen key =? 33) MoneroError in
    let* x := int16 (hexlify (py_from key 1)) in
    let* p := s_lift O x (id =? 3) in
    from_public_pair p net
  else Err MoneroError.
(** bip32.py:586-670.  IncompatibleNetworkException is [MoneroError]. *)
Definition deserialize (key : list Z) (net : network) : res wallet :=
  let n := zlen key in
  let* key := if (n =? 78) || (n =? 110) then Ok key
              else if (n =? 156) || (n =? 220) then unhexlify key
              else if n =? 111 then b58decode_check (sha256 O) key
              else Ok key in
  let* depth := py_get key 4 in
  let key_data := py_from key 45 in
  let* version := int16 (hexlify (py_upto key 4)) in
  let* type := py_get key_data 0 in
  let* (e, q) :=
    if type =? 0 then
      let* _ := guard (version =? n_EXT_SECRET net) MoneroError in
      let* e := int16 (hexlify (py_from key_data 1)) in
      Ok (Some e, None)
    else if (type =? 2) || (type =? 3) || (type =? 4) then
      let* _ := guard (version =? n_EXT_PUBLIC net) MoneroError in
      let* q := pub_from_key key_data net in
      Ok (None, Some q)
    else Err ValueError in
  let* fp := int16 (hexlify (py_slice key 5 9)) in
  let* child := int16 (hexlify (py_slice key 9 13)) in
  let* chain := int16 (hexlify (py_slice key 13 45)) in
  new_wallet (inl chain) depth (inl fp) child e None None q net None false.

(** bip32.py:722-734 with keys.py:36-37, 172-182 and 382-383: the comparison of two wallets.
    An Ed25519 key has no network and no secret exponent: compared with a key of SECP256k1
    it raises, which counts as unequal here. *)
Definition priv_eqb (a b : priv) : bool :=
  match a, b with
  | PSecp e1 n1, PSecp e2 n2 => (n_name n1 =? n_name n2) && (e1 =? e2)
  | PEd _ k1, PEd _ k2 => k1 =? k2
  | _, _ => false
  end.
Definition wallet_eqb (a b : wallet) : bool :=
  zlist_eqb (w_chain a) (w_chain b) && (w_depth a =? w_depth b) && zlist_eqb (w_fp a) (w_fp b) && (w_child a =? w_child b) &&
  match w_priv a, w_priv b with Some x, Some y => priv_eqb x y | None, None => true | _, _ => false end &&
  pub_eqb (w_pub a) (w_pub b) && (n_name (w_net a) =? n_name (w_net b)).

(** keys.py:184-190, and bip32.py:481-525; Ed25519 keys are outside *)
Definition crack_private_key (w child : wallet) : res wallet :=
  let* _ := guard (match w_priv w with Some _ => false | None => true end) AssertionError in
  let* fp := fingerprint w in
  let* _ := guard (zlist_eqb (w_fp child) fp) ValueError in
  let* _ := guard (negb (boundary <=? w_child child)) ValueError in
  let data := pub_key (w_pub w) ++ long_to_hex (w_child child) 8 in
  let* key := unhexlify (w_chain w) in
  let* msg := unhexlify data in
  let I := hmac512 O key msg in
  let* il := int16 (hexlify (py_upto I 32)) in
  let* k := PrivateKey il (w_net w) in
  match w_priv child, k with
  | Some (PSecp k1 n1), PSecp k2 n2 =>
      let* _ := guard (n_name n1 =? n_name n2) AssertionError in
      let* r := PrivateKey ((k1 - k2) mod secp_n) n1 in
      new_wallet (inr (w_chain w)) (w_depth w) (inr (w_fp w)) (w_child w) None (Some r) None None (w_net w) None false
  | _, _ => Err AttributeError
  end.

(** ** utils.py:59-71: the cache of [get_child].  The key is (args, tuple(kwargs)): of the
    keyword arguments only the names.  Objects are compared by identity ([c_obj]). *)
Inductive kw := KPrime | KPrivate.
Definition kw_eqb (a b : kw) : bool := match a, b with KPrime, KPrime | KPrivate, KPrivate => true | _, _ => false end.
Record call := { c_obj : Z; c_num : Z; c_pos : list (option bool); c_kw : list (kw * option bool) }.
Definition ob_eqb (a b : option bool) : bool :=
  match a, b with None, None => true | Some x, Some y => Bool.eqb x y | _, _ => false end.
Fixpoint leqb {A} (f : A -> A -> bool) (xs ys : list A) : bool :=
  match xs, ys with [], [] => true | x :: xs, y :: ys => f x y && leqb f xs ys | _, _ => false end.
Definition same_key (a b : call) : bool :=
  (c_obj a =? c_obj b) && (c_num a =? c_num b) && leqb ob_eqb (c_pos a) (c_pos b) && leqb kw_eqb (map fst (c_kw a)) (map fst (c_kw b)).
Fixpoint kw_get (k : kw) (l : list (kw * option bool)) : option (option bool) :=
  match l with [] => None | (k', v) :: t => if kw_eqb k k' then Some v else kw_get k t end.
(** the arguments get_child sees; as_private = None counts as false *)
Definition arg_prime (c : call) : option bool :=
  match nth_error (c_pos c) 0 with Some v => v | None => match kw_get KPrime (c_kw c) with Some v => v | None => None end end.
Definition arg_private (c : call) : bool :=
  match nth_error (c_pos c) 1 with
  | Some v => match v with Some b => b | None => false end
  | None => match kw_get KPrivate (c_kw c) with Some (Some b) => b | Some None => false | None => true end
  end.
Definition direct (heap : Z -> wallet) (c : call) : res wallet := get_child (heap (c_obj c)) (c_num c) (arg_prime c) (arg_private c).
Definition memo_call (heap : Z -> wallet) (cache : list (call * wallet)) (c : call) : list (call * wallet) * res wallet :=
  match find (fun e => same_key (fst e) c) cache with
  | Some e => (cache, Ok (snd e))
  | None => match direct heap c with
            | Ok w => (cache ++ [(c, w)], Ok w)
            | Err e => (cache, Err e)
            end
  end.
Fixpoint memo_calls (heap : Z -> wallet) (cache : list (call * wallet)) (cs : list call) : list (res wallet) :=
  match cs with
  | [] => []
  | c :: cs => let '(cache, r) := memo_call heap cache c in r :: memo_calls heap cache cs
  end.
End B.
Arguments w_priv {O}. Arguments w_pub {O}. Arguments w_chain {O}. Arguments w_depth {O}. Arguments w_fp {O}.
Arguments w_child {O}. Arguments w_net {O}. Arguments w_ed {O}. Arguments w_seed {O}.
