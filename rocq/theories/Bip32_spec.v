(** Specification of hierarchical key derivation, after the texts of BIP-0032 and SLIP-0010.
    Nothing here is taken from the code.  Byte strings are lists of numbers below 256. *)
From Verif Require Import Py Digits.

(** order of SECP256k1 *)
Definition N_secp : Z := 0xFFFFFFFFFFFFFFFFFFFFFFFFFFFFFFFEBAAEDCE6AF48A03BBFD25E8CD0364141.
(** ser32, ser256, parse256: big-endian *)
Definition ser32 (i : Z) : list Z := be_digits 256 4 i.
Definition ser256 (p : Z) : list Z := be_digits 256 32 p.
Definition parse256 (b : list Z) : Z := be_val 256 b.
Definition left32 (b : list Z) : list Z := firstn 32 b.
Definition right32 (b : list Z) : list Z := skipn 32 b.

(** serP: the coordinate with a leading 2 (even y) or 3 (odd y) *)
Definition serP (xy : Z * Z) : list Z := (if Z.odd (snd xy) then 3 else 2) :: ser256 (fst xy).

Section Spec.
Context (hmac : list Z -> list Z -> list Z)   (* key, message *)
        (point : Z -> Z * Z)                  (* coordinates of k * G on SECP256k1 *)
        (hash160 : list Z -> list Z).

(** a step of a path: an index below 2^31 and whether it is hardened *)
Definition step : Type := Z * bool.
Definition index (s : step) : Z := if snd s then fst s + 2 ^ 31 else fst s.

(** BIP-0032 master key: HMAC-SHA512(Key = "Bitcoin seed", Data = S) *)
Definition Bitcoin_seed : list Z := [66; 105; 116; 99; 111; 105; 110; 32; 115; 101; 101; 100].
Definition master (S : list Z) : option (Z * list Z) :=
  let I := hmac Bitcoin_seed S in
  let k := parse256 (left32 I) in
  if (k =? 0) || (N_secp <=? k) then None else Some (k, right32 I).
(** BIP-0032 CKDpriv((k, c), i) *)
Definition CKDpriv (kc : Z * list Z) (s : step) : option (Z * list Z) :=
  let '(k, c) := kc in
  let I := if snd s then hmac c (0 :: ser256 k ++ ser32 (index s))
           else hmac c (serP (point k) ++ ser32 (index s)) in
  let ki := (parse256 (left32 I) + k) mod N_secp in
  if (N_secp <=? parse256 (left32 I)) || (ki =? 0) then None else Some (ki, right32 I).
Fixpoint derive (kc : Z * list Z) (path : list step) : option (Z * list Z) :=
  match path with
  | [] => Some kc
  | s :: path => match CKDpriv kc s with Some kc => derive kc path | None => None end
  end.
(** first four bytes of the identifier *)
Definition fingerprint_of (k : Z) : list Z := firstn 4 (hash160 (serP (point k))).

(** SLIP-0010 for ed25519: only hardened steps; the key is a string of 32 bytes *)
Definition Ed25519_seed : list Z := [101; 100; 50; 53; 53; 49; 57; 32; 115; 101; 101; 100].
Definition slip_master (S : list Z) : list Z * list Z :=
  let I := hmac Ed25519_seed S in (left32 I, right32 I).
Definition slip_child (kc : list Z * list Z) (i : Z) : list Z * list Z :=
  let I := hmac (snd kc) (0 :: fst kc ++ ser32 (i + 2 ^ 31)) in (left32 I, right32 I).
Definition slip_derive (kc : list Z * list Z) (path : list Z) : list Z * list Z := fold_left slip_child path kc.
End Spec.

(** ** Written paths: "m" followed by "/", a decimal number and "'" or "p" for a hardened step *)
Definition decimal (s : list Z) : Prop := s <> [] /\ Forall (fun c => 48 <= c <= 57) s.
Definition number (s : list Z) : Z := be_val 10 (map (fun c => c - 48) s).
(** [w_mark]: 0 none, 39 the quote, 112 the letter p *)
Record written := { w_digits : list Z; w_mark : Z }.
Definition wf_written (w : written) : Prop :=
  decimal (w_digits w) /\ number (w_digits w) < 2 ^ 31 /\ (w_mark w = 0 \/ w_mark w = 39 \/ w_mark w = 112).
Definition meaning (w : written) : step := (number (w_digits w), negb (w_mark w =? 0)).
Definition render (path : list written) : list Z :=
  109 :: flat_map (fun w => 47 :: w_digits w ++ (if w_mark w =? 0 then [] else [w_mark w])) path.
