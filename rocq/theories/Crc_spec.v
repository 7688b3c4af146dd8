(** The checksum word of the 25-word seed: CRC-32 of the first three letters of every word. *)
From Verif Require Import Py.

(** x^32 + x^26 + x^23 + ... + 1, written with the coefficient of x^e at bit 31 - e (the term x^32 is implicit) *)
Definition crc_exponents : list Z := [26; 23; 22; 16; 12; 11; 10; 8; 7; 5; 4; 2; 1; 0].
Definition crc_poly : Z := fold_right (fun e a => 2 ^ (31 - e) + a) 0 crc_exponents.
(** the register divides by the polynomial, one bit of the message at a time, lowest bit of a byte first *)
Definition crc_shift (c : Z) (bit : bool) : Z := Z.lxor (c / 2) (if xorb (Z.odd c) bit then crc_poly else 0).
Definition message_bits (m : list Z) : list bool := flat_map (fun b => map (Z.testbit b) [0; 1; 2; 3; 4; 5; 6; 7]) m.
Definition crc_standard (m : list Z) : Z := Z.lxor (fold_left crc_shift (message_bits m) (2 ^ 32 - 1)) (2 ^ 32 - 1).
(** the word repeated at the end *)
Definition checksum_word (ws : list (list Z)) : option (list Z) :=
  nth_error ws (Z.to_nat (crc_standard (concat (map (firstn 3) ws)) mod Z.of_nat (length ws))).
