(** What the words mean, independent of the hex-string code. *)
From Verif Require Import Py Digits B58Mnr_spec.

(** The three words of a 4-byte group, read little-endian: a base-n number with
    digits d1 d2 d3 (least significant first), each word offset by the previous. *)
Definition triple (words : list (list Z)) (g : list Z) : list (list Z) :=
  let n := zlen words in
  let x := le_val 256 g in
  let d1 := x mod n in
  let d2 := x / n mod n in
  let d3 := x / n ^ 2 in
  map (fun i => nth (Z.to_nat i) words []) [d1; (d1 + d2) mod n; (d1 + d2 + d3) mod n].

Definition spec_words (words : list (list Z)) (m : list Z) : list (list Z) := flat_map (triple words) (chunks 4 m).

(** the number three words stand for *)
Definition triple_value (n : Z) (w1 w2 w3 : Z) : Z :=
  w1 + n * ((w2 - w1) mod n) + n ^ 2 * ((w3 - w2) mod n).
