(** Keccak as published (The Keccak reference, version 3.0; FIPS 202 section 3
    for the permutation, section 5.1 for pad10*1, section 4 for the sponge), on
    bits.  Nothing here refers to the Python code. *)
From Verif Require Import Py.

(** state: bit (x, y, z) for x, y < 5 and 0 <= z < 64 *)
Definition bstate := nat -> nat -> Z -> bool.
Definition bzero : bstate := fun _ _ _ => false.

Definition parity (a : bstate) (x : nat) (z : Z) : bool :=
  xorb (a x 0%nat z) (xorb (a x 1%nat z) (xorb (a x 2%nat z) (xorb (a x 3%nat z) (a x 4%nat z)))).
Definition Theta (a : bstate) : bstate := fun x y z =>
  xorb (a x y z) (xorb (parity a ((x + 4) mod 5) z) (parity a ((x + 1) mod 5) ((z - 1) mod 64))).

(** rho: the walk (x, y) -> (y, 2x+3y) from (1, 0); step t turns the lane by
    (t+1)(t+2)/2; lane (0, 0) is not turned *)
Fixpoint rho_walk (n t : nat) (p : nat * nat) (x y : nat) : Z :=
  match n with
  | O => 0
  | S n =>
      if (Nat.eqb (fst p) x && Nat.eqb (snd p) y)%bool then Z.of_nat ((t + 1) * (t + 2)) / 2
      else rho_walk n (S t) (snd p, ((2 * fst p + 3 * snd p) mod 5)%nat) x y
  end.
Definition Rho (a : bstate) : bstate := fun x y z => a x y ((z - rho_walk 24 0 (1, 0)%nat x y) mod 64).
Definition Pi (a : bstate) : bstate := fun x y z => a ((x + 3 * y) mod 5)%nat x z.
Definition Chi (a : bstate) : bstate := fun x y z =>
  xorb (a x y z) (negb (a ((x + 1) mod 5)%nat y z) && a ((x + 2) mod 5)%nat y z).

(** iota: rc(t) is the t-th output bit of the LFSR x^8 + x^6 + x^5 + x^4 + 1
    started at 1 (FIPS 202, algorithm 5); bit 2^j - 1 of round constant i is
    rc(j + 7 i) *)
Definition lfsr (r : list bool) : list bool :=
  match r with
  | [r0; r1; r2; r3; r4; r5; r6; r7] => [r7; r0; r1; r2; xorb r3 r7; xorb r4 r7; xorb r5 r7; r6]
  | _ => r
  end.
Definition rc (t : nat) : bool := hd false (Nat.iter t lfsr [true; false; false; false; false; false; false; false]).
Definition round_bit (i : nat) (z : Z) : bool :=
  existsb (fun j => (z =? 2 ^ Z.of_nat j - 1) && rc (j + 7 * i)) (seq 0 7).
Definition Iota (i : nat) (a : bstate) : bstate := fun x y z =>
  if (Nat.eqb x 0 && Nat.eqb y 0)%bool then xorb (a x y z) (round_bit i z) else a x y z.

Definition Round (a : bstate) (i : nat) : bstate := Iota i (Chi (Pi (Rho (Theta a)))).
Definition Keccak_p (a : bstate) : bstate := fold_left Round (seq 0 24) a.

(** bits of a byte string: least significant bit of each byte first *)
Definition bits_of (m : list Z) : list bool := flat_map (fun b => map (fun k => Z.testbit b (Z.of_nat k)) (seq 0 8)) m.
(** pad10*1 *)
Definition pad101 (r : Z) (m : list bool) : list bool :=
  m ++ [true] ++ repeat false (Z.to_nat ((- zlen m - 2) mod r)) ++ [true].
(** bit (x, y, z) of the state is bit number 64 (5 y + x) + z of the string *)
Definition pos (x y : nat) (z : Z) : nat := Z.to_nat (64 * (5 * Z.of_nat y + Z.of_nat x) + z).
Definition xor_block (a : bstate) (blk : list bool) : bstate := fun x y z => xorb (a x y z) (nth (pos x y z) blk false).
Fixpoint absorb_blocks (n r : nat) (a : bstate) (bits : list bool) : bstate :=
  match n with
  | O => a
  | S n => absorb_blocks n r (Keccak_p (xor_block a (firstn r bits))) (skipn r bits)
  end.
(** state after absorbing the padded message *)
Definition absorbed (r : Z) (m : list Z) : bstate :=
  let p := pad101 r (bits_of m) in absorb_blocks (Z.to_nat (zlen p / r)) (Z.to_nat r) bzero p.

(** [is_keccak rate n m d]: the byte string d is the n-byte output (n at most
    the rate, both in bytes) of the sponge on message m *)
Definition is_keccak (rate n : Z) (m d : list Z) : Prop :=
  zlen d = n /\ bytes_ok d /\
  forall x y z, (x < 5)%nat -> (y < 5)%nat -> 0 <= z < 64 -> Z.of_nat (pos x y z) < 8 * n ->
    nth (pos x y z) (bits_of d) false = absorbed (8 * rate) m x y z.
