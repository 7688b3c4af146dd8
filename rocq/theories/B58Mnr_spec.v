(** Specification of Monero's base58, independent of the model: the text is
    cut in 8-byte blocks; each block, read as a big-endian number, is written
    with the fixed number of base-58 digits of its size. *)
From Coq Require Import String Ascii.
From Verif Require Import Py Digits.

Definition codes (s : string) : list Z :=
  map (fun c => Z.of_nat (nat_of_ascii c)) (list_ascii_of_string s).

Definition symbols : list Z :=
  codes "123456789ABCDEFGHJKLMNPQRSTUVWXYZabcdefghijkmnopqrstuvwxyz".

Definition symbol (d : Z) : Z := nth (Z.to_nat d) symbols 0.

(** encoded size of a block of n bytes, n <= 8 *)
Definition enc_size (n : nat) : nat := nth n [0; 2; 3; 5; 6; 7; 9; 10; 11]%nat 0%nat.

Definition enc_block (b : list Z) : list Z :=
  map symbol (be_digits 58 (enc_size (length b)) (be_val 256 b)).

(** cut a list in chunks of k (the last one may be shorter) *)
Fixpoint chunks_fuel {A} (fuel k : nat) (l : list A) : list (list A) :=
  match fuel with
  | O => []
  | S fuel => match l with [] => [] | _ => firstn k l :: chunks_fuel fuel k (skipn k l) end
  end.
Definition chunks {A} (k : nat) (l : list A) : list (list A) := chunks_fuel (length l) k l.

Definition spec_encode (bs : list Z) : list Z := flat_map enc_block (chunks 8 bs).

(** an 11-character block of a text that spells exactly 2^64 *)
Definition block_spells_2_64 (blk : list Z) : Prop :=
  length blk = 11%nat /\
  exists ds, digits_ok 58 ds /\ blk = map symbol ds /\ be_val 58 ds = 2 ^ 64.
