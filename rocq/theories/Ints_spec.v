(** Vocabulary for the integer-level properties. *)
From Verif Require Import Py.

(** mixed-radix value: limb i has weight 2^(width of the limbs before it) *)
Fixpoint limb_val (bits limbs : list Z) : Z :=
  match bits, limbs with
  | b :: bits, x :: limbs => x + 2 ^ b * limb_val bits limbs
  | _, _ => 0
  end.
(** every limb fits its width *)
Definition limbs_ok (bits limbs : list Z) : Prop := Forall2 (fun b x => 0 <= x < 2 ^ b) bits limbs.

(** big-endian and little-endian value of a byte string *)
Definition be_int (bs : list Z) : Z := fold_left (fun a b => a * 256 + b) bs 0.
Definition le_int (bs : list Z) : Z := fold_right (fun b a => b + 256 * a) 0 bs.
(** big-endian value of a list of w-bit words *)
Definition be_words (w : Z) (ws : list Z) : Z := fold_left (fun a b => a * 2 ^ w + b) ws 0.

(** The generator's key stream: block number k (from 0) of a seed is
    H (seed || 32-byte big-endian of k + 1); [ctr32 k] is that encoding. *)
Definition is_ctr32 (k : Z) (bs : list Z) : Prop := length bs = 32%nat /\ bytes_ok bs /\ be_int bs = k.
Inductive keystream (H : list Z -> list Z) (seed : list Z) : Z -> nat -> list Z -> Prop :=
| ks_nil k : keystream H seed k 0 []
| ks_cons k n c bs : is_ctr32 (k + 1) c -> keystream H seed (k + 1) n bs ->
    keystream H seed k (S n) (H (seed ++ c) ++ bs).
(** number of 32-byte blocks a request of n bytes uses up *)
Definition blocks (n : Z) : Z := (n + 31) / 32.
