(** Specification of the curve in terms of integers modulo p only. *)
From Coq Require Import ZArith List.
Import ListNotations.
Local Open Scope Z_scope.

Definition p : Z := 2 ^ 255 - 19.
(** the integer d of the curve: d * 121666 = -121665 (mod p) *)
Definition dc : Z := 37095705934669439343138083508754565189542113879843219016388785533085940283555.
Definition eqm (a b : Z) : Prop := a mod p = b mod p.
Definition pair : Type := (Z * Z)%type.
Definition curve (a : pair) : Prop :=
  let '(x, y) := a in 0 <= x < p /\ 0 <= y < p /\ eqm (- x * x + y * y) (1 + dc * x * x * y * y).
(** the affine addition law (twisted Edwards, a = -1), without division *)
Definition is_sum (a b c : pair) : Prop :=
  let '(x1, y1) := a in let '(x2, y2) := b in let '(x3, y3) := c in
  eqm (x3 * (1 + dc * x1 * x2 * y1 * y2)) (x1 * y2 + x2 * y1) /\
  eqm (y3 * (1 - dc * x1 * x2 * y1 * y2)) (y1 * y2 + x1 * x2).
Definition neutral : pair := (0, 1).
Definition negp (a : pair) : pair := ((- fst a) mod p, snd a).
(** c is n times a *)
Inductive times (a : pair) : nat -> pair -> Prop :=
| times_0 : times a 0 neutral
| times_S n b c : times a n b -> curve c -> is_sum a b c -> times a (S n) c.
(** extended coordinates (X, Y, Z, T) standing for a *)
Definition stands_for (P : Z * Z * Z * Z) (a : pair) : Prop :=
  let '(X, Y, Zz, T) := P in let '(x, y) := a in
  Zz mod p <> 0 /\ eqm X (x * Zz) /\ eqm Y (y * Zz) /\ eqm T (x * y * Zz).
(** integers, any representatives *)
Definition stands_aff (P : pair) (a : pair) : Prop := eqm (fst P) (fst a) /\ eqm (snd P) (snd a).
(** RFC 8032 encoding: y, with the parity of x in the top bit, 32 bytes little-endian *)
Definition encoding (a : pair) (s : list Z) : Prop :=
  length s = 32%nat /\ Forall (fun b => 0 <= b < 256) s /\
  fold_right (fun b v => b + 256 * v) 0 s = snd a + 2 ^ 255 * (fst a mod 2).
