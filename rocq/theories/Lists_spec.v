(** Vocabulary of the list properties: running sums and admissible batch sizes. *)
From Verif Require Import Py.

(** running totals of l, starting from acc *)
Fixpoint sums (acc : Z) (l : list Z) : list Z :=
  match l with [] => [] | x :: l => (acc + x) :: sums (acc + x) l end.
Definition zsum (l : list Z) : Z := fold_right Z.add 0 l.
(** admissible batch size for range-signature type t and n outputs *)
Definition batch_ok (t n b : Z) : Prop :=
  0 < b <= 16 /\ ((t = 0 \/ t = 1) -> b = 1) /\ (t = 2 -> exists k, 0 <= k /\ b = 2 ^ k) /\ (t = 3 -> b = n).
