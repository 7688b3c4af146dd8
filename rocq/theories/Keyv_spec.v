(** What the key vectors stand for.  Nothing of the model is used but the names of the operations. *)
From Verif Require Import Py Digits Ints_model Ec_model Keyv_model.

(** A plain array of keys; Python's rule for negative indices *)
Definition arr := list (list Z).
Definition at_ (a : arr) (i : Z) : res (list Z) :=
  let n := Z.of_nat (length a) in
  if (0 <=? i) && (i <? n) then Ok (nth (Z.to_nat i) a [])
  else if (- n <=? i) && (i <? 0) then Ok (nth (Z.to_nat (i + n)) a [])
  else Err IndexError.
Definition put (a : arr) (i : Z) (b : list Z) : arr * res (list Z) :=
  let n := Z.of_nat (length a) in
  let k := Z.to_nat (if i <? 0 then i + n else i) in
  if (- n <=? i) && (i <? n) then (firstn k a ++ [b] ++ skipn (S k) a, Ok []) else (a, Err IndexError).
Definition zero_key : list Z := repeat 0 32.

(** the window [start, stop) of an array, indexed by its own indices *)
Definition window (a : arr) (start stop : Z) : arr := firstn (Z.to_nat (stop - start)) (skipn (Z.to_nat start) a).

Definition arr_step (a : arr) (o : kop) : arr * res (list Z) :=
  match o with
  | KGet i | KTo i => (a, at_ a i)
  | KSet i b | KRead i b => put a i b
  | KResize n _ => (firstn (Z.to_nat n) a, Ok [])
  | KRealloc n => (repeat zero_key (Z.to_nat n), Ok [])
  | KViewGet s e i | KViewTo s e i => (a, at_ (window a s e) i)
  | KViewRead s e i b =>
      match at_ (window a s e) i with
      | Err e => (a, Err e)
      | Ok _ => put a (s + (if i <? 0 then i + (e - s) else i)) b
      end
  end.
Fixpoint arr_run (a : arr) (ops : list kop) : list (res (list Z)) :=
  match ops with [] => [] | o :: ops => let '(a, r) := arr_step a o in r :: arr_run a ops end.

(** What the callers do: keys are 32 bytes, negative indices count from the end and not further, vectors
    shrink to at most 32 elements or to a multiple of 32, windows lie inside the vector. *)
Definition key (b : list Z) : Prop := length b = 32%nat.
Definition used_well (n : Z) (o : kop) : Prop :=
  match o with
  | KGet i | KTo i => - n <= i
  | KSet i b | KRead i b => - n <= i /\ key b
  | KResize m _ => 0 <= m <= n /\ (m <= 32 \/ m mod 32 = 0)
  | KRealloc m => 0 <= m
  | KViewGet s e i | KViewTo s e i => 0 <= s <= e /\ e <= n /\ - (e - s) <= i
  | KViewRead s e i b => 0 <= s <= e /\ e <= n /\ - (e - s) <= i /\ key b
  end.
Fixpoint all_used_well (a : arr) (ops : list kop) : Prop :=
  match ops with
  | [] => True
  | o :: ops => used_well (Z.of_nat (length a)) o /\ all_used_well (fst (arr_step a o)) ops
  end.

(** the value of [KeyR0] at an index *)
Definition r0_value (N : Z) (aR : Z -> Z) (y z i : Z) : Z := ((aR i + z) * y ^ i + z ^ (2 + i / N) * 2 ^ (i mod N)) mod l.
(** the sum of the first [n] powers *)
Fixpoint sum_powers (x : Z) (n : nat) : Z := match n with O => 0 | S n => sum_powers x n + x ^ Z.of_nat n end.

(** Uses of the vector of powers: [rewind] only after the first access or [set_state], which is given a power of [x]. *)
Fixpoint pow_used_well (x : Z) (started : bool) (ops : list pop) : Prop :=
  match ops with
  | [] => True
  | PGet _ :: ops => pow_used_well x true ops
  | PRewind _ :: ops => started = true /\ pow_used_well x true ops
  | PSetState i v :: ops => 0 <= i /\ v = x ^ i mod l /\ pow_used_well x true ops
  end.
(** what the operations return; a negative index counts from the end *)
Definition pow_answer (size x : Z) (o : pop) : option Z :=
  match o with PGet i => Some (x ^ (if i <? 0 then i + size else i) mod l) | _ => None end.
