(** Models of the list helpers of monero_glue/xmr/common.py,
    monero_glue/xmr/sub/tsx_helper.py and monero_glue/agent/agent_lite.py. *)
From Verif Require Import Py.

(** common.py:79-87 check_permutation: the for loop *)
Definition check_permutation (permutation : list Z) : res unit :=
  foldM (fun _ n => if existsb (Z.eqb n) permutation then Ok tt else Err ValueError)
    (zrange (zlen permutation)) tt.

(** common.py:90-107 apply_permutation.  The swapper callback acts on a state S.
    Inner while loop (102-106): *)
Fixpoint perm_cycle {S} (swapper : Z -> Z -> S -> res S) (fuel : nat) (i current : Z) (perm : list Z) (s : S)
  : res (Z * list Z * S) :=
  match fuel with
  | O => Err OutOfFuel
  | Datatypes.S fuel =>
      let* nxt := py_get perm current in
      if i =? nxt then Ok (current, perm, s)
      else
        let* s := swapper current nxt s in
        let* perm := py_set perm current current in
        perm_cycle swapper fuel i nxt perm s
  end.
Definition apply_permutation {S} (swapper : Z -> Z -> S -> res S) (permutation : list Z) (s : S) : res S :=
  let* _ := check_permutation permutation in
  let* (_, s) := foldM (fun '(perm, s) i =>
      let* (current, perm, s) := perm_cycle swapper (Datatypes.S (length permutation)) i i perm s in
      let* perm := py_set perm current current in
      Ok (perm, s)) (zrange (zlen permutation)) (permutation, s) in
  Ok s.

(** agent_lite.py:432-440: the swapper swaps two elements of an array *)
Definition swap_elems {A} (x y : Z) (arr : list A) : res (list A) :=
  let* a := py_get arr x in
  let* b := py_get arr y in
  let* arr := py_set arr x b in
  py_set arr y a.

(** common.py:192-201 chunk (the while loop; for size <= 0 it may not end: OutOfFuel) *)
Fixpoint chunk_loop {A} (fuel : nat) (arr : list A) (idx size : Z) (acc : list (list A)) : res (list (list A)) :=
  match fuel with
  | O => Err OutOfFuel
  | S fuel =>
      let c := py_slice arr idx (idx + size) in
      let acc := acc ++ [c] in
      let idx := idx + size in
      if negb (zlen c =? size) then Ok acc else chunk_loop fuel arr idx size acc
  end.
Definition chunk {A} (arr : list A) (size : Z) : res (list (list A)) :=
  chunk_loop (S (length arr)) arr 0 size [].

(** sorted(l) on ints *)
Fixpoint insert_sorted (x : Z) (l : list Z) : list Z :=
  match l with
  | [] => [x]
  | h :: t => if x <=? h then x :: h :: t else h :: insert_sorted x t
  end.
Definition py_sorted (l : list Z) : list Z := fold_right insert_sorted [] l.

(** tsx_helper.py:96-109 absolute_output_offsets_to_relative:
    for i in range(len(off) - 1, 0, -1): res[i] -= res[i - 1] *)
Definition offsets_to_relative (off : list Z) : res (list Z) :=
  if zlen off =? 0 then Ok off
  else
    let res_ := py_sorted off in
    foldM (fun res_ i =>
      let* a := py_get res_ i in
      let* b := py_get res_ (i - 1) in
      py_set res_ i (a - b))
      (rev (map (fun i => i + 1) (zrange (zlen off - 1)))) res_.

(** agent_lite.py:60-66 get_rsig_type *)
Definition get_rsig_type (use_bulletproof : bool) (num_outputs : Z) : Z :=
  if negb use_bulletproof then 0 else if 16 <? num_outputs then 2 else 3.

(** agent_lite.py:87-92 inner loop of the multi-output case *)
Fixpoint double_batch (fuel : nat) (batch_size amount_batched num_outputs : Z) : res Z :=
  match fuel with
  | O => Err OutOfFuel
  | S fuel =>
      if (batch_size * 2 + amount_batched <=? num_outputs) && (batch_size * 2 <=? 16)
      then double_batch fuel (batch_size * 2) amount_batched num_outputs
      else Ok batch_size
  end.
(** agent_lite.py:69-99 generate_rsig_batch_sizes *)
Fixpoint rsig_batches (fuel : nat) (rsig_type num_outputs amount_batched : Z) (batches : list Z) : res (list Z) :=
  if amount_batched <? num_outputs then
    match fuel with
    | O => Err OutOfFuel
    | S fuel =>
        if (rsig_type =? 0) || (rsig_type =? 1) then
          rsig_batches fuel rsig_type num_outputs (amount_batched + 1) (batches ++ [1])
        else if rsig_type =? 3 then
          if 16 <? num_outputs then Err ValueError
          else rsig_batches fuel rsig_type num_outputs (amount_batched + num_outputs) (batches ++ [num_outputs])
        else if rsig_type =? 2 then
          let* batch_size := double_batch 6 1 amount_batched num_outputs in
          let batch_size := Z.min batch_size (num_outputs - amount_batched) in
          rsig_batches fuel rsig_type num_outputs (amount_batched + batch_size) (batches ++ [batch_size])
        else Err ValueError
    end
  else Ok batches.
Definition generate_rsig_batch_sizes (rsig_type num_outputs : Z) : res (list Z) :=
  rsig_batches (Z.to_nat num_outputs) rsig_type num_outputs 0 [].
