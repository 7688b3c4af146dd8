(** C11 permutation helpers, C12 ring offsets, C13 range-proof batch sizes, C60 chunks. *)
From Coq Require Import Permutation Sorted.
From Verif Require Import Py Lists_model Lists_spec Lists_proof.

(** C11: check_permutation accepts exactly the rearrangements of 0..n-1. *)
Theorem C11_check_permutation (p : list Z) :
  check_permutation p = Ok tt <-> Permutation p (zrange (zlen p)).
Proof. exact (check_perm_spec p). Qed.

(** C11: apply_permutation with a swapping callback rearranges an array so that position j holds
    what was at p[j]; it refuses exactly the lists that are no permutation. *)
Theorem C11_apply_permutation (A : Type) (p : list Z) (arr : list A) : length arr = length p ->
  match apply_permutation swap_elems p arr with
  | Ok arr' => Permutation p (zrange (zlen p)) /\ length arr' = length arr /\
               forall j, (j < length p)%nat -> nth_error arr' j = nth_error arr (Z.to_nat (nth j p 0))
  | Err e => e = ValueError /\ ~ Permutation p (zrange (zlen p))
  end.
Proof. exact (apply_permutation_spec A p arr). Qed.
Example C11_ex : apply_permutation swap_elems [3; 0; 1; 2; 4] [10; 11; 12; 13; 14] = Ok [13; 10; 11; 12; 14]
  /\ check_permutation [0; 0; 1] = Err ValueError.
Proof. vm_compute. split; reflexivity. Qed.

(** C12: relative offsets are the gaps of the sorted absolute offsets: their running totals are a
    sorted rearrangement of the input, and all gaps after the first entry are non-negative. *)
Theorem C12_offsets (off : list Z) : exists rel sorted_off,
  offsets_to_relative off = Ok rel /\ StronglySorted Z.le sorted_off /\ Permutation off sorted_off /\
  sums 0 rel = sorted_off /\ length rel = length off /\ Forall (fun d => 0 <= d) (tl rel).
Proof. exact (offsets_spec off). Qed.
Example C12_ex : offsets_to_relative [50; 7; 30; 31] = Ok [7; 23; 1; 19].
Proof. vm_compute. reflexivity. Qed.

(** C13: for every supported type the batch sizes are admissible and cover the outputs exactly. *)
Theorem C13_batches_partition (t n : Z) : 0 <= t <= 2 \/ (t = 3 /\ n <= 16) -> 0 <= n ->
  exists bs, generate_rsig_batch_sizes t n = Ok bs /\ zsum bs = n /\ Forall (batch_ok t n) bs.
Proof. exact (batch_sizes_ok t n). Qed.
(** C13: unsupported requests are refused. *)
Theorem C13_batches_refused (n : Z) : 0 < n ->
  (16 < n -> generate_rsig_batch_sizes 3 n = Err ValueError) /\
  (forall t, t < 0 \/ 3 < t -> generate_rsig_batch_sizes t n = Err ValueError).
Proof. exact (batch_sizes_refuse n). Qed.
(** C13: the automatically chosen type never fails. *)
Theorem C13_auto_type (bulletproof : bool) (n : Z) : 0 <= n ->
  exists bs, generate_rsig_batch_sizes (get_rsig_type bulletproof n) n = Ok bs /\ zsum bs = n /\
             Forall (batch_ok (get_rsig_type bulletproof n) n) bs.
Proof. exact (auto_type_ok bulletproof n). Qed.
Example C13_ex : generate_rsig_batch_sizes 2 23 = Ok [16; 4; 2; 1] /\ generate_rsig_batch_sizes 0 3 = Ok [1; 1; 1]
  /\ generate_rsig_batch_sizes (get_rsig_type true 16) 16 = Ok [16].
Proof. vm_compute. repeat split; reflexivity. Qed.

(** C60: chunk cuts a list into full pieces and one last shorter piece, losing and reordering nothing. *)
Theorem C60_chunk (A : Type) (arr : list A) (size : Z) : 0 < size ->
  exists full last, chunk arr size = Ok (full ++ [last]) /\ concat full ++ last = arr /\
    Forall (fun c => zlen c = size) full /\ zlen last < size.
Proof. exact (chunk_spec A arr size). Qed.
Example C60_ex : chunk [1; 2; 3; 4; 5; 6; 7] 3 = Ok [[1; 2; 3]; [4; 5; 6]; [7]] /\ chunk [1; 2] 2 = Ok [[1; 2]; []].
Proof. vm_compute. split; reflexivity. Qed.

Print Assumptions C11_apply_permutation.
Print Assumptions C12_offsets.
Print Assumptions C13_batches_partition.
Print Assumptions C13_auto_type.
Print Assumptions C60_chunk.
