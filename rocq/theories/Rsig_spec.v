(** The wire format of a Bulletproof, as a reader: six keys, a varint-counted list of
    keys, another one, three keys (Monero's serialisation of the structure without V). *)
From Verif Require Import Py Protobuf_model Rsig_model.

Definition read_key (bs : list Z) : res (list Z * list Z) :=
  if (32 <=? length bs)%nat then Ok (firstn 32 bs, skipn 32 bs) else Err EOFErr.
Fixpoint read_keys (n : nat) (bs : list Z) : res (list (list Z) * list Z) :=
  match n with
  | O => Ok ([], bs)
  | S n => let* (k, bs) := read_key bs in let* (ks, bs) := read_keys n bs in Ok (k :: ks, bs)
  end.
Definition read_varint (bs : list Z) : res (Z * list Z) :=
  let* (n, rd) := load_uvarint_exn {| rest := bs; limits := [] |} in Ok (n, rest rd).
Definition read_counted (bs : list Z) : res (list (list Z) * list Z) :=
  let* (n, bs) := read_varint bs in read_keys (Z.to_nat n) bs.
Definition read_bp (bs : list Z) : res (bulletproof * list Z) :=
  let* (A, bs) := read_key bs in
  let* (S_, bs) := read_key bs in
  let* (T1, bs) := read_key bs in
  let* (T2, bs) := read_key bs in
  let* (taux, bs) := read_key bs in
  let* (mu, bs) := read_key bs in
  let* (L, bs) := read_counted bs in
  let* (R, bs) := read_counted bs in
  let* (a, bs) := read_key bs in
  let* (b, bs) := read_key bs in
  let* (t, bs) := read_key bs in
  Ok ({| bp_A := A; bp_S := S_; bp_T1 := T1; bp_T2 := T2; bp_taux := taux; bp_mu := mu; bp_L := L; bp_R := R; bp_a := a; bp_b := b; bp_t := t |}, bs).

Definition key (k : list Z) : Prop := length k = 32%nat.
Definition bp_keys (p : bulletproof) : Prop :=
  Forall key ([bp_A p; bp_S p; bp_T1 p; bp_T2 p; bp_taux p; bp_mu p] ++ bp_L p ++ bp_R p ++ [bp_a p; bp_b p; bp_t p]).
(** the 64 + 64 + 1 + 64 components of an encoded Borromean proof are 32 bytes each *)
Definition rsig_keys (r : rsig_bytes) : Prop :=
  length (rb_s0 r) = 64%nat /\ length (rb_s1 r) = 64%nat /\ length (rb_Ci r) = 64%nat /\
  Forall key (rb_s0 r ++ rb_s1 r ++ rb_ee r :: rb_Ci r).
