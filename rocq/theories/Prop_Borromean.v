(** C35: Borromean range proofs. *)
From Verif Require Import Py Digits Ints_model Ec_model Ec_spec Ec_toy Mlsag_model Mlsag_spec Borromean_model Borromean_spec Borromean_proof.

(** For every 64-bit amount, every requested mask (or none) and all randomness: the
    proof exists, the returned commitment opens to (mask, amount), the mask is the
    requested one, and the verifier accepts the proof for that commitment and refuses
    it for any other. *)
Theorem C35_complete (E : ecops) : ec_laws E -> forall amount lm ra al sr,
  0 <= amount < 2 ^ 64 -> mask_ok lm -> scalars 64 ra -> scalars 64 al -> scalars 64 sr ->
  exists C a R, prove_range_orig E amount lm ra al sr = Ok (C, a, R) /\
    C = commit E a amount /\ scalar a /\ (forall m, lm = Some m -> a = m) /\
    ver_range E (Some C) R = Ok true /\ ver_range E None R = Ok true /\
    (forall C', C' <> C -> ver_range E (Some C') R = Ok false).
Proof.
  intros L amount lm ra al sr H1 H2 H3 H4 H5.
  destruct (orig_complete E L amount lm ra al sr H1 H2 H3 H4 H5) as (C & a & R & A1 & A2 & A3 & A4 & A5 & A6 & A7 & _).
  exists C, a, R. repeat split; assumption || apply A3.
Qed.
Print Assumptions C35_complete.
Example C35_complete_example : exists C R,
  prove_range_orig toy (2 ^ 63 + 5) (Some 42) (map Z.of_nat (seq 100 64)) (map Z.of_nat (seq 900 64)) (map Z.of_nat (seq 7 64)) = Ok (C, 42, R) /\
  C = commit toy 42 (2 ^ 63 + 5) /\ ver_range toy (Some C) R = Ok true.
Proof.
  assert (S : forall k, scalars 64 (map Z.of_nat (seq k 64)) \/ (l - 64 < Z.of_nat k)).
  { intros k. destruct (Z_lt_le_dec (l - 64) (Z.of_nat k)) as [H|H]; [right; exact H|left]. split; [rewrite map_length, seq_length; reflexivity|].
    apply Forall_forall. intros x Hx. apply in_map_iff in Hx. destruct Hx as (y & <- & Hy). apply in_seq in Hy. unfold scalar. lia. }
  assert (S100 : scalars 64 (map Z.of_nat (seq 100 64))) by (destruct (S 100%nat) as [H|H]; [exact H|discriminate H]).
  assert (S900 : scalars 64 (map Z.of_nat (seq 900 64))) by (destruct (S 900%nat) as [H|H]; [exact H|discriminate H]).
  assert (S7 : scalars 64 (map Z.of_nat (seq 7 64))) by (destruct (S 7%nat) as [H|H]; [exact H|discriminate H]).
  destruct (C35_complete toy toy_laws (2 ^ 63 + 5) (Some 42) _ _ _ ltac:(split; [discriminate|reflexivity]) ltac:(split; [discriminate|reflexivity]) S100 S900 S7)
    as (C & a & R & H1 & H2 & _ & H4 & H5 & _). specialize (H4 42 eq_refl). subst a. exists C, R. auto.
Qed.

(** The memory optimised prover returns exactly what the plain one returns (value or
    exception) on the same randomness. *)
Theorem C35_memory_variant (E : ecops) amount lm ra al sr :
  length ra = 64%nat -> length al = 64%nat -> length sr = 64%nat ->
  prove_range_mem E amount lm ra al sr = prove_range_orig E amount lm ra al sr.
Proof. apply mem_orig. Qed.
Print Assumptions C35_memory_variant.

(** The chunked prover returns the byte encoding of the same proof; it looks at the
    low 64 bits of the amount only. *)
Theorem C35_chunked_variant (E : ecops) : ec_laws E -> forall amount lm ra al sr,
  mask_ok lm -> scalars 64 ra -> scalars 64 al -> scalars 64 sr ->
  exists C a R, prove_range_orig E (amount mod 2 ^ 64) lm ra al sr = Ok (C, a, R) /\
    prove_range_chunked E amount lm ra al sr = Ok (C, a, enc_rs E R).
Proof.
  intros L amount lm ra al sr Hm Hr Ha Hs.
  destruct (orig_complete E L (amount mod 2 ^ 64) lm ra al sr (Z.mod_pos_bound amount (2 ^ 64) eq_refl) Hm Hr Ha Hs) as (C & a & R & A1 & _).
  exists C, a, R. split; [exact A1|]. rewrite (chunked_orig E L amount lm ra al sr Hm Hr Ha Hs), A1. reflexivity.
Qed.
Print Assumptions C35_chunked_variant.

(** An amount that does not fit in 64 bits (or is negative) raises in both provers. *)
Theorem C35_amount_range (E : ecops) amount lm ra al sr :
  amount < 0 \/ 2 ^ 64 <= amount ->
  prove_range_orig E amount lm ra al sr = Err IndexError /\ prove_range_mem E amount lm ra al sr = Err IndexError.
Proof.
  intros H. unfold prove_range_orig, prove_range_mem. rewrite (d2b_err amount ATOMS H). split; reflexivity.
Qed.
Print Assumptions C35_amount_range.
Example C35_amount_range_example : prove_range_mem toy (2 ^ 64) None (repeat 1 64) (repeat 2 64) (repeat 3 64) = Err IndexError.
Proof. apply (C35_amount_range toy). right. apply Z.le_refl. Qed.
