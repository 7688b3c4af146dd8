(** Inputs of a range proof. *)
From Verif Require Import Py Ints_model Ec_model Ec_spec Mlsag_model Borromean_model.

(** [n] reduced scalars (random masks, nonces, responses) *)
Definition scalars (n : nat) (xs : list Z) : Prop := length xs = n /\ Forall scalar xs.
(** the optional mask requested by the caller is reduced *)
Definition mask_ok (lm : option Z) : Prop := match lm with Some m => scalar m | None => True end.
(** the byte form of a proof, as the chunked prover returns it: s0, s1, ee, Ci *)
Definition enc_rs (E : ecops) (R : rangesig E) : list (list Z) * list (list Z) * list Z * list (list Z) :=
  (map enc_sc (rs_s0 E R), map enc_sc (rs_s1 E R), enc_sc (rs_ee E R), map (encp E) (rs_Ci E R)).
