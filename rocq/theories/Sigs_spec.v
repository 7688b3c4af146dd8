(** What a signature proves, as equations in the group. *)
From Verif Require Import Py Digits Ints_model Ec_model Ec_spec.

(** a non-zero reduced scalar: what [sc_check] accepts *)
Definition nz_scalar (v : Z) : Prop := 0 < v < l.

(** c is the hash of the data, the key and the commitment [c pub + r G] *)
Definition schnorr_valid (E : ecops) (data : list Z) (c r : Z) (pub : pt E) : Prop :=
  c = le_val 256 (hash E (data ++ encp E pub ++ encp E (padd E (smul E pub c) (smul E (Gb E) r)))) mod l.

(** the transcript of a ring signature: for every member P with (c, r) the points [c P + r G] and [r Hp(P) + c I] *)
Fixpoint ring_points (E : ecops) (image : pt E) (pubs : list (pt E)) (sig : list (Z * Z)) : list Z :=
  match pubs, sig with
  | P :: pubs, (c, r) :: sig =>
      encp E (padd E (smul E P c) (smul E (Gb E) r)) ++
      encp E (padd E (smul E (Hp E (encp E P)) r) (smul E image c)) ++ ring_points E image pubs sig
  | _, _ => []
  end.
Definition ring_valid (E : ecops) (prefix : list Z) (image : pt E) (pubs : list (pt E)) (sig : list (Z * Z)) : Prop :=
  length sig = length pubs /\
  Forall (fun cr => nz_scalar (fst cr) /\ nz_scalar (snd cr)) sig /\
  (fold_right Z.add 0 (map fst sig)) mod l =
  le_val 256 (hash E (prefix ++ ring_points E image pubs sig)) mod l.
