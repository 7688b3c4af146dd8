(** The laws the abstract curve is assumed to satisfy: an abelian group in
    which [smul P e] is the [e]-fold sum of [P], whose two generators and hashed
    points have order dividing [l].  Points in general (ring members, commitments
    supplied by others) are not assumed to lie in the subgroup of order [l]. *)
From Verif Require Import Py Digits Ints_model Ec_model.

(** n-fold sum *)
Fixpoint nsum (E : ecops) (n : nat) (P : pt E) : pt E :=
  match n with O => pid E | S n => padd E P (nsum E n P) end.

Record ec_laws (E : ecops) : Prop := {
  law_eqb : forall P Q, pt_eqb E P Q = true <-> P = Q;
  law_assoc : forall P Q R, padd E P (padd E Q R) = padd E (padd E P Q) R;
  law_comm : forall P Q, padd E P Q = padd E Q P;
  law_id : forall P, padd E (pid E) P = P;
  law_neg : forall P, padd E P (pneg E P) = pid E;
  law_smul : forall P e, 0 <= e -> smul E P e = nsum E (Z.to_nat e) P;
  law_G : smul E (Gb E) l = pid E;
  law_H : smul E (Hb E) l = pid E;
  law_Hp : forall x, smul E (Hp E x) l = pid E;
  law_dec : forall P, decp E (encp E P) = Ok P;
}.

(** a reduced scalar *)
Definition scalar (v : Z) : Prop := 0 <= v < l.
