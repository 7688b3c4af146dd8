(** The two verification equations of the bulletproofs protocol (aggregated range
    proof with inner product argument), for a proof whose points are already decoded. *)
From Verif Require Import Py Digits Ints_model Ec_model Ec_spec Ec_proof Mlsag_model Bp_model Bp_proof1 Bp_proof2 Bp_proof3.

Section Spec.
Context (E : ecops) (gs : gens E).
Local Notation "A +' B" := (padd E A B) (at level 50, left associativity).
Local Notation zmul := (zmul E).

(** the points of a proof *)
Record dproof := { dV : list (pt E); dA : pt E; dS : pt E; dT1 : pt E; dT2 : pt E; dL : list (pt E); dR : list (pt E) }.
Definition dec (k : list Z) (P : pt E) : Prop := decp E k = Ok P.
Definition opens (p : bproof) (d : dproof) : Prop :=
  Forall2 dec (bp_V p) (dV d) /\ dec (bp_A p) (dA d) /\ dec (bp_S p) (dS d) /\ dec (bp_T1 p) (dT1 d) /\ dec (bp_T2 p) (dT2 d) /\
  Forall2 dec (bp_L p) (dL d) /\ Forall2 dec (bp_R p) (dR d).
Definition dsub (d : dproof) : Prop :=
  Forall (sub E) (dV d) /\ sub E (dA d) /\ sub E (dS d) /\ sub E (dT1 d) /\ sub E (dT2 d) /\ Forall (sub E) (dL d) /\ Forall (sub E) (dR d).

(** Fiat-Shamir challenges *)
Definition ch_y (p : bproof) : Z := mash E (hash_vct E (bp_V p)) [bp_A p; bp_S p].
Definition ch_z (p : bproof) : Z := hash_to_scalar E (enc_sc (ch_y p)).
Definition ch_x (p : bproof) : Z := mash E (ch_z p) [enc_sc (ch_z p); bp_T1 p; bp_T2 p].
Definition ch_ip (p : bproof) : Z := mash E (ch_x p) [enc_sc (ch_x p); bp_taux p; bp_mu p; bp_t p].

(** δ(y, z) = (z - z²) Σ_{i < 64 M} y^i - Σ_{j < M} z^{j+3} (2^64 - 1) *)
Definition delta (M : nat) (y z : Z) : Z :=
  (z - z * z) * Zs (M * BP_N) (fun i => y ^ Z.of_nat i) - Zs M (fun j => z ^ Z.of_nat (3 + j) * (2 ^ 64 - 1)).

(** Σ_j z^{j+2} 8 V_j + x 8 T1 + x² 8 T2 - taux G - (t - δ) H *)
Definition W1 (M : nat) (p : bproof) (d : dproof) : pt E :=
  let y := ch_y p in let z := ch_z p in let x := ch_x p in
  msm E (map (fun j => 8 * z ^ Z.of_nat (2 + j)) (seq 0 (length (dV d)))) (dV d) +' (zmul (8 * x) (dT1 d) +' (zmul (8 * (x * x)) (dT2 d) +'
  (zmul (- le_val 256 (bp_taux p)) (Gb E) +' zmul (delta M y z - le_val 256 (bp_t p)) (Hb E)))).

(** 8 A + x 8 S - mu G + Σ_k (w_k² 8 L_k + w_k⁻² 8 R_k) + x_ip (t - a b) H - Σ_i (a s_i + z) G_i - Σ_i (b s_i⁻¹ - z y^i - z^{2+i/64} 2^{i mod 64}) y^{-i} H_i *)
Definition gcoef (ws : list Z) (a z : Z) (i : nat) : Z := a * nth i (cG ws) 0 + z.
Definition hcoef (ws : list Z) (b y z : Z) (i : nat) : Z :=
  (b * nth i (cH ws) 0 - (z * y ^ Z.of_nat i + z ^ Z.of_nat (2 + i / BP_N) * 2 ^ Z.of_nat (i mod BP_N))) * sc_inv y ^ Z.of_nat i.
Definition W2 (M : nat) (p : bproof) (d : dproof) (ws : list Z) : pt E :=
  let y := ch_y p in let z := ch_z p in let x := ch_x p in
  let a := le_val 256 (bp_a p) in let b := le_val 256 (bp_b p) in
  let I := seq 0 (M * BP_N) in
  zmul 8 (dA d) +' (zmul (8 * x) (dS d) +' (zmul (- le_val 256 (bp_mu p)) (Gb E) +' (lrs E ws (dL d) (dR d) +'
  (zmul (ch_ip p * (le_val 256 (bp_t p) - a * b)) (Hb E) +'
   pneg E (msm E (map (gcoef ws a z) I) (map (gG E gs) I) +' msm E (map (hcoef ws b y z) I) (map (gH E gs) I)))))).
End Spec.
