(** What it means that a signature or a range proof is accepted, as equations in the
    group, and what a signer must know. *)
From Verif Require Import Py Digits Ints_model Ec_model Ec_spec Mlsag_model Borromean_model.

Section S.
Context (E : ecops).
(** the hash of a string, as a scalar *)
Definition hs (x : list Z) : Z := le_val 256 (hash E x) mod l.
(** a point of the subgroup generated by the base point *)
Definition in_group (P : pt E) : Prop := smul E P l = pid E.

(** ** MLSAG *)
(** row [j] of a column: the key P, s G + c P and, for the rows with a key image I, s Hp(P) + c I *)
Definition mlsag_row (col : list (pt E)) (ss : list Z) (II : list (pt E)) (c : Z) (j : nat) : list Z :=
  let P := nth j col (pid E) in
  let s := nth j ss 0 in
  encp E P ++ encp E (padd E (smul E (Gb E) s) (smul E P c)) ++
  match nth_error II j with
  | Some Im => encp E (padd E (smul E (Hp E (encp E P)) s) (smul E Im c))
  | None => []
  end.
Definition mlsag_column (col : list (pt E)) (ss : list Z) (II : list (pt E)) (c : Z) : list Z :=
  concat (map (mlsag_row col ss II c) (seq 0 (length col))).
(** a rectangular matrix of at least two columns and the challenges around the ring, which come back to the first one *)
Definition mlsag_valid (message : list Z) (pk : list (list (pt E))) (rv : mgsig E) (ds : nat) : Prop :=
  exists rows, (2 <= length pk)%nat /\ (0 < rows)%nat /\ (ds <= rows)%nat /\
    Forall (fun col => length col = rows) pk /\ length (mg_ss E rv) = length pk /\
    Forall (fun s => length s = rows) (mg_ss E rv) /\ length (mg_II E rv) = ds /\
    exists ch : nat -> Z, ch O = mg_cc E rv /\ ch (length pk) mod l = mg_cc E rv mod l /\
      forall i, (i < length pk)%nat ->
        ch (S i) = hs (message ++ mlsag_column (nth i pk []) (nth i (mg_ss E rv) []) (mg_II E rv) (ch i)).

(** ** CLSAG *)
(** member i with response s: L = s G + (mu_P c) P + (mu_C c) (C - offset), R = s Hp(P) + (mu_P c) I + (mu_C c) 8 D *)
Definition clsag_L (mu_P mu_C : Z) (P C offset : pt E) (s c : Z) : pt E :=
  padd E (padd E (smul E (Gb E) s) (smul E P ((mu_P * c) mod l))) (smul E (padd E C (pneg E offset)) ((mu_C * c) mod l)).
Definition clsag_R (mu_P mu_C : Z) (HP I D : pt E) (s c : Z) : pt E :=
  padd E (padd E (smul E HP s) (smul E I ((mu_P * c) mod l))) (smul E (smul E D 8) ((mu_C * c) mod l)).
Definition text (s : list Z) : list Z := s ++ repeat 0 (32 - length s).
Definition CLSAG_round : list Z := text [67; 76; 83; 65; 71; 95; 114; 111; 117; 110; 100].
Definition CLSAG_agg_0 : list Z := text [67; 76; 83; 65; 71; 95; 97; 103; 103; 95; 48].
Definition CLSAG_agg_1 : list Z := text [67; 76; 83; 65; 71; 95; 97; 103; 103; 95; 49].
Definition clsag_valid (message ss : list Z) (c1 : Z) (I D : pt E) (pubs : list ctkey) (offset : pt E) : Prop :=
  let keys := concat (map ct_dest pubs) ++ concat (map ct_comm pubs) in
  let mu dom := hs (dom ++ keys ++ encp E I ++ encp E D ++ encp E offset) in
  let mu_P := mu CLSAG_agg_0 in
  let mu_C := mu CLSAG_agg_1 in
  (length pubs <= length ss)%nat /\
  exists (Ps Cs : list (pt E)) (ch : nat -> Z),
    Forall2 (fun p P => decp E (ct_dest p) = Ok P) pubs Ps /\ Forall2 (fun p C => decp E (ct_comm p) = Ok C) pubs Cs /\
    ch O = c1 /\ ch (length pubs) mod l = c1 mod l /\
    forall i, (i < length pubs)%nat ->
      let P := nth i Ps (pid E) in let C := nth i Cs (pid E) in let s := nth i ss 0 in
      ch (S i) = hs (CLSAG_round ++ keys ++ encp E offset ++ message ++
        encp E (clsag_L mu_P mu_C P C offset s (ch i)) ++
        encp E (clsag_R mu_P mu_C (Hp E (nth i (map ct_dest pubs) [])) I D s (ch i))).

(** ** Borromean range proof *)
(** 64 commitments which add up to C; the challenge is the hash of the points closing the 64 rings of two keys C_i, C_i - 2^i H *)
Definition psum (ps : list (pt E)) : pt E := fold_right (padd E) (pid E) ps.
Definition range_valid (C : pt E) (R : rangesig E) : Prop :=
  length (rs_Ci E R) = 64%nat /\ (64 <= length (rs_s0 E R))%nat /\ (64 <= length (rs_s1 E R))%nat /\
  psum (rs_Ci E R) = C /\
  rs_ee E R = hs (concat (map (fun i =>
    let Ci := nth i (rs_Ci E R) (pid E) in
    let L0 := padd E (smul E (Gb E) (nth i (rs_s0 E R) 0)) (smul E Ci (rs_ee E R)) in
    let Q := padd E Ci (pneg E (smul E (Hb E) (2 ^ Z.of_nat i))) in
    encp E (padd E (smul E (Gb E) (nth i (rs_s1 E R) 0)) (smul E Q (hs (encp E L0))))) (seq 0 64))).

(** ** Knowledge *)
(** two strings with the same hash scalar *)
Definition collision : Prop := exists x y, x <> y /\ hs x = hs y.
End S.

Section K.
Context (E : ecops).
(** the point closing ring [i] of a range proof, for an arbitrary challenge [ee] *)
Definition range_point (R : rangesig E) (i : nat) : pt E :=
  let Ci := nth i (rs_Ci E R) (pid E) in
  let L0 := padd E (smul E (Gb E) (nth i (rs_s0 E R) 0)) (smul E Ci (rs_ee E R)) in
  let Q := padd E Ci (pneg E (smul E (Hb E) (2 ^ Z.of_nat i))) in
  padd E (smul E (Gb E) (nth i (rs_s1 E R) 0)) (smul E Q (hs E (encp E L0))).
(** the key two answers s, s' to the challenges c, c' reveal: (s - s') / (c' - c) *)
Definition revealed (x s s' c c' : Z) : Prop := scalar x /\ (x * (c' - c)) mod l = (s - s') mod l.
End K.

Section R.
Context (E : ecops).
(** ring signature of one input: rows P and C - pseudo output *)
Definition simple_valid (message : list Z) (pubs : list ctkey) (pseudo : pt E) (mg : mgsig E) : Prop :=
  exists M, Forall2 (fun p col => exists P C, decp E (ct_dest p) = Ok P /\ decp E (ct_comm p) = Ok C /\
      col = [P; padd E C (pneg E pseudo)]) pubs M /\
    mlsag_valid E message M mg 1.
(** one ring signature for all inputs: the keys and, in the last row, inputs - outputs - fee *)
Definition full_valid (message : list Z) (pubs : list (list ctkey)) (out_pk : list (list Z)) (fee : pt E) (mg : mgsig E) : Prop :=
  exists Os M, Forall2 (fun o O => decp E o = Ok O) out_pk Os /\ hd [] pubs <> [] /\
    Forall2 (fun keys col => exists Ps Cs,
      Forall2 (fun p P => decp E (ct_dest p) = Ok P) keys Ps /\ Forall2 (fun p C => decp E (ct_comm p) = Ok C) keys Cs /\
      col = Ps ++ [padd E (psum E Cs) (pneg E (padd E (psum E Os) fee))]) pubs M /\
    mlsag_valid E message M mg (length (hd [] pubs)).
End R.
