(** What a key matrix and its secrets are. *)
From Verif Require Import Py Digits Ints_model Ec_model Ec_spec Mlsag_model.

(** every row of the column is the public key of the corresponding secret *)
Definition column_keys (E : ecops) (col : list (pt E)) (xx : list Z) : Prop :=
  Forall2 (fun P x => scalar x /\ P = smul E (Gb E) x) col xx.

(** the key images of the first [ds] rows: x * Hp(P) *)
Definition key_images (E : ecops) (ds : nat) (col : list (pt E)) (xx : list Z) : list (pt E) :=
  map (fun px => smul E (Hp E (encp E (fst px))) (snd px)) (firstn ds (combine col xx)).

(** either no multisig data, or consistent data for a single row *)
Definition multisig_ok (E : ecops) (kl : option (klrki E)) (mscout : bool) (ds : nat) (col : list (pt E)) (xx : list Z) : Prop :=
  match kl with
  | None => mscout = false
  | Some k => mscout = true /\ ds = 1%nat /\ scalar (kl_k E k) /\
      kl_L E k = smul E (Gb E) (kl_k E k) /\
      (exists P, hd_error col = Some P /\ kl_R E k = smul E (Hp E (encp E P)) (kl_k E k)) /\
      [kl_ki E k] = key_images E 1 col xx
  end.

(** a Pedersen commitment [mask G + amount H] *)
Definition commit (E : ecops) (mask amount : Z) : pt E := padd E (smul E (Gb E) mask) (smul E (Hb E) amount).
Definition zsum (xs : list Z) : Z := fold_right Z.add 0 xs.
