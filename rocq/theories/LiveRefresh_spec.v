(** What the agent wants to know about a key image it is given. *)
From Verif Require Import Py Digits Ints_model Ec_model Ec_spec.

(** the two points a proof (c, r) commits to, for output key P and key image I *)
Definition proof_G (E : ecops) (P : pt E) (c r : Z) : pt E := padd E (smul E P c) (smul E (Gb E) r).
Definition proof_H (E : ecops) (P I : pt E) (c r : Z) : pt E := padd E (smul E (Hp E (encp E P)) r) (smul E I c).
(** (c, r) proves that I and P have one secret: c is the hash of the message and of the two points *)
Definition image_proof (E : ecops) (message : list Z) (P I : pt E) (c r : Z) : Prop :=
  0 < c < l /\ 0 < r < l /\
  c = le_val 256 (hash E (message ++ encp E (proof_G E P c r) ++ encp E (proof_H E P I c r))) mod l.
(** the key shared by the owner of the view key and the device *)
Definition shared_key (hash : list Z -> list Z) (hmac : list Z -> list Z -> list Z) (view context salt : list Z) : list Z :=
  hmac salt (hash (hash (view ++ context))).
(** the key image of the one-time key with secret x *)
Definition image_of (E : ecops) (x : Z) : pt E := smul E (Hp E (encp E (smul E (Gb E) x))) x.
