(** What the lite protocol promises, in terms of the bytes of the commands. *)
From Verif Require Import Py Digits Ints_model Ec_model Mlsag_model Mlsag_spec Lite_model.

(** the 32 bytes at offset [n] of a command; the first byte of a command holds the options, bit 0x80 announcing more commands of the kind *)
Definition key_at (n : nat) (c : lcmd) : list Z := firstn 32 (skipn n (c_input c)).
Definition more (c : lcmd) : bool := negb (Z.land (nth 0 (c_input c) 0) 0x80 =? 0).
Definition validate (step : Z) (c : lcmd) : Prop := c_ins c = 0x7C /\ c_p1 c = step.
(** an output is announced by: options, sub-address flag, view and spend key of the destination, encrypted shared secret, commitment, blinded mask, blinded amount *)
Definition out_view (c : lcmd) := key_at 2 c.
Definition out_spend (c : lcmd) := key_at 34 c.
Definition out_secret (c : lcmd) := key_at 66 c.
Definition out_commitment (c : lcmd) := key_at 98 c.
Definition out_mask (c : lcmd) := key_at 130 c.
Definition out_amount (c : lcmd) := key_at 162 c.

Section Spec.
Context (E : ecops) (K : lite_prims).
(** the shared secret under the session key *)
Definition shared (key : list Z) (c : lcmd) (secret : list Z) : Prop := aes_dec K key (out_secret c) (repeat 0 16) = Ok secret.
(** taking the blinding off: mask - Hs(secret), amount - Hs(Hs(secret)) *)
Definition plain_mask (secret blinded : list Z) : Z := (le_val 256 blinded mod l - hash_to_scalar E secret) mod l.
Definition plain_amount (secret blinded : list Z) : Z := (le_val 256 blinded mod l - hash_to_scalar E (enc_sc (hash_to_scalar E secret))) mod l.
(** the announced output [c] has mask [k] and amount [v], and they open its commitment *)
Definition opened (key : list Z) (c : lcmd) (secret : list Z) (k v : Z) : Prop :=
  shared key c secret /\ k = plain_mask secret (out_mask c) /\ v = plain_amount secret (out_amount c) /\
  decp E (out_commitment c) = Ok (commit E k v).
(** what the user sees of it: nothing if it goes back to the wallet's own address (A, B) *)
Definition asked (A B : pt E) (c : lcmd) (v : Z) (shown : list (pt E * pt E * Z * bool)) : Prop :=
  exists P Q, decp E (out_view c) = Ok P /\ decp E (out_spend c) = Ok Q /\
    ((P = A /\ Q = B /\ shown = []) \/ (~ (P = A /\ Q = B) /\ shown = [(P, Q, v, negb (Z.land (nth 1 (c_input c) 0) 255 =? 0))])).
End Spec.
