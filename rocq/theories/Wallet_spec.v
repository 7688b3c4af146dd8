(** Addresses and payments, independent of the code's helpers. *)
From Coq Require Import String Ascii.
From Verif Require Import Py Digits Ints_model Ec_model Ec_spec Sigs_spec Mlsag_model Mlsag_spec Wallet_model.

(** the hash returns 32 bytes *)
Definition hash_bytes (E : ecops) : Prop := forall x, length (hash E x) = 32%nat /\ bytes_ok (hash E x).
Definition u32 (v : Z) : Prop := 0 <= v < 2 ^ 32.

(** the offset of sub-address (major, minor): zero for the main address, else
    Hs("SubAddr" 0 a major minor) with 4-byte little-endian indices *)
Definition sub_scalar (E : ecops) (view major minor : Z) : Z :=
  if (major =? 0) && (minor =? 0) then 0 else
  hash_to_scalar E (ascii_bytes "SubAddr" ++ [0] ++ le_digits 256 32 view ++ le_digits 256 4 major ++ le_digits 256 4 minor).
(** spend secret and public address keys of a sub-address of the wallet (view, spend) *)
Definition sub_secret (E : ecops) (view spend major minor : Z) : Z := (spend + sub_scalar E view major minor) mod l.
Definition sub_D (E : ecops) (view spend major minor : Z) : pt E := smul E (Gb E) (sub_secret E view spend major minor).
(** the view key of an address: a times its spend key (for the main address a G) *)
Definition sub_C (E : ecops) (view spend major minor : Z) : pt E :=
  if (major =? 0) && (minor =? 0) then smul E (Gb E) view else smul E (sub_D E view spend major minor) view.

Definition wallet (E : ecops) (view spend : Z) : creds E :=
  {| cr_view := view; cr_spend := spend; cr_spend_pub := smul E (Gb E) spend; cr_multisig := false |}.
(** every entry of the table is the encoded spend key of the sub-address it names *)
Definition table_sound (E : ecops) (view spend : Z) (d : subaddrs) : Prop :=
  forall k M m, sa_get k d = Some (M, m) -> u32 M /\ u32 m /\ k = encp E (sub_D E view spend M m).
(** the table knows the address *)
Definition table_has (E : ecops) (view spend : Z) (d : subaddrs) (M m : Z) : Prop :=
  sa_get (encp E (sub_D E view spend M m)) d <> None.

(** the address of the wallet as a destination *)
Definition dest_of (E : ecops) (view spend M m : Z) (change : bool) : dest E :=
  {| ds_spend := sub_D E view spend M m; ds_view := sub_C E view spend M m; ds_sub := negb ((M =? 0) && (m =? 0)); ds_change := change |}.
(** what the sender publishes for output [i] to that address: the tx key R and the
    additional keys, from the secrets r (tx) and s (this output) *)
Definition published (E : ecops) (need_additional : bool) (dst : dest E) (r s i : Z) (R : pt E) (adds : list (pt E)) : Prop :=
  (need_additional = false -> adds = []) /\
  (need_additional = true -> 0 <= i /\ nth_error adds (Z.to_nat i) = additional_key E true dst s) /\
  (ds_change E dst = false ->
     if ds_sub E dst then need_additional = false -> R = smul E (ds_spend E dst) r else R = smul E (Gb E) r).
