(** Specification vocabulary for addresses, independent of the model. *)
From Verif Require Import Py Addr_model.

Inductive network := Main | Test | Stage.
Inductive kind := Standard | Integrated | Subaddress.

(** Monero's published address prefixes *)
Definition prefix_of (n : network) (k : kind) : Z :=
  match n, k with
  | Main, Standard => 18 | Main, Integrated => 19 | Main, Subaddress => 42
  | Test, Standard => 53 | Test, Integrated => 54 | Test, Subaddress => 63
  | Stage, Standard => 24 | Stage, Integrated => 25 | Stage, Subaddress => 36
  end.
Definition net_code (n : network) : Z := match n with Main => 0 | Test => 1 | Stage => 2 end.

(** a hash with digests of at least four bytes *)
Definition hash_like (cn : list Z -> list Z) : Prop :=
  forall m, bytes_ok (cn m) /\ (4 <= length (cn m))%nat.

(** Destinations that are not the change, each address once (first occurrence). *)
Fixpoint distinct_from (seen : list pubaddr) (change : option pubaddr) (ds : list dest) : list dest :=
  match ds with
  | [] => []
  | d :: t =>
      if existsb (addr_eqb (d_addr d)) (seen ++ match change with Some c => [c] | None => [] end)
      then distinct_from seen change t
      else d :: distinct_from (d_addr d :: seen) change t
  end.
Definition distinct_dests := distinct_from [].
