(** Schnorr signatures (xmr/crypto.py) and ring signatures (xmr/ring_ct.py).
    Every [random_scalar()] of the code is an explicit argument. *)
From Verif Require Import Py Digits Ints_model Ec_model.

Section Sigs.
Context (E : ecops).
Local Notation pt := (pt E).

(** xmr/crypto.py:69-86; [k] is the random scalar drawn.  Result (c, r, pub). *)
Definition generate_signature (data : list Z) (priv k : Z) : Z * Z * pt :=
  let pub := scalarmult_base E priv in
  let comm := scalarmult_base E k in
  let buff := data ++ encp E pub ++ encp E comm in
  let c := hash_to_scalar E buff in
  let r := sc_mulsub priv c k in
  (c, r, pub).

(** xmr/crypto.py:89-107 *)
Definition check_signature (data : list Z) (c r : Z) (pub : pt) : res bool :=
  let* _ := guard ((sc_check c =? 0) && (sc_check r =? 0)) ValueError in
  let tmp2 := point_add E (scalarmult E pub c) (scalarmult_base E r) in
  let buff := data ++ encp E pub ++ encp E tmp2 in
  let tmp_c := hash_to_scalar E buff in
  let res := sc_sub tmp_c c in
  Ok (negb (sc_isnonzero res)).

(** xmr/monero.py:89-95: key image of the one-time key [public_key] (encoded) *)
Definition generate_key_image (public_key : list Z) (secret_key : Z) : pt :=
  scalarmult E (Hp E public_key) secret_key.

(** xmr/ring_ct.py:547-573: the loop over the ring.  [rnd i] are the two random
    scalars of iteration [i] (only the first one, [k], is drawn at the secret
    index).  The buffer is written from left to right 32 bytes at a time; here
    the strings are appended. *)
Fixpoint grs_loop (image : pt) (sec_idx : Z) (rnd : Z -> Z * Z) (pubs : list pt) (i : Z)
    (buff : list Z) (sum k : Z) (sig : list (Z * Z)) : list Z * Z * Z * list (Z * Z) :=
  match pubs with
  | [] => (buff, sum, k, sig)
  | P :: pubs =>
      if i =? sec_idx then
        let k := fst (rnd i) in
        let b1 := encp E (scalarmult_base E k) in
        let b2 := encp E (scalarmult E (Hp E (encp E P)) k) in
        grs_loop image sec_idx rnd pubs (i + 1) (buff ++ b1 ++ b2) sum k (sig ++ [(0, 0)])
      else
        let c := fst (rnd i) in
        let r := snd (rnd i) in
        let b1 := encp E (ge_double_scalarmult_base_vartime E c P r) in
        let b2 := encp E (ge_double_scalarmult_precomp_vartime E r (Hp E (encp E P)) c image) in
        grs_loop image sec_idx rnd pubs (i + 1) (buff ++ b1 ++ b2) (sc_add sum c) k (sig ++ [(c, r)])
  end.

(** xmr/ring_ct.py:519-579 *)
Definition generate_ring_signature (prefix_hash : list Z) (image : pt) (pubs : list pt) (sec sec_idx : Z)
    (test : bool) (rnd : Z -> Z * Z) : res (list (Z * Z)) :=
  let* _ :=
    if test then
      let* P := py_get pubs sec_idx in
      let* _ := guard (pt_eqb E (scalarmult_base E sec) P) ValueError in
      guard (pt_eqb E (generate_key_image (encp E P) sec) image) ValueError
    else Ok tt in
  let '(buff, sum, k, sig) := grs_loop image sec_idx rnd pubs 0 prefix_hash 0 0 [] in
  let h := hash_to_scalar E buff in
  let* _ := py_get sig sec_idx in
  let c := sc_sub h sum in
  let r := sc_mulsub c sec k in
  py_set sig sec_idx (c, r).

(** xmr/ring_ct.py:594-612: the verifier's loop; [None] stands for the early
    [return False] *)
Fixpoint crs_loop (image : pt) (pubs : list pt) (sig : list (Z * Z)) (buff : list Z) (sum : Z)
  : res (option (list Z * Z)) :=
  match pubs with
  | [] => Ok (Some (buff, sum))
  | P :: pubs =>
      match sig with
      | [] => Err IndexError
      | (c, r) :: sig =>
          if negb (sc_check c =? 0) || negb (sc_check r =? 0) then Ok None
          else
            let b1 := encp E (ge_double_scalarmult_base_vartime E c P r) in
            let b2 := encp E (ge_double_scalarmult_precomp_vartime E r (Hp E (encp E P)) c image) in
            crs_loop image pubs sig (buff ++ b1 ++ b2) (sc_add sum c)
      end
  end.

(** xmr/ring_ct.py:582-616 *)
Definition check_ring_signature (prefix_hash : list Z) (image : pt) (pubs : list pt) (sig : list (Z * Z)) : res bool :=
  let* o := crs_loop image pubs sig prefix_hash 0 in
  match o with
  | None => Ok false
  | Some (buff, sum) =>
      let h := sc_sub (hash_to_scalar E buff) sum in
      Ok (negb (sc_isnonzero h))
  end.
End Sigs.
