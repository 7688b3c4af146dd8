(** MLSAG and CLSAG signatures: xmr/mlsag2.py.  Random scalars are explicit
    arguments.  [index], [dsRows] and the dimensions are natural numbers (all
    call sites pass non-negative values). *)
From Verif Require Import Py Digits Ints_model Protobuf_spec Ec_model.

Definition getn {A} (l : list A) (i : nat) : res A :=
  match nth_error l i with Some x => Ok x | None => Err IndexError end.

(** mlsag2.py:325-350 and 741-770: [i = (index + 1) % cols], then
    [while i != index]: the row of random scalars of column [i] is drawn and
    stored, the challenge [c] is replaced by the one computed from column [i],
    and the challenge entering column 0 is recorded.  [g i c] is the hash of
    column [i] with incoming challenge [c]; [row i] the random row. *)
Fixpoint ring_loop {R} (fuel : nat) (g : nat -> Z -> res Z) (row : nat -> R) (n index i : nat) (c : Z) (cc : option Z)
    (ss : list R) : res (Z * option Z * list R) :=
  if (i =? index)%nat then Ok (c, cc, ss) else
  match fuel with
  | O => Err OutOfFuel
  | S fuel =>
      let ss := upd ss i (row i) in
      let* c := g i c in
      let i := ((i + 1) mod n)%nat in
      let cc := if (i =? 0)%nat then Some c else cc in
      ring_loop fuel g row n index i c cc ss
  end.

Section Mlsag.
Context (E : ecops).
Local Notation pt := (pt E).

(** multisig input (k, L, R, ki): kLRki *)
Record klrki := { kl_k : Z; kl_L : pt; kl_R : pt; kl_ki : pt }.
(** MgSig: ss, cc, II *)
Record mgsig := { mg_ss : list (list Z); mg_cc : Z; mg_II : list pt }.

(** mlsag2.py:214-246; [mscout] is whether a callback is given *)
Definition gen_mlsag_assert (pk : list (list pt)) (xx : list Z) (kl : option klrki) (mscout : bool) (index dsRows : nat) : res (nat * nat) :=
  let cols := length pk in
  let* _ := guard (negb (cols <=? 1)%nat) ValueError in
  let* _ := guard (negb (cols <=? index)%nat) ValueError in
  let* pk0 := getn pk 0 in
  let rows := length pk0 in
  let* _ := guard (negb (rows =? 0)%nat) ValueError in
  let* _ := guard (forallb (fun col => (length col =? rows)%nat) pk) ValueError in
  let* _ := guard (length xx =? rows)%nat ValueError in
  let* _ := guard (negb (rows <? dsRows)%nat) ValueError in
  let haskl := match kl with Some _ => true | None => false end in
  let* _ := guard (negb ((negb haskl || negb mscout) && (haskl || mscout))) ValueError in
  let* _ := guard (negb (haskl && negb (dsRows =? 1)%nat)) ValueError in
  Ok (rows, cols).

(** mlsag2.py:269-299: the column of the secret keys; rows below [ds] contribute
    the key, aG and aHp(P), the others the key and aG.  [al] are the random
    nonces.  Result: string to hash, key images, nonces. *)
Fixpoint gen_rows (pks : list pt) (xx al : list Z) (kl : option klrki) (ds : nat) : list Z * list pt * list Z :=
  match pks, xx, al with
  | P :: pks, x :: xx, a :: al =>
      match ds with
      | S ds =>
          let '(b, II, alpha) := gen_rows pks xx al kl ds in
          match kl with
          | Some k => (encp E P ++ encp E (kl_L k) ++ encp E (kl_R k) ++ b, kl_ki k :: II, kl_k k :: alpha)
          | None =>
              let Hi := Hp E (encp E P) in
              let aGi := scalarmult_base E a in
              let aHPi := scalarmult E Hi a in
              (encp E P ++ encp E aGi ++ encp E aHPi ++ b, scalarmult E Hi x :: II, a :: alpha)
          end
      | O =>
          let '(b, II, alpha) := gen_rows pks xx al kl O in
          (encp E P ++ encp E (scalarmult_base E a) ++ b, II, a :: alpha)
      end
  | _, _, _ => ([], [], [])
  end.

(** mlsag2.py:331-345 (generation) and 420-433 (verification), the body of the
    column loop: row [j] below [len(II)] hashes P, L = sG + cP and R = sHp(P) + cI,
    the other rows P and L *)
Fixpoint round_bytes (c : Z) (pks : list pt) (ss : list Z) (II : list pt) : list Z :=
  match pks, ss with
  | P :: pks, s :: ss =>
      let L := add_keys2 E s c P in
      match II with
      | Im :: II =>
          let R := add_keys3 E s (Hp E (encp E P)) c Im in
          encp E P ++ encp E L ++ encp E R ++ round_bytes c pks ss II
      | [] => encp E P ++ encp E L ++ round_bytes c pks ss []
      end
  | _, _ => []
  end.

(** mlsag2.py:302-362.  [al] are the nonces of the secret column, [rnd i] the
    random scalars of column [i].  The result is (rv, c). *)
Definition gen_mlsag_ext (message : list Z) (pk : list (list pt)) (xx : list Z) (kl : option klrki) (mscout : bool)
    (index dsRows : nat) (al : list Z) (rnd : nat -> list Z) : res (mgsig * Z) :=
  let* (rows, cols) := gen_mlsag_assert pk xx kl mscout index dsRows in
  let* pki := getn pk index in
  let '(b, II, alpha) := gen_rows pki xx al kl dsRows in
  let c_old := hash_to_scalar E (message ++ b) in
  let i := ((index + 1) mod cols)%nat in
  let cc := if (i =? 0)%nat then Some c_old else None in
  let g := fun i c => let* pki := getn pk i in Ok (hash_to_scalar E (message ++ round_bytes c pki (rnd i) II)) in
  let* (st, ss) := ring_loop cols g rnd cols index i c_old cc (repeat [] cols) in
  let '(c, cc) := st in
  let ss := upd ss index (map (fun xa => sc_mulsub c (fst xa) (snd xa)) (combine xx alpha)) in
  match cc with
  | None => Err AttributeError
  | Some cc => Ok ({| mg_ss := ss; mg_cc := cc; mg_II := II |}, c)
  end.

(** mlsag2.py:365-395 *)
Definition ver_mlsag_assert (pk : list (list pt)) (rv : mgsig) (dsRows : nat) : res (nat * nat) :=
  let cols := length pk in
  let* _ := guard (negb (cols <? 2)%nat) ValueError in
  let* pk0 := getn pk 0 in
  let rows := length pk0 in
  let* _ := guard (negb (rows =? 0)%nat) ValueError in
  let* _ := guard (forallb (fun col => (length col =? rows)%nat) pk) ValueError in
  let* _ := guard (length (mg_II rv) =? dsRows)%nat ValueError in
  let* _ := guard (length (mg_ss rv) =? cols)%nat ValueError in
  let* _ := guard (forallb (fun s => (length s =? rows)%nat) (mg_ss rv)) ValueError in
  let* _ := guard (negb (rows <? dsRows)%nat) ValueError in
  Ok (rows, cols).

(** mlsag2.py:398-441 *)
Definition ver_mlsag_ext (message : list Z) (pk : list (list pt)) (rv : mgsig) (dsRows : nat) : res bool :=
  let* _ := ver_mlsag_assert pk rv dsRows in
  let c := fold_left (fun c ps => hash_to_scalar E (message ++ round_bytes c (fst ps) (snd ps) (mg_II rv)))
             (combine pk (mg_ss rv)) (mg_cc rv) in
  Ok (negb (sc_isnonzero (sc_sub c (mg_cc rv)))).

(** CtKey with encoded points (dest, commitment) and with scalars (dest, mask) *)
Record ctkey := { ct_dest : list Z; ct_comm : list Z }.
Record sctkey := { sk_dest : Z; sk_mask : Z }.

(** mlsag2.py:538-546 and 607-611: the two-row matrix of the simple variant *)
Definition simple_matrix (pubs : list ctkey) (cout : pt) : res (list (list pt)) :=
  mapM (fun p => let* d := decp E (ct_dest p) in let* c := decp E (ct_comm p) in Ok [d; point_sub E c cout]) pubs.

(** mlsag2.py:515-548.  The condition on kLRki/mscout (line 535) can never hold. *)
Definition prove_rct_mg_simple (message : list Z) (pubs : list ctkey) (in_sk : sctkey) (a : Z) (cout : pt)
    (kl : option klrki) (mscout : bool) (index : nat) (al : list Z) (rnd : nat -> list Z) : res (mgsig * Z) :=
  let* _ := guard (negb (length pubs =? 0)%nat) ValueError in
  let sk := [sk_dest in_sk; sc_sub (sk_mask in_sk) a] in
  let* M := simple_matrix pubs cout in
  gen_mlsag_ext message M sk kl mscout index 1 al rnd.

(** mlsag2.py:594-613 *)
Definition ver_rct_mg_simple (message : list Z) (mg : mgsig) (pubs : list ctkey) (C : pt) : res bool :=
  let* _ := guard (negb (length pubs =? 0)%nat) ValueError in
  let* M := simple_matrix pubs C in
  ver_mlsag_ext message M mg 1.

(** mlsag2.py:483-505 and 575-589: one column of the full variant: the keys and,
    in the last row, sum of the commitments - sum of the output commitments -
    fee.  (The verifier adds the commitments in the other loop order, column by
    column the same sum.) *)
Definition full_column (col : list ctkey) (out_pk : list (list Z)) (fee_key : pt) : res (list pt) :=
  let* (ds, sum) := foldM (fun (s : list pt * pt) p =>
      let* d := decp E (ct_dest p) in
      let* c := decp E (ct_comm p) in
      Ok (fst s ++ [d], point_add E (snd s) c)) col ([], pid E) in
  let* sum := foldM (fun s o => let* m := decp E o in Ok (point_sub E s m)) out_pk sum in
  Ok (ds ++ [point_sub E sum fee_key]).

(** mlsag2.py:463-475 and 563-570 *)
Definition full_assert (pubs : list (list ctkey)) : res nat :=
  let* _ := guard (negb (length pubs =? 0)%nat) ValueError in
  let* p0 := getn pubs 0 in
  let rows := length p0 in
  let* _ := guard (negb (rows =? 0)%nat) ValueError in
  let* _ := guard (forallb (fun c => (length c =? rows)%nat) pubs) ValueError in
  Ok rows.

(** mlsag2.py:444-512; [out_sk] are the masks of the outputs, [out_pk] their
    encoded commitments *)
Definition prove_rct_mg (message : list Z) (pubs : list (list ctkey)) (in_sk : list sctkey) (out_sk : list Z)
    (out_pk : list (list Z)) (kl : option klrki) (mscout : bool) (index : nat) (fee_key : pt)
    (al : list Z) (rnd : nat -> list Z) : res (mgsig * Z) :=
  let* rows := full_assert pubs in
  let* _ := guard (length in_sk =? rows)%nat ValueError in
  let* _ := guard (length out_sk =? length out_pk)%nat ValueError in
  let* M := mapM (fun col => full_column col out_pk fee_key) pubs in
  let last := fold_left (fun s k => sc_add s (sk_mask k)) in_sk 0 in
  let last := fold_left sc_sub out_sk last in
  gen_mlsag_ext message M (map sk_dest in_sk ++ [last]) kl mscout index rows al rnd.

(** mlsag2.py:551-591 *)
Definition ver_rct_mg (mg : mgsig) (pubs : list (list ctkey)) (out_pk : list (list Z)) (fee_key : pt) (message : list Z) : res bool :=
  let* rows := full_assert pubs in
  let* M := mapM (fun col => full_column col out_pk fee_key) pubs in
  ver_mlsag_ext message M mg rows.

(** ** CLSAG *)
(** mlsag2.py:23-25: the domain strings, ASCII padded with zeros to 32 bytes *)
Definition clsag_pad (s : list Z) : list Z := s ++ repeat 0 (32 - length s).
Definition HASH_KEY_CLSAG_ROUND : list Z := clsag_pad [67; 76; 83; 65; 71; 95; 114; 111; 117; 110; 100].
Definition HASH_KEY_CLSAG_AGG_0 : list Z := clsag_pad [67; 76; 83; 65; 71; 95; 97; 103; 103; 95; 48].
Definition HASH_KEY_CLSAG_AGG_1 : list Z := clsag_pad [67; 76; 83; 65; 71; 95; 97; 103; 103; 95; 49].

(** mlsag2.py:686-707 and 792-814: domain, P, C, I, D, C_offset *)
Definition clsag_agg (domain : list Z) (P C : list (list Z)) (I D offset : list Z) : Z :=
  hash_to_scalar E (domain ++ concat P ++ concat C ++ I ++ D ++ offset).
(** mlsag2.py:710-717 and 817-824: domain, P, C, C_offset, message *)
Definition clsag_round_prefix (P C : list (list Z)) (offset message : list Z) : list Z :=
  HASH_KEY_CLSAG_ROUND ++ concat P ++ concat C ++ offset ++ message.

(** mlsag2.py:744-763 and 832-849: one member, L = sG + c_p P + c_c (C - offset),
    R = s Hp(P) + c_p I + c_c D *)
Definition clsag_step (prefix : list Z) (mu_P mu_C : Z) (I D8 Cout : pt) (P C : list Z) (s c : Z) : res Z :=
  let c_p := sc_mul mu_P c in
  let c_c := sc_mul mu_C c in
  let* Pp := decp E P in
  let* Cp := decp E C in
  let L := point_add E (add_keys2 E s c_p Pp) (scalarmult E (point_sub E Cp Cout) c_c) in
  let R := point_add E (add_keys3 E s (Hp E P) c_p I) (scalarmult E D8 c_c) in
  Ok (hash_to_scalar E (prefix ++ encp E L ++ encp E R)).

(** encodeint (ec_py.py:283, ed25519_2.py:197-201) of a reduced scalar *)
Definition enc_sc (v : Z) : list Z := le_digits 256 32 v.

(** mlsag2.py:659-782; [a] is the nonce, [rnd i] the scalar of member [i] *)
Definition generate_clsag (message : list Z) (P : list (list Z)) (p : Z) (C : list (list Z)) (z : Z) (Cout : pt)
    (index : nat) (mg_buff : list (list Z)) (a : Z) (rnd : nat -> Z) : res (list (list Z)) :=
  let n := length P in
  let* Pi := getn P index in
  let H := Hp E Pi in
  let sI := scalarmult E H p in
  let D := scalarmult E H z in
  let sD := encp E (scalarmult E H (sc_mul z inv_eight)) in
  let offset := encp E Cout in
  let mu_P := clsag_agg HASH_KEY_CLSAG_AGG_0 P C (encp E sI) sD offset in
  let mu_C := clsag_agg HASH_KEY_CLSAG_AGG_1 P C (encp E sI) sD offset in
  let prefix := clsag_round_prefix P C offset message in
  let c := hash_to_scalar E (prefix ++ encp E (scalarmult_base E a) ++ encp E (scalarmult E H a)) in
  let i := ((index + 1) mod n)%nat in
  let sc1 := if (i =? 0)%nat then Some c else Some 0 in
  let g := fun i c => let* Pi := getn P i in let* Ci := getn C i in clsag_step prefix mu_P mu_C sI D Cout Pi Ci (rnd i) c in
  let* (st, ss) := ring_loop n g (fun i => enc_sc (rnd i)) n index i c sc1 (repeat (repeat 0 32) n) in
  let '(c, sc1) := st in
  let t := sc_mul mu_P p in
  let t := sc_muladd mu_C z t in
  let t := sc_mulsub c t a in
  let ss := upd ss index (enc_sc t) in
  match sc1 with
  | None => Err AttributeError
  | Some sc1 => Ok (mg_buff ++ varint (Z.of_nat n) :: ss ++ [enc_sc sc1; sD])
  end.

(** mlsag2.py:616-656 (the caller's list of ring members is overwritten with
    None, line 651; not modelled) *)
Definition generate_clsag_simple (message : list Z) (pubs : list ctkey) (in_sk : sctkey) (a : Z) (cout : pt)
    (index : nat) (mg_buff : list (list Z)) (nonce : Z) (rnd : nat -> Z) : res (list (list Z)) :=
  let* _ := guard (negb (length pubs =? 0)%nat) ValueError in
  generate_clsag message (map ct_dest pubs) (sk_dest in_sk) (map ct_comm pubs) (sc_sub (sk_mask in_sk) a) cout index mg_buff nonce rnd.

(** mlsag2.py:826-851: the verifier's loop; the list of responses may be too short *)
Fixpoint clsag_ver_loop (prefix : list Z) (mu_P mu_C : Z) (I D8 Cout : pt) (pubs : list ctkey) (ss : list Z) (c : Z) : res Z :=
  match pubs with
  | [] => Ok c
  | p :: pubs =>
      match ss with
      | [] => Err IndexError
      | s :: ss =>
          let* c := clsag_step prefix mu_P mu_C I D8 Cout (ct_dest p) (ct_comm p) s c in
          clsag_ver_loop prefix mu_P mu_C I D8 Cout pubs ss c
      end
  end.
(** mlsag2.py:785-854: raises ValueError unless the ring closes *)
Definition verify_clsag (msg : list Z) (ss : list Z) (sc1 : Z) (sI sD : pt) (pubs : list ctkey) (C_offset : pt) : res unit :=
  let D_8 := point_mul8 E sD in
  let offset := encp E C_offset in
  let P := map ct_dest pubs in
  let C := map ct_comm pubs in
  let mu_P := clsag_agg HASH_KEY_CLSAG_AGG_0 P C (encp E sI) (encp E sD) offset in
  let mu_C := clsag_agg HASH_KEY_CLSAG_AGG_1 P C (encp E sI) (encp E sD) offset in
  let prefix := clsag_round_prefix P C offset msg in
  let* c := clsag_ver_loop prefix mu_P mu_C sI D_8 C_offset pubs ss sc1 in
  guard (sc_sub c sc1 =? 0) ValueError.
End Mlsag.
