(** Model of monero_glue/misc/b58.py (Bitcoin base58 and base58check).
    sha256 is a parameter. *)
From Verif Require Import Py.
From Verif Require B58Mnr_model.

(** b58.py:21 alphabet (same symbols as b58_mnr.py:20) *)
Definition alphabet : list Z := B58Mnr_model.alphabet.

(** b58.py:51-53, loop of b58encode_int: prepends alphabet[idx:idx+1] *)
Fixpoint encode_int_loop (fuel : nat) (i : Z) (string : list Z) : res (list Z) :=
  if i =? 0 then Ok string
  else match fuel with
       | O => Err OutOfFuel
       | S fuel =>
           let idx := i mod 58 in
           encode_int_loop fuel (i / 58) (py_slice alphabet idx (idx + 1) ++ string)
       end.
(** b58.py:46-54 b58encode_int *)
Definition b58encode_int (i : Z) (default_one : bool) : res (list Z) :=
  if (i =? 0) && default_one then Ok (py_slice alphabet 0 1)
  else encode_int_loop (S (Z.to_nat (Z.log2 i))) i [].

(** bytes.lstrip(c) for a single character *)
Fixpoint lstrip (c : Z) (v : list Z) : list Z :=
  match v with
  | [] => []
  | x :: t => if x =? c then lstrip c t else v
  end.

(** b58.py:57-73 b58encode (argument already bytes; scrub_input:34-43 is the identity on bytes) *)
Definition b58encode (v : list Z) : res (list Z) :=
  let nPad := zlen v in
  let v := lstrip 0 v in
  let nPad := nPad - zlen v in
  let '(_, acc) := fold_left (fun '(p, acc) c => (Z.shiftl p 8, acc + p * c)) (rev v) (1, 0) in
  let* result := b58encode_int acc false in
  Ok (concat (repeat (py_slice alphabet 0 1) (Z.to_nat nPad)) ++ result).

(** b58.py:76-84 b58decode_int *)
Definition b58decode_int (v : list Z) : res Z :=
  foldM (fun decimal c => let* i := py_index alphabet c in Ok (decimal * 58 + i)) v 0.

(** b58.py:99-101, loop of b58decode (result.append(mod)) *)
Fixpoint decode_bytes_loop (fuel : nat) (acc : Z) (result : list Z) : res (list Z) :=
  if acc >? 0 then
    match fuel with
    | O => Err OutOfFuel
    | S fuel => decode_bytes_loop fuel (acc / 256) (result ++ [acc mod 256])
    end
  else Ok result.

(** b58.py:87-103 b58decode *)
Definition b58decode (v : list Z) : res (list Z) :=
  let origlen := zlen v in
  let* a0 := py_get alphabet 0 in
  let v := lstrip a0 v in
  let newlen := zlen v in
  let* acc := b58decode_int v in
  let* result := decode_bytes_loop (S (Z.to_nat (Z.log2 acc))) acc [] in
  Ok (repeat 0 (Z.to_nat (origlen - newlen)) ++ rev result).

Section Hash.
  Variable sha256 : list Z -> list Z.
  (** b58.py:106-110 b58encode_check *)
  Definition b58encode_check (v : list Z) : res (list Z) :=
    let digest := sha256 (sha256 v) in
    b58encode (v ++ py_upto digest 4).
  (** b58.py:113-123 b58decode_check *)
  Definition b58decode_check (v : list Z) : res (list Z) :=
    let* result := b58decode v in
    let check := py_from result (-4) in
    let result := py_upto result (-4) in
    let digest := sha256 (sha256 result) in
    if zlist_eqb check (py_upto digest 4) then Ok result else Err ValueError.
End Hash.
