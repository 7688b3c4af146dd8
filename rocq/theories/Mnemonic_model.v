(** Model of monero_glue/xmr/core/mnemonic.py:1637-1725.  A word is a list of
    character codes; the dictionary is a parameter [words], instantiated with
    the real list of Mnemonic_words.v in the properties. *)
From Verif Require Import Py B58Mnr_model.

(** mnemonic.py:1652-1655 mn_swap_endian_4byte *)
Definition mn_swap_endian_4byte (st : list Z) : list Z :=
  py_slice st 6 8 ++ py_slice st 4 6 ++ py_slice st 2 4 ++ py_slice st 0 2.

(** int(word, 16) on hexlify output *)
Definition int16 (s : list Z) : res Z :=
  foldM (fun a c => let* d := hex_digit c in Ok (a * 16 + d)) s 0.

(** "%08x" % x for x >= 0: at least 8 digits *)
Definition fmt08x (x : Z) : list Z :=
  let nd := Z.max 8 (Z.log2 x / 4 + 1) in
  map (fun i => hex_char (x / 16 ^ (nd - 1 - i) mod 16)) (zrange nd).

(** binascii.crc32 (library): reflected polynomial 0xEDB88320 *)
Fixpoint crc_bits (k : nat) (c : Z) : Z :=
  match k with
  | O => c
  | S k => crc_bits k (Z.lxor (Z.shiftr c 1) (if Z.odd c then 3988292384 else 0))
  end.
Definition crc32 (l : list Z) : Z :=
  Z.lxor (fold_left (fun c b => crc_bits 8 (Z.lxor c b)) l 4294967295) 4294967295.

(** w[:unique_prefix_len] if len(w) > unique_prefix_len else w; UNIQUE_PREFIX_LEN = 3, :6 *)
Definition trim (w : list Z) : list Z := if 3 <? zlen w then py_upto w 3 else w.

(** mnemonic.py:1703-1710 checksum_create *)
Definition checksum_create (wlist : list (list Z)) : res Z :=
  let acc := flat_map trim wlist in
  let crc := crc32 acc in
  if zlen wlist =? 0 then Err ZeroDivision else Ok (crc mod zlen wlist).

(** list.pop() *)
Definition pop {A} (l : list A) : res (A * list A) :=
  match rev l with [] => Err IndexError | x :: r => Ok (x, rev r) end.

(** mnemonic.py:1713-1725 checksum_test; the caller's list is shortened (pop on an
    alias), so the remaining list is returned too *)
Definition checksum_test (wlist : list (list Z)) : res (bool * list (list Z)) :=
  let* (last_word, ws) := pop wlist in
  let* i := checksum_create ws in
  let* checksum := py_get ws i in
  Ok (zlist_eqb (trim checksum) (trim last_word), ws).

(** range(0, len, 8) *)
Definition range8 (len : Z) : list Z := map (fun i => 8 * i) (zrange ((len + 7) / 8)).

Section Dict.
  Variable words : list (list Z).
  (** words[i] *)
  Definition word_at (i : Z) : res (list Z) := py_get words i.
  (** words.index(w) *)
  Fixpoint windex_from (l : list (list Z)) (w : list Z) (k : Z) : res Z :=
    match l with
    | [] => Err ValueError
    | h :: t => if zlist_eqb h w then Ok k else windex_from t w (k + 1)
    end.
  Definition windex (w : list Z) : res Z := windex_from words w 0.

  (** mnemonic.py:1663-1665 first loop of mn_encode *)
  Definition mn_swap_all (message : list Z) : list Z :=
    fold_left (fun message i =>
      py_slice message 0 i ++ mn_swap_endian_4byte (py_slice message i (i + 8)) ++ py_from message (i + 8))
      (range8 (zlen message)) message.

  (** mnemonic.py:1667-1673 second loop *)
  Definition mn_words_of (message : list Z) : res (list (list Z)) :=
    let n := zlen words in
    foldM (fun out i =>
      let word := py_slice message (8 * i) (8 * i + 8) in
      let* x := int16 word in
      let w1 := x mod n in
      let w2 := (x / n + w1) mod n in
      let w3 := (x / n / n + w2) mod n in
      let* a := word_at w1 in let* b := word_at w2 in let* c := word_at w3 in
      Ok (out ++ [a; b; c])) (zrange (zlen message / 8)) [].

  (** mnemonic.py:1658-1678 mn_encode *)
  Definition mn_encode (message : list Z) (checksum : bool) : res (list (list Z)) :=
    let* out := mn_words_of (mn_swap_all (hexlify message)) in
    if checksum then
      let* idx := checksum_create out in
      let* w := py_get out idx in
      Ok (out ++ [w])
    else Ok out.

  (** mnemonic.py:1681-1700 mn_decode; result is the hex text *)
  Definition mn_decode (wlist : list (list Z)) : res (list Z) :=
    let n := zlen words in
    let* wlist :=
      if n mod 3 =? 1 then
        let* (ok, ws) := checksum_test wlist in
        if ok then Ok (py_upto ws (-1)) else Err ValueError
      else Ok wlist in
    foldM (fun out i =>
      match py_slice wlist (3 * i) (3 * i + 3) with
      | [word1; word2; word3] =>
          let* w1 := windex word1 in let* w2 := windex word2 in let* w3 := windex word3 in
          let x := w1 + n * ((n + w2 - w1) mod n) + n * n * ((n + w3 - w2) mod n) in
          Ok (out ++ mn_swap_endian_4byte (fmt08x x))
      | _ => Err ValueError
      end) (zrange (zlen wlist / 3)) [].
End Dict.
