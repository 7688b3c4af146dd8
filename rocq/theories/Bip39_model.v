(** Word lists of BIP-0039: to_seed_words of monero_glue/misc/bip/bip32.py, from_mnemonics of
    monero_glue/xmr/sub/seed.py and bip39_deriv.py.  Text is a list of ASCII codes.
    PBKDF2 is a library function, arbitrary here. *)
From Verif Require Import Py Bip39_words Ints_model Ec_model Mlsag_model Bip32_model Seed_model.

(** list.index: position of the first equal element, else ValueError *)
Fixpoint index_of (x : list Z) (ws : list (list Z)) : res Z :=
  match ws with [] => Err ValueError | w :: ws => if zlist_eqb x w then Ok 0 else let* i := index_of x ws in Ok (i + 1) end.

Section B.
Context (O : bops) (cn_fast_hash : list Z -> list Z).
(** Crypto.Protocol.KDF.PBKDF2(password, salt, dkLen, prf, count) *)
Context (PBKDF2 : list Z -> list Z -> Z -> (list Z -> list Z -> list Z) -> Z -> list Z).

(** bip32.py:258-272: words and indices; None for a wallet made without a seed *)
Definition to_seed_words (w : wallet O) : res (option (list (list Z) * list Z)) :=
  match w_seed w with
  | None => Ok None
  | Some secret =>
      let indices := to_seed_indices (sha256 O) secret in
      let* ws := mapM (fun x => py_get english_words x) indices in
      Ok (Some (ws, indices))
  end.

(** b"mnemonic" *)
Definition mnemonic_salt : list Z := [109; 110; 101; 109; 111; 110; 105; 99].
(** bip39_deriv.py:7-15 *)
Definition mnemonics_to_seed (seed passphrase : list Z) : list Z := PBKDF2 seed (mnemonic_salt ++ passphrase) 64 (hmac512 O) 2048.

(** seed.py:96-114; the attributes [mnemonics] and [mnemonics_as_idx] are left out *)
Definition from_mnemonics (mnemonics : input) (as_index : bool) (passphrase : list Z) (path : option (list Z)) (slip0010 : bool) : res (derivation O) :=
  let mnems := clean_input mnemonics in
  let* seed :=
    if as_index then
      let* _ := guard (zlen passphrase =? 0) ValueError in
      let* indices := mapM (fun x => index_of x english_words) mnems in
      indices_to_bytes indices 11
    else Ok (mnemonics_to_seed (join_sp mnems) passphrase) in
  set_seed O cn_fast_hash seed path slip0010.
End B.
