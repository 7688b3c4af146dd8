(** The cipher behind the secrets which the lite device hands to its host:
    monero_glue/xmr/enc/aescbc.py over AES as an arbitrary block cipher on 16 bytes. *)
From Verif Require Import Py Lite_model.

(** a block cipher: key, block *)
Record block_cipher := { bc_enc : list Z -> list Z -> list Z; bc_dec : list Z -> list Z -> list Z }.

(** AES.MODE_ECB: every block on its own; [n] the number of blocks *)
Fixpoint ecb (f : list Z -> list Z) (n : nat) (d : list Z) : list Z :=
  match n with O => [] | S n => f (firstn 16 d) ++ ecb f n (skipn 16 d) end.
Definition xor16 (a b : list Z) : list Z := map (fun xy => Z.lxor (fst xy) (snd xy)) (combine a b).
(** AES.MODE_CBC, decryption: every block is xored with the ciphertext block before it, the first one with the iv *)
Fixpoint cbc_dec (f : list Z -> list Z) (prev : list Z) (n : nat) (d : list Z) : list Z :=
  match n with O => [] | S n => xor16 (f (firstn 16 d)) prev ++ cbc_dec f (firstn 16 d) n (skipn 16 d) end.

(** aescbc.py:9-19: "Uses AES-CBC for encryption", but creates the cipher in ECB mode and hands it an iv.
    [strict]: the library refuses an iv in ECB mode (pycryptodome, TypeError); otherwise it ignores it (pycrypto). *)
Definition aes_encrypt (B : block_cipher) (strict : bool) (key plaintext iv : list Z) : res (list Z) :=
  if strict then Err TypeError
  else if negb (Nat.eqb (Nat.modulo (length plaintext) 16) 0) then Err ValueError
  else Ok (ecb (bc_enc B key) (Nat.div (length plaintext) 16) plaintext).
(** aescbc.py:22-31 *)
Definition aes_decrypt (B : block_cipher) (key ciphertext iv : list Z) : res (list Z) :=
  if negb (Nat.eqb (length iv) 16) then Err ValueError
  else if negb (Nat.eqb (Nat.modulo (length ciphertext) 16) 0) then Err ValueError
  else Ok (cbc_dec (bc_dec B key) iv (Nat.div (length ciphertext) 16) ciphertext).

(** the primitives of the lite device with this cipher *)
Definition aes_prims (B : block_cipher) (strict : bool) (sha256 : list Z -> list Z) (uvarint : list Z -> res Z) : lite_prims :=
  {| aes_enc := aes_encrypt B strict; aes_dec := aes_decrypt B; sha := sha256; read_uvarint := uvarint |}.
