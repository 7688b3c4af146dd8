(** Encrypted containers (xmr/enc/chacha_poly.py, xmr/enc/chacha.py) and the transaction
    keys released at the end of signing (hwtoken/misc.py:61-75,
    protocol/tsx_sign_builder.py:1669-1699, agent/agent_lite.py:822-882,
    monero_glue_test/base_agent_test.py:288-294).
    The ciphers, CryptoNight and HMAC are library primitives: arbitrary functions here.
    Nonces and salts drawn at random are explicit arguments. *)
From Verif Require Import Py Digits Ints_model Ec_model Mlsag_model Rsig_model Sigs_model.

Record prims := {
  cn_slow : list Z -> list Z;                                            (* pycryptonight.cn_slow_hash *)
  chacha20 : list Z -> list Z -> list Z -> list Z;                       (* key, nonce, data *)
  aead_enc : list Z -> list Z -> list Z -> option (list Z) -> list Z;    (* key, nonce, plaintext, associated data *)
  aead_dec : list Z -> list Z -> list Z -> option (list Z) -> res (list Z);
  hmac : list Z -> list Z -> list Z;                                     (* key, message *)
}.

Section C.
Context (E : ecops) (K : prims).

(** ec_py.py:268-269 on bytes: 32 bytes are read, reduced *)
Definition decodeint (b : list Z) : res Z := if zlen b <? 32 then Err IndexError else Ok (dec_sc (firstn 32 b)).

(** chacha_poly.py:16-28 and 44-45; [nonce] is os.urandom(12) *)
Definition encrypt_pack (key plaintext nonce : list Z) (ad : option (list Z)) : list Z :=
  nonce ++ aead_enc K key nonce plaintext ad ++ [].
(** chacha_poly.py:30-41 and 48-49: associated data is always None *)
Definition decrypt_pack (key ciphertext : list Z) : res (list Z) :=
  aead_dec K key (py_upto ciphertext 12) (py_from ciphertext 12) None.

(** chacha.py:62-74; [nonce] is the 8 random bytes of the cipher object *)
Definition chacha_encrypt (key plaintext nonce : list Z) : list Z := nonce ++ chacha20 K key nonce plaintext.
(** chacha.py:77-86 *)
Definition chacha_decrypt (key ciphertext : list Z) : list Z := chacha20 K key (py_upto ciphertext 8) (py_from ciphertext 8).
(** chacha.py:19-36; [k] is the signature's random scalar *)
Definition encrypt_xmr (priv_key : Z) (plaintext nonce : list Z) (k : Z) (authenticated : bool) : list Z :=
  let key := cn_slow K (enc_sc priv_key) in
  let ciphertext := chacha_encrypt key plaintext nonce in
  if negb authenticated then ciphertext
  else
    let h := hash E ciphertext in
    let '(c, r, _) := generate_signature E h priv_key k in
    ciphertext ++ enc_sc c ++ enc_sc r.
(** chacha.py:39-59 *)
Definition decrypt_xmr (priv_key : Z) (ciphertext : list Z) (authenticated : bool) : res (list Z) :=
  let* ciphertext :=
    if authenticated then
      let signature := py_from ciphertext (-64) in
      let ciphertext := py_upto ciphertext (-64) in
      let h := hash E ciphertext in
      let pub := scalarmult_base E priv_key in
      let* c := decodeint (py_upto signature 32) in
      let* r := decodeint (py_from signature 32) in
      let* ok := check_signature E h c r pub in
      let* _ := guard ok ValueError in
      Ok ciphertext
    else Ok ciphertext in
  Ok (chacha_decrypt (cn_slow K (enc_sc priv_key)) ciphertext).

(** ec_py.py:210-216 *)
Definition keccak_2hash (x : list Z) : list Z := hash E (hash E x).
(** misc.py:61-75; [rsalt] and [rmult] are the random values used when none is given *)
Definition compute_tx_key (spend_key_private : Z) (tx_prefix_hash salt rand_mult rsalt : list Z) (rmult : Z) : res (list Z * list Z * list Z) :=
  let salt := if zlen salt =? 0 then rsalt else salt in
  let* (rand_mult_num, rand_mult) :=
    if zlen rand_mult =? 0 then Ok (rmult, enc_sc rmult) else let* n := decodeint rand_mult in Ok (n, rand_mult) in
  let rand_inp := sc_add spend_key_private rand_mult_num in
  let passwd := keccak_2hash (enc_sc rand_inp ++ tx_prefix_hash) in
  Ok (hmac K salt passwd, salt, rand_mult).
(** tsx_sign_builder.py:1669-1699: salt, rand_mult and tx_enc_keys of the final message *)
Definition final_keys (spend : Z) (tx_prefix_hash : list Z) (r : Z) (additional : list Z) (rsalt : list Z) (rmult : Z) (nonce : list Z)
  : res (list Z * list Z * list Z) :=
  match compute_tx_key spend tx_prefix_hash [] [] rsalt rmult with
  | Err e => Err e
  | Ok (tx_key, salt, rand_mult) =>
      let key_buff := enc_sc r ++ concat (map enc_sc additional) in
      Ok (salt, rand_mult, encrypt_pack tx_key key_buff nonce None)
  end.
(** xmr/common.py:192-201 *)
Fixpoint chunk_loop {A} (fuel : nat) (arr : list A) (size idx : Z) : res (list (list A)) :=
  match fuel with
  | O => Err OutOfFuel
  | S fuel =>
      let c := py_slice arr idx (idx + size) in
      if negb (zlen c =? size) then Ok [c]
      else let* cs := chunk_loop fuel arr size (idx + size) in Ok (c :: cs)
  end.
Definition chunk {A} (arr : list A) (size : Z) : res (list (list A)) := chunk_loop (S (length arr)) arr size 0.
(** base_agent_test.py:288-294: the owner's recovery *)
Definition recover_keys (spend : Z) (tx_prefix_hash salt rand_mult tx_enc_keys : list Z) : res (list Z) :=
  match compute_tx_key spend tx_prefix_hash salt rand_mult [] 0 with
  | Err e => Err e
  | Ok (tx_key, _, _) =>
      let* key_buff := decrypt_pack tx_key tx_enc_keys in
      let* cs := chunk key_buff 32 in
      mapM decodeint (filter (fun x => negb (zlen x =? 0)) cs)
  end.

(** agent_lite.py:876-882 *)
Definition compute_tx_key_host (view : Z) (tx_prefix_hash salt : list Z) : list Z :=
  hmac K salt (keccak_2hash (enc_sc view ++ tx_prefix_hash)).
(** agent_lite.py:844-862, on the device's answer (salt, tx_keys); the device side of this
    exchange is firmware, not in the repository *)
Definition agent_get_tx_key (view : Z) (tx_prefix_hash ack_salt ack_keys : list Z) : res (list Z) :=
  let* decr := decrypt_pack (compute_tx_key_host view tx_prefix_hash ack_salt) ack_keys in
  let* _ := guard (zlen decr mod 32 =? 0) ValueError in
  mapM (fun i => decodeint (py_slice decr (i * 32) ((i + 1) * 32))) (zrange (zlen decr / 32)).
End C.
