(** What a host expects of the key commands of the lite device. *)
From Verif Require Import Py Digits Ints_model Protobuf_spec Ec_model Mlsag_model Lite_model LiteKeys_model.

(** AES: decryption undoes encryption, blocks have 16 bytes *)
Definition cipher_ok (B : block_cipher) : Prop := forall key b, length b = 16%nat -> length (bc_enc B key b) = 16%nat /\ bc_dec B key (bc_enc B key b) = b.
(** AES.MODE_CBC in the direction the code gets wrong: encryption *)
Fixpoint cbc_enc (f : list Z -> list Z) (prev : list Z) (n : nat) (d : list Z) : list Z :=
  match n with O => [] | S n => let c := f (xor16 (firstn 16 d) prev) in c ++ cbc_enc f c n (skipn 16 d) end.
Definition cbc_encrypt (B : block_cipher) (key plaintext iv : list Z) : res (list Z) :=
  if negb (Nat.eqb (Nat.modulo (length plaintext) 16) 0) then Err ValueError
  else Ok (cbc_enc (bc_enc B key) iv (Nat.div (length plaintext) 16) plaintext).
(** a secret of 32 bytes handed out under the session key is understood when it is handed back *)
Definition reads_back (K : lite_prims) (key : list Z) : Prop := forall d, length d = 32%nat ->
  exists c, aes_enc K key d (repeat 0 16) = Ok c /\ length c = 32%nat /\ aes_dec K key c (repeat 0 16) = Ok d.

(** a command: instruction, first parameter, data after the byte of options *)
Definition cmd (t : ltape) (ins p1 : Z) (data : list Z) : lcmd := {| c_tape := t; c_ins := ins; c_p1 := p1; c_p2 := 0; c_input := 0 :: data |}.
(** output indices are sent most significant byte first *)
Definition be4 (i : Z) : list Z := [i / 2 ^ 24; i / 2 ^ 16 mod 256; i / 2 ^ 8 mod 256; i mod 256].
(** placeholders for the wallet's own secrets *)
Definition own_view : list Z := repeat 0 32.
Definition own_spend : list Z := repeat 255 32.

Section S.
Context (E : ecops).
(** keys, address and session key are the same *)
Definition same_keys (s s' : lst E) : Prop :=
  l_a E s' = l_a E s /\ l_b E s' = l_b E s /\ l_A E s' = l_A E s /\ l_B E s' = l_B E s /\ l_address E s' = l_address E s /\ l_key E s' = l_key E s.
(** the shared secret of view key [a] with transaction key [R], and the scalar of output [i] *)
Definition shared_point (R : pt E) (a : Z) : pt E := smul E (smul E R a) 8.
Definition output_scalar (R : pt E) (a i : Z) : Z := hash_to_scalar E (encp E (shared_point R a) ++ varint i).
(** the device answers command [c] with success and [out] whatever happened since state [s], unless its keys were changed *)
Definition answers (K : lite_prims) (s : lst E) (c : lcmd) (out : list Z) : Prop :=
  forall history, Forall (fun x => c_ins x <> 0x22) history -> snd (dispatch E K c (fst (lrun E K history s))) = Ok (0x9000, out).
End S.
