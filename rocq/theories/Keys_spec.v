(** What a recipient does with a transaction, and what the key-agreement primitives must satisfy. *)
From Verif Require Import Py Addr_model Signer_model Extra_model Signer_spec KeySep_model.

(** Diffie-Hellman on the curve, and points that survive their encoding *)
Record dh_laws (C : ops) : Prop := {
  dh_base : forall a r, key_derivation C (smul_base C a) r = key_derivation C (smul_base C r) a;
  dh_point : forall D a r, key_derivation C (smul C D a) r = key_derivation C (smul C D r) a;
  dh_dec_base : forall r, dec_pt C (enc_pt C (smul_base C r)) = Ok (smul_base C r);
  dh_dec : forall x D k, dec_pt C x = Ok D -> dec_pt C (enc_pt C (smul C D k)) = Ok (smul C D k);
  dh_len : forall P, length (enc_pt C P) = 32%nat;
  dh_pid_len : forall p P r, length p = 8%nat -> length (encrypt_pid C p P r) = 8%nat;
}.

(** [s] is a shared secret that the holder of view secret [a] can compute for output [i] from the
    extra field of the transaction alone: from the transaction public key, or from the additional key
    at position [i] *)
Definition can_compute (C : ops) (ex : list Z) (a : Z) (i : nat) (s : pt C) : Prop :=
  exists fs, parse_extra_fields ex = Ok fs /\
    ((exists x R, In (FPub x) fs /\ dec_pt C x = Ok R /\ s = key_derivation C R a) \/
     (exists ks x K, In (FAdditional ks) fs /\ nth_error ks i = Some x /\ dec_pt C x = Ok K /\ s = key_derivation C K a)).

(** output [i] as the recipient with spend public key [D] recognises and opens it with secret [s]: the
    one-time key belongs to [D], the encoded amount and the commitment open to [amount] *)
Definition opens_output (C : ops) (c : cfg C) (i : nat) (o : output_ack) (D : pt C) (s : pt C) (amount : Z) : Prop :=
  exists mask, let key := derivation_to_sc C s (Z.of_nat i) in
    oa_tx_out o = [0; 2] ++ enc_pt C (derive_pub C s (Z.of_nat i) D) /\
    oa_out_pk o = enc_pt C (derive_pub C s (Z.of_nat i) D) ++ enc_pt C (gen_c C mask amount) /\
    oa_ecdh o = ecdh_bytes C c mask amount (enc_int C key) /\
    (is_det_mask C c = true -> mask = commitment_mask C (enc_int C key)).

(** the address of destination [e] belongs to view secret [a] and spend public key [D] *)
Definition address_of (C : ops) (e : dst_entry) (a : Z) (D : pt C) : Prop :=
  dec_pt C (spend_public_key (de_addr e)) = Ok D /\
  dec_pt C (view_public_key (de_addr e)) = Ok (if truthy (de_is_subaddress e) then smul C D a else smul_base C a).

(** [P] is the transaction public key of the private key [r]: r*G, or r*D for the spend key [D] of a
    sub-address paid by the transaction *)
Definition pub_of (C : ops) (d : tsx_data) (r : Z) (P : pt C) : Prop :=
  P = smul_base C r \/
  exists e D, In e (td_outputs d) /\ truthy (de_is_subaddress e) = true /\ dec_pt C (spend_public_key (de_addr e)) = Ok D /\ P = smul C D r.
(** [P] is the additional public key of the private key [k] for destination [e] *)
Definition add_pub_of (C : ops) (e : dst_entry) (k : Z) (P : pt C) : Prop :=
  if truthy (de_is_subaddress e) then exists D, dec_pt C (spend_public_key (de_addr e)) = Ok D /\ P = smul C D k else P = smul_base C k.

(** the two kinds of use of the purpose keys: a tag over [m], and a sealed plaintext *)
Definition tagged (C : ops) (c : cfg C) (p : purpose) (i : Z) (m tag : list Z) : Prop :=
  exists k, purpose_key C (c_key_hmac C c) (c_key_enc C c) p (Some i) = Ok k /\ tag = hmac C k m.
Definition sealed (C : ops) (c : cfg C) (p : purpose) (i : Z) (nonce plain ct : list Z) : Prop :=
  exists k, purpose_key C (c_key_hmac C c) (c_key_enc C c) p (Some i) = Ok k /\ ct = aead_enc C k nonce plain.
Definition unsealed (C : ops) (c : cfg C) (p : purpose) (i : Z) (ct plain : list Z) : Prop :=
  exists k, purpose_key C (c_key_hmac C c) (c_key_enc C c) p (Some i) = Ok k /\ aead_dec C k ct = Ok plain.
