(** Purpose keys of the signing session, /repo/monero_glue/protocol/tsx_sign_builder.py:268-343.
    [key_buffer] and [build_key] (the buffer of _build_key and its hash) are in Signer_model. *)
From Coq Require Import String Ascii.
From Verif Require Import Py Signer_model.

(** a Python byte-string literal *)
Definition lit (s : string) : list Z := map (fun a => Z.of_N (N_of_ascii a)) (list_ascii_of_string s).

(** the callers of _build_key *)
Inductive purpose := HmacTxin | HmacTxinComm | HmacTxdst | HmacTxout | HmacTxoutAsig
                   | EncTxinAlpha | EncSpend | EncCout | OutMask.
(** tsx_sign_builder.py:291-343 hmac_key_txin, hmac_key_txin_comm, hmac_key_txdst, hmac_key_txout,
    hmac_key_txout_asig, enc_key_txin_alpha, enc_key_spend, enc_key_cout, det_comm_masks (before decodeint):
    the secret and the discriminator each of them passes *)
Definition purpose_args (key_hmac key_enc : list Z) (p : purpose) : list Z * list Z :=
  match p with
  | HmacTxin => (key_hmac, lit "txin") | HmacTxinComm => (key_hmac, lit "txin-comm")
  | HmacTxdst => (key_hmac, lit "txdest") | HmacTxout => (key_hmac, lit "txout")
  | HmacTxoutAsig => (key_hmac, lit "txout-asig")
  | EncTxinAlpha => (key_enc, lit "txin-alpha") | EncSpend => (key_enc, lit "txin-spend")
  | EncCout => (key_enc, lit "cout") | OutMask => (key_enc, lit "out-mask")
  end.
(** the bytes hashed into the key of purpose [p], and the key; [index] None only for enc_key_cout() *)
Definition purpose_input (key_hmac key_enc : list Z) (p : purpose) (index : option Z) : res (list Z) :=
  let '(secret, disc) := purpose_args key_hmac key_enc p in key_buffer secret disc index.
Definition purpose_key (C : ops) (key_hmac key_enc : list Z) (p : purpose) (index : option Z) : res (list Z) :=
  let '(secret, disc) := purpose_args key_hmac key_enc p in build_key C secret disc index.
