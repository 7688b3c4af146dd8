(** What a purpose key is a hash of: 32 bytes of secret, the purpose's label, the
    index as a base-128 varint, zeros up to 48 bytes. *)
From Verif Require Import Py Protobuf_spec KeySep_model.

Definition is_input (secret label : list Z) (i : Z) (m : list Z) : Prop :=
  exists z, m = secret ++ label ++ varint i ++ repeat 0 z /\ length m = 48%nat.

(** the tags of a session are made with its authentication key; sealed values and masks with its encryption key *)
Definition secret_of (key_hmac key_enc : list Z) (p : purpose) : list Z :=
  match p with
  | HmacTxin | HmacTxinComm | HmacTxdst | HmacTxout | HmacTxoutAsig => key_hmac
  | EncTxinAlpha | EncSpend | EncCout | OutMask => key_enc
  end.
(** the labels, in ASCII: txin, txin-comm, txdest, txout, txout-asig, txin-alpha, txin-spend, cout, out-mask *)
Definition label_of (p : purpose) : list Z :=
  match p with
  | HmacTxin => [116; 120; 105; 110]
  | HmacTxinComm => [116; 120; 105; 110; 45; 99; 111; 109; 109]
  | HmacTxdst => [116; 120; 100; 101; 115; 116]
  | HmacTxout => [116; 120; 111; 117; 116]
  | HmacTxoutAsig => [116; 120; 111; 117; 116; 45; 97; 115; 105; 103]
  | EncTxinAlpha => [116; 120; 105; 110; 45; 97; 108; 112; 104; 97]
  | EncSpend => [116; 120; 105; 110; 45; 115; 112; 101; 110; 100]
  | EncCout => [99; 111; 117; 116]
  | OutMask => [111; 117; 116; 45; 109; 97; 115; 107]
  end.
