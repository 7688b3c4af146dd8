(** What the file functions rely on, and which key data can be stored. *)
From Verif Require Import Py Digits Ints_model Ec_model Ec_spec Sigs_model Sigs_spec Mlsag_model Container_model Container_proof Files_model.

(** [p] occurs in [s] *)
Definition occurs (p s : list Z) : Prop := exists u v, s = u ++ p ++ v.
(** escaping works byte by byte: a quote becomes a backslash and a quote, a comma stays, nothing else gives quotes, line feeds
    or a leading comma *)
Definition escaping (esc : list Z -> list Z) : Prop :=
  exists ec, (forall s, esc s = flat_map ec s) /\ ec 34 = [92; 34] /\ ec 44 = [44] /\
    forall c, c <> 34 -> ec c <> [] /\ ~ In 34 (ec c) /\ ~ In 10 (ec c) /\ (hd 0 (ec c) = 44 -> c = 44).
(** the libraries read what they wrote *)
Record lib_laws (F : flib) : Prop := {
  l_uns : forall hf x b, f_dump_uns F hf x = Ok b -> f_parse_uns F hf b = Ok x;
  l_outs : forall x b, f_dump_outs F x = Ok b -> f_parse_outs F b = Ok x;
  l_kfd : forall iv d, length iv = 8%nat -> f_unkfd F (f_kfd F iv d) = Ok (iv, d);
  l_json : forall s, f_unjson F (f_json F s) = Ok s;
  l_json_obj : forall s, exists t, f_json F s = 123 :: t /\ ~ In 10 t /\ ~ occurs LIT t;
  l_kv : forall x b, f_kv F x = Ok b -> b <> [] /\ f_unkv F b = Ok x;
  l_esc : escaping (f_esc F);
  l_unesc : forall s, f_unesc F (f_esc F s) = s }.
(** the random values give a usable signature (all but two in 2^252 do) *)
Definition signable (E : ecops) (K : prims) (priv : Z) (plain nonce : list Z) (k : Z) : Prop :=
  scalar priv /\ scalar k /\ length nonce = 8%nat /\
  let '(c, r, _) := generate_signature E (hash E (chacha_encrypt K (cn_slow K (enc_sc priv)) plain nonce)) priv k in c <> 0 /\ r <> 0.
