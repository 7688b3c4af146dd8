(** Files exchanged with the desktop wallet: monero_glue/xmr/wallet.py.  The binary archives (monero_serialize),
    JSON and the escaping of strings are library functions, arbitrary here; the ciphers are those of Container_model.
    Random values are arguments.  Text is a list of byte values. *)
From Verif Require Import Py Digits Ints_model Ec_model Mlsag_model Container_model.

(** wallet.py:17-20 *)
Definition UNSIGNED_TX_PREFIX : list Z := [77; 111; 110; 101; 114; 111; 32; 117; 110; 115; 105; 103; 110; 101; 100; 32; 116; 120; 32; 115; 101; 116; 4].
Definition SIGNED_TX_PREFIX : list Z := [77; 111; 110; 101; 114; 111; 32; 115; 105; 103; 110; 101; 100; 32; 116; 120; 32; 115; 101; 116; 4].
Definition OUTPUTS_PREFIX : list Z := [77; 111; 110; 101; 114; 111; 32; 111; 117; 116; 112; 117; 116; 32; 101; 120; 112; 111; 114; 116; 3].

Record flib := {
  f_uns : Type; f_sgn : Type; f_out : Type; f_set : Type; f_kd : Type;
  f_dump_uns : Z -> f_uns -> res (list Z); f_parse_uns : Z -> list Z -> res f_uns;      (* xmrboost, UnsignedTxSet, hard fork *)
  f_dump_sgn : f_sgn -> res (list Z);                                                    (* xmrboost, SignedTxSet *)
  f_dump_outs : list f_out -> res (list Z); f_parse_outs : list Z -> res (list f_out);  (* xmrboost, ExportedOutputs *)
  f_parse_outs4 : list Z -> res (Z * list f_out);                                        (* xmrboost, ExportedOutputsV4 *)
  f_json : f_set -> list Z; f_unjson : list Z -> res f_set;                              (* json.dumps, json.loads *)
  f_kv : f_kd -> res (list Z); f_unkv : list Z -> res f_kd;                              (* xmrrpc: root and section *)
  f_esc : list Z -> list Z; f_unesc : list Z -> list Z;                                  (* xmrjson string escaping *)
  f_kfd : list Z -> list Z -> list Z; f_unkfd : list Z -> res (list Z * list Z);         (* xmrserialize, KeysFileData: iv, account_data *)
}.

Section F.
Context (E : ecops) (K : prims) (F : flib).

(** wallet.py:185-211 *)
Definition load_unsigned_tx (priv_key : Z) (data : list Z) (hf : Z) : res (f_uns F) :=
  let magic_len := zlen UNSIGNED_TX_PREFIX in
  let magic := py_upto data (magic_len - 1) in
  let* version := py_get data (magic_len - 1) in
  let data := py_from data magic_len in
  let* _ := guard (zlist_eqb magic (py_upto UNSIGNED_TX_PREFIX (-1))) ValueError in
  let* _ := guard (version =? 4) ValueError in
  let* ser := decrypt_xmr E K priv_key data true in
  f_parse_uns F hf ser.
(** wallet.py:214-230 *)
Definition dump_unsigned_tx (priv_key : Z) (unsigned_tx : f_uns F) (hf : Z) (nonce : list Z) (k : Z) : res (list Z) :=
  let* ser := f_dump_uns F hf unsigned_tx in
  Ok (UNSIGNED_TX_PREFIX ++ encrypt_xmr E K priv_key ser nonce k true).
(** wallet.py:233-253 *)
Definition dump_signed_tx (priv_key : Z) (signed_tx : f_sgn F) (nonce : list Z) (k : Z) : res (list Z) :=
  let* ser := f_dump_sgn F signed_tx in
  Ok (SIGNED_TX_PREFIX ++ encrypt_xmr E K priv_key ser nonce k true).

(** wallet.py:76-80 *)
Record outputs_dump := { o_spend : list Z; o_view : list Z; o_tds : list (f_out F) }.
(** wallet.py:292-329 *)
Definition load_exported_outputs (priv_key : Z) (data : list Z) : res outputs_dump :=
  let magic_len := zlen OUTPUTS_PREFIX in
  let magic := py_upto data (magic_len - 1) in
  let* version := py_get data (magic_len - 1) in
  let data := py_from data magic_len in
  let* _ := guard (zlist_eqb magic (py_upto OUTPUTS_PREFIX (-1))) ValueError in
  let* _ := guard ((version =? 3) || (version =? 4)) ValueError in
  let* dec := decrypt_xmr E K priv_key data true in
  let spend_pub := py_upto dec 32 in
  let view_pub := py_slice dec 32 64 in
  let dec := py_from dec 64 in
  let* exps := if version =? 3 then f_parse_outs F dec
               else let* (offset, exps) := f_parse_outs4 F dec in
                    let* _ := guard (offset =? 0) ValueError in Ok exps in
  Ok {| o_spend := spend_pub; o_view := view_pub; o_tds := exps |}.
(** wallet.py:332-346 *)
Definition save_exported_outputs (priv_spend priv_view : Z) (transfers : list (f_out F)) (nonce : list Z) (k : Z) : res (list Z) :=
  let* trans_bin := f_dump_outs F transfers in
  let buff_dec := encp E (scalarmult_base E priv_spend) ++ encp E (scalarmult_base E priv_view) ++ trans_bin in
  Ok (OUTPUTS_PREFIX ++ encrypt_xmr E K priv_view buff_dec nonce k true).

(** ** The keys file *)
(** the literals of the pattern of wallet.py:111: a quote, key_data, quote, colon, quote; and a quote and a comma *)
Definition LIT : list Z := [34; 107; 101; 121; 95; 100; 97; 116; 97; 34; 58; 34].
Definition SEP : list Z := [34; 44].
Fixpoint starts (p s : list Z) : option (list Z) :=
  match p, s with [], s => Some s | a :: p, b :: s => if a =? b then starts p s else None | _, [] => None end.
(** second group, lazy, and the literal after it: a dot is any byte but a line feed; as few as possible, at least one *)
Fixpoint lazy (s : list Z) : option (list Z * list Z) :=
  match s with
  | [] => None
  | c :: s =>
      if c =? 10 then None
      else match starts SEP s with
           | Some rest => Some ([c], rest)
           | None => match lazy s with Some (g, rest) => Some (c :: g, rest) | None => None end
           end
  end.
(** third group, at the end: the rest of the line *)
Fixpoint line (s : list Z) : list Z := match s with [] => [] | c :: s => if c =? 10 then [] else c :: line s end.
(** the pattern from here on: the first group as long as possible *)
Fixpoint greedy (s : list Z) : option (list Z * list Z * list Z) :=
  let longer := match s with
                | [] => None
                | c :: t => if c =? 10 then None else match greedy t with Some (g1, g2, g3) => Some (c :: g1, g2, g3) | None => None end
                end in
  match longer with
  | Some m => Some m
  | None => match starts LIT s with
            | Some r => match lazy r with Some (g2, rest) => Some ([], g2, line rest) | None => None end
            | None => None
            end
  end.
(** re.search: the first place from which it matches *)
Fixpoint search (s : list Z) : option (list Z * list Z * list Z) :=
  match greedy s with
  | Some m => Some m
  | None => match s with [] => None | _ :: s => search s end
  end.

(** chacha.py:10-16 *)
Definition generate_key (password : list Z) : list Z := cn_slow K password.
(** wallet.py:95-125: the settings and the key data; without a match [m.group] raises *)
Definition load_keys_data (data password : list Z) : res (f_set F * f_kd F) :=
  let* (iv, account_data) := f_unkfd F data in
  let dec := chacha_decrypt K (generate_key password) (iv ++ account_data) in
  match search dec with
  | None => Err AttributeError
  | Some (g1, g2, g3) =>
      let* kd := f_unkv F (f_unesc F g2) in
      let* st := f_unjson F (g1 ++ g3) in
      Ok (st, kd)
  end.
(** the object WalletKeyFile, 33-61: its settings, and the attribute key_data, [None] after its deletion *)
Record key_file := { kf_set : f_set F; kf_key_data : option (f_kd F) }.
(** wallet.py:143-182; to_json (60-61) returns the attributes of the object themselves, so that line 152 deletes the attribute *)
Definition gen_keys_file (password : list Z) (w : key_file) (nonce : list Z) : res (list Z) * key_file :=
  match kf_key_data w with
  | None => (Err AttributeError, w)
  | Some key_data =>
      (let enc := f_json F (kf_set w) in
       let* ser := f_kv F key_data in
       let ser2 := f_esc F ser in
       let enc2 := [123] ++ LIT ++ ser2 ++ SEP ++ py_from enc 1 in
       let enc_enc := chacha_encrypt K (generate_key password) enc2 nonce in
       Ok (f_kfd F (py_slice enc_enc 0 8) (py_from enc_enc 8)),
       {| kf_set := kf_set w; kf_key_data := None |})
  end.
End F.
Arguments o_spend {F}. Arguments o_view {F}. Arguments o_tds {F}. Arguments kf_set {F}. Arguments kf_key_data {F}.
