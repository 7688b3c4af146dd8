(** The lite protocol: monero_glue/protocol_lite/lite.py, a device driven by single
    commands of the host, as a state machine on the bytes of the commands.

    Hash contexts are the bytes fed so far (streaming equals one-shot hashing, C28, and taking a
    digest does not change a context: keccak2.py copies the sponge, hashlib allows it).
    AES, SHA-256 and the varint reader of the fee are library functions, arbitrary here.
    A command that raises keeps the state changes made before the exception. *)
From Verif Require Import Py Digits Ints_model Ec_model Mlsag_model Rsig_model Sigs_model Wallet_model Container_model.

(** aescbc.py; [aes_enc] can raise: [AES.new] in ECB mode is handed an iv, which the library refuses *)
Record lite_prims := {
  aes_enc : list Z -> list Z -> list Z -> res (list Z);   (* key, data, iv *)
  aes_dec : list Z -> list Z -> list Z -> res (list Z);
  sha : list Z -> list Z;                                  (* hashlib.sha256 *)
  read_uvarint : list Z -> res Z;                          (* monero_serialize load_uvarint_b *)
}.
(** protocol_lite/consts.py:1-41 *)
Definition FAKE := 2. Definition REAL := 1. Definition MORE := 0x80.
Definition SW_OK := 0x9000. Definition SW_WRONG_DATA := 0x6A80. Definition SW_WRONG_P1P2 := 0x6B00.
Definition INS_GET_KEY := 0x20. Definition INS_PUT_KEY := 0x22. Definition INS_GET_CHACHA8_PREKEY := 0x24.
Definition INS_VERIFY_KEY := 0x26. Definition INS_MANAGE_SEEDWORDS := 0x28.
Definition INS_SECRET_KEY_TO_PUBLIC_KEY := 0x30. Definition INS_GEN_KEY_DERIVATION := 0x32. Definition INS_DERIVATION_TO_SCALAR := 0x34.
Definition INS_DERIVE_PUBLIC_KEY := 0x36. Definition INS_DERIVE_SECRET_KEY := 0x38. Definition INS_GEN_KEY_IMAGE := 0x3A.
Definition INS_SECRET_KEY_ADD := 0x3C. Definition INS_SECRET_KEY_SUB := 0x3E. Definition INS_GENERATE_KEYPAIR := 0x40.
Definition INS_SECRET_SCAL_MUL_KEY := 0x42. Definition INS_SECRET_SCAL_MUL_BASE := 0x44.
Definition INS_DERIVE_SUBADDRESS_PUBLIC_KEY := 0x46. Definition INS_GET_SUBADDRESS := 0x48.
Definition INS_GET_SUBADDRESS_SPEND_PUBLIC_KEY := 0x4A. Definition INS_GET_SUBADDRESS_SECRET_KEY := 0x4C.
Definition INS_OPEN_TX := 0x70. Definition INS_SET_SIGNATURE_MODE := 0x72. Definition INS_STEALTH := 0x76.
Definition INS_BLIND := 0x78. Definition INS_UNBLIND := 0x7A. Definition INS_VALIDATE := 0x7C. Definition INS_MLSAG := 0x7E. Definition INS_CLOSE_TX := 0x80.

Section Lite.
Context (E : ecops) (K : lite_prims).
Local Notation pt := (pt E).

(** lite.py:36-71, 97-118: keys a A b B, address, session key, options of the command, signature mode, account, transaction key,
    ctx_h, H, c, ctx_amount, KV, ctx_commitment, C, unread input, output; [l_shown]: what the user was asked to confirm *)
Record lst := { l_a : Z; l_b : Z; l_A : pt; l_B : pt; l_address : list Z; l_key : list Z; l_options : Z; l_mode : Z; l_account : Z; l_r : option (Z * pt); l_ctx_h : list Z; l_H : option (list Z); l_c : option Z; l_amount : list Z; l_KV : option (list Z); l_commitment : list Z; l_C : option (list Z); l_in : list Z; l_out : list Z; l_shown : list (pt * pt * Z * bool) }.
Definition set_a (x : Z) (s : lst) : lst := {| l_a := x; l_b := l_b s; l_A := l_A s; l_B := l_B s; l_address := l_address s; l_key := l_key s; l_options := l_options s; l_mode := l_mode s; l_account := l_account s; l_r := l_r s; l_ctx_h := l_ctx_h s; l_H := l_H s; l_c := l_c s; l_amount := l_amount s; l_KV := l_KV s; l_commitment := l_commitment s; l_C := l_C s; l_in := l_in s; l_out := l_out s; l_shown := l_shown s |}.
Definition set_b (x : Z) (s : lst) : lst := {| l_a := l_a s; l_b := x; l_A := l_A s; l_B := l_B s; l_address := l_address s; l_key := l_key s; l_options := l_options s; l_mode := l_mode s; l_account := l_account s; l_r := l_r s; l_ctx_h := l_ctx_h s; l_H := l_H s; l_c := l_c s; l_amount := l_amount s; l_KV := l_KV s; l_commitment := l_commitment s; l_C := l_C s; l_in := l_in s; l_out := l_out s; l_shown := l_shown s |}.
Definition set_options (x : Z) (s : lst) : lst := {| l_a := l_a s; l_b := l_b s; l_A := l_A s; l_B := l_B s; l_address := l_address s; l_key := l_key s; l_options := x; l_mode := l_mode s; l_account := l_account s; l_r := l_r s; l_ctx_h := l_ctx_h s; l_H := l_H s; l_c := l_c s; l_amount := l_amount s; l_KV := l_KV s; l_commitment := l_commitment s; l_C := l_C s; l_in := l_in s; l_out := l_out s; l_shown := l_shown s |}.
Definition set_mode (x : Z) (s : lst) : lst := {| l_a := l_a s; l_b := l_b s; l_A := l_A s; l_B := l_B s; l_address := l_address s; l_key := l_key s; l_options := l_options s; l_mode := x; l_account := l_account s; l_r := l_r s; l_ctx_h := l_ctx_h s; l_H := l_H s; l_c := l_c s; l_amount := l_amount s; l_KV := l_KV s; l_commitment := l_commitment s; l_C := l_C s; l_in := l_in s; l_out := l_out s; l_shown := l_shown s |}.
Definition set_account (x : Z) (s : lst) : lst := {| l_a := l_a s; l_b := l_b s; l_A := l_A s; l_B := l_B s; l_address := l_address s; l_key := l_key s; l_options := l_options s; l_mode := l_mode s; l_account := x; l_r := l_r s; l_ctx_h := l_ctx_h s; l_H := l_H s; l_c := l_c s; l_amount := l_amount s; l_KV := l_KV s; l_commitment := l_commitment s; l_C := l_C s; l_in := l_in s; l_out := l_out s; l_shown := l_shown s |}.
Definition set_r (x : option (Z * pt)) (s : lst) : lst := {| l_a := l_a s; l_b := l_b s; l_A := l_A s; l_B := l_B s; l_address := l_address s; l_key := l_key s; l_options := l_options s; l_mode := l_mode s; l_account := l_account s; l_r := x; l_ctx_h := l_ctx_h s; l_H := l_H s; l_c := l_c s; l_amount := l_amount s; l_KV := l_KV s; l_commitment := l_commitment s; l_C := l_C s; l_in := l_in s; l_out := l_out s; l_shown := l_shown s |}.
Definition set_ctx_h (x : list Z) (s : lst) : lst := {| l_a := l_a s; l_b := l_b s; l_A := l_A s; l_B := l_B s; l_address := l_address s; l_key := l_key s; l_options := l_options s; l_mode := l_mode s; l_account := l_account s; l_r := l_r s; l_ctx_h := x; l_H := l_H s; l_c := l_c s; l_amount := l_amount s; l_KV := l_KV s; l_commitment := l_commitment s; l_C := l_C s; l_in := l_in s; l_out := l_out s; l_shown := l_shown s |}.
Definition set_H (x : option (list Z)) (s : lst) : lst := {| l_a := l_a s; l_b := l_b s; l_A := l_A s; l_B := l_B s; l_address := l_address s; l_key := l_key s; l_options := l_options s; l_mode := l_mode s; l_account := l_account s; l_r := l_r s; l_ctx_h := l_ctx_h s; l_H := x; l_c := l_c s; l_amount := l_amount s; l_KV := l_KV s; l_commitment := l_commitment s; l_C := l_C s; l_in := l_in s; l_out := l_out s; l_shown := l_shown s |}.
Definition set_c (x : option Z) (s : lst) : lst := {| l_a := l_a s; l_b := l_b s; l_A := l_A s; l_B := l_B s; l_address := l_address s; l_key := l_key s; l_options := l_options s; l_mode := l_mode s; l_account := l_account s; l_r := l_r s; l_ctx_h := l_ctx_h s; l_H := l_H s; l_c := x; l_amount := l_amount s; l_KV := l_KV s; l_commitment := l_commitment s; l_C := l_C s; l_in := l_in s; l_out := l_out s; l_shown := l_shown s |}.
Definition set_amount (x : list Z) (s : lst) : lst := {| l_a := l_a s; l_b := l_b s; l_A := l_A s; l_B := l_B s; l_address := l_address s; l_key := l_key s; l_options := l_options s; l_mode := l_mode s; l_account := l_account s; l_r := l_r s; l_ctx_h := l_ctx_h s; l_H := l_H s; l_c := l_c s; l_amount := x; l_KV := l_KV s; l_commitment := l_commitment s; l_C := l_C s; l_in := l_in s; l_out := l_out s; l_shown := l_shown s |}.
Definition set_KV (x : option (list Z)) (s : lst) : lst := {| l_a := l_a s; l_b := l_b s; l_A := l_A s; l_B := l_B s; l_address := l_address s; l_key := l_key s; l_options := l_options s; l_mode := l_mode s; l_account := l_account s; l_r := l_r s; l_ctx_h := l_ctx_h s; l_H := l_H s; l_c := l_c s; l_amount := l_amount s; l_KV := x; l_commitment := l_commitment s; l_C := l_C s; l_in := l_in s; l_out := l_out s; l_shown := l_shown s |}.
Definition set_commitment (x : list Z) (s : lst) : lst := {| l_a := l_a s; l_b := l_b s; l_A := l_A s; l_B := l_B s; l_address := l_address s; l_key := l_key s; l_options := l_options s; l_mode := l_mode s; l_account := l_account s; l_r := l_r s; l_ctx_h := l_ctx_h s; l_H := l_H s; l_c := l_c s; l_amount := l_amount s; l_KV := l_KV s; l_commitment := x; l_C := l_C s; l_in := l_in s; l_out := l_out s; l_shown := l_shown s |}.
Definition set_C (x : option (list Z)) (s : lst) : lst := {| l_a := l_a s; l_b := l_b s; l_A := l_A s; l_B := l_B s; l_address := l_address s; l_key := l_key s; l_options := l_options s; l_mode := l_mode s; l_account := l_account s; l_r := l_r s; l_ctx_h := l_ctx_h s; l_H := l_H s; l_c := l_c s; l_amount := l_amount s; l_KV := l_KV s; l_commitment := l_commitment s; l_C := x; l_in := l_in s; l_out := l_out s; l_shown := l_shown s |}.
Definition set_in (x : list Z) (s : lst) : lst := {| l_a := l_a s; l_b := l_b s; l_A := l_A s; l_B := l_B s; l_address := l_address s; l_key := l_key s; l_options := l_options s; l_mode := l_mode s; l_account := l_account s; l_r := l_r s; l_ctx_h := l_ctx_h s; l_H := l_H s; l_c := l_c s; l_amount := l_amount s; l_KV := l_KV s; l_commitment := l_commitment s; l_C := l_C s; l_in := x; l_out := l_out s; l_shown := l_shown s |}.
Definition set_out (x : list Z) (s : lst) : lst := {| l_a := l_a s; l_b := l_b s; l_A := l_A s; l_B := l_B s; l_address := l_address s; l_key := l_key s; l_options := l_options s; l_mode := l_mode s; l_account := l_account s; l_r := l_r s; l_ctx_h := l_ctx_h s; l_H := l_H s; l_c := l_c s; l_amount := l_amount s; l_KV := l_KV s; l_commitment := l_commitment s; l_C := l_C s; l_in := l_in s; l_out := x; l_shown := l_shown s |}.
Definition set_shown (x : list (pt * pt * Z * bool)) (s : lst) : lst := {| l_a := l_a s; l_b := l_b s; l_A := l_A s; l_B := l_B s; l_address := l_address s; l_key := l_key s; l_options := l_options s; l_mode := l_mode s; l_account := l_account s; l_r := l_r s; l_ctx_h := l_ctx_h s; l_H := l_H s; l_c := l_c s; l_amount := l_amount s; l_KV := l_KV s; l_commitment := l_commitment s; l_C := l_C s; l_in := l_in s; l_out := l_out s; l_shown := x |}.

(** commands may raise after having changed the state *)
Definition m (A : Type) : Type := lst -> lst * res A.
Definition ret {A} (x : A) : m A := fun s => (s, Ok x).
Definition fail {A} (e : exn) : m A := fun s => (s, Err e).
Definition mbind {A B} (e : m A) (k : A -> m B) : m B := fun s => match e s with (s, Ok x) => k x s | (s, Err x) => (s, Err x) end.
Local Notation "'let!' x := e 'in' k" := (mbind e (fun x => k)) (at level 200, x name, e at level 100, k at level 200).
Definition lift {A} (x : res A) : m A := fun s => (s, x).
Definition get {A} (f : lst -> A) : m A := fun s => (s, Ok (f s)).
Definition upd (f : lst -> lst) : m unit := fun s => (f s, Ok tt).

(** what a command draws at random, and the user's answer *)
Record ltape := { t_scalar : Z; t_answer : bool }.

(** lite.py:132-139 *)
Definition fetch (n : nat) : m (list Z) := fun s =>
  if Nat.ltb (length (l_in s)) n then (s, Err ValueError) else (set_in (skipn n (l_in s)) s, Ok (firstn n (l_in s))).
(** lite.py:141-143; the iv is 16 zero bytes *)
Definition iv0 : list Z := repeat 0 16.
Definition fetch_decrypt : m (list Z) :=
  let! d := fetch 32 in let! k := get l_key in lift (aes_dec K k d iv0).
(** lite.py:145-152 *)
Definition fetch_decrypt_key : m Z :=
  let! b := fetch 32 in
  if zlist_eqb b (repeat 0 32) then get l_a
  else if zlist_eqb b (repeat 255 32) then get l_b
  else let! k := get l_key in let! p := lift (aes_dec K k b iv0) in lift (decodeint p).
(** lite.py:165-167 *)
Definition fetch_u8 : m Z := let! d := fetch 1 in ret (Z.land (nth 0 d 0) 255).
(** lite.py:154-160 *)
Definition fetch_u32 : m Z :=
  let! a := fetch_u8 in let! b := fetch_u8 in let! c := fetch_u8 in let! d := fetch_u8 in
  ret (Z.lor (Z.lor (Z.lor (Z.shiftl a 24) (Z.shiftl b 16)) (Z.shiftl c 8)) d).
(** lite.py:187-191 (the answers stay far below the 2048 bytes of the buffer) *)
Definition insert (b : list Z) : m unit := upd (fun s => set_out (l_out s ++ b) s).
(** lite.py:193-195 *)
Definition insert_encrypt (b : list Z) : m unit := let! k := get l_key in let! e := lift (aes_enc K k b iv0) in insert e.
(** lite.py:205-209 *)
Definition insert_u32 (x : Z) : m unit := insert [Z.land (Z.shiftr x 24) 255; Z.land (Z.shiftr x 16) 255; Z.land (Z.shiftr x 8) 255; Z.land x 255].
Definition fetch_sc : m Z := let! b := fetch 32 in lift (decodeint b).
Definition fetch_pt : m pt := let! b := fetch 32 in lift (decp E b).
Definition fetch_decrypt_sc : m Z := let! b := fetch_decrypt in lift (decodeint b).
Definition fetch_decrypt_pt : m pt := let! b := fetch_decrypt in lift (decp E b).
Definition insert_sc (x : Z) : m unit := insert (enc_sc x).
Definition insert_pt (P : pt) : m unit := insert (encp E P).

(** lite.py:227-244 *)
Definition blind : m Z :=
  let! AKout := fetch_decrypt in
  let! k := fetch 32 in
  let! v := fetch 32 in
  let! _ := upd (fun s => set_amount (l_amount s ++ AKout ++ k ++ v) s) in
  let h := hash_to_scalar E AKout in
  let! ks := lift (decodeint k) in
  let k := sc_add ks h in
  let h := hash_to_scalar E (enc_sc h) in
  let! vs := lift (decodeint v) in
  let v := sc_add vs h in
  let! _ := insert_sc v in
  let! _ := insert_sc k in
  ret SW_OK.
(** lite.py:246-253 *)
Definition unblind_int (v k AKout : list Z) : res (Z * Z) :=
  let h := hash_to_scalar E AKout in
  let* ks := decodeint k in
  let k := sc_sub ks h in
  let h := hash_to_scalar E (enc_sc h) in
  let* vs := decodeint v in
  Ok (sc_sub vs h, k).
(** lite.py:255-264 *)
Definition unblind : m Z :=
  let! AKout := fetch_decrypt in
  let! k := fetch 32 in
  let! v := fetch 32 in
  let! vk := lift (unblind_int v k AKout) in
  let! _ := insert_sc (fst vk) in
  let! _ := insert_sc (snd vk) in
  ret SW_OK.
(** lite.py:266-278 *)
Definition put_key : m Z :=
  let! sec := fetch_sc in let! pub := fetch_pt in
  if negb (pt_eqb E pub (scalarmult_base E sec)) then ret SW_WRONG_DATA else
  let! _ := upd (set_a sec) in
  let! sec := fetch_sc in let! pub := fetch_pt in
  if negb (pt_eqb E pub (scalarmult_base E sec)) then ret SW_WRONG_DATA else
  let! _ := upd (set_b sec) in
  ret SW_OK.
(** lite.py:280-292 *)
Definition get_key (p1 : Z) : m Z :=
  if p1 =? 1 then
    let! A := get l_A in let! B := get l_B in let! ad := get l_address in
    let! _ := insert_pt A in let! _ := insert_pt B in let! _ := insert ad in ret SW_OK
  else if p1 =? 2 then let! a := get l_a in let! _ := insert_sc a in ret SW_OK
  else ret SW_WRONG_P1P2.
(** lite.py:294-314 *)
Definition verify_key (p1 : Z) : m Z :=
  let! priv := fetch_decrypt_key in
  let! pub := fetch_pt in
  let! A := get l_A in let! B := get l_B in let! ad := get l_address in
  if (p1 =? 0) || (p1 =? 1) || (p1 =? 2) then
    let computed := if p1 =? 0 then scalarmult_base E priv else pid E in
    let pub := if p1 =? 0 then pub else if p1 =? 1 then A else B in
    let! _ := insert_u32 (if pt_eqb E computed pub then 1 else 0) in
    let! _ := insert ad in ret SW_OK
  else ret SW_WRONG_P1P2.
(** lite.py:316-327 *)
Definition chacha8_prekey : m Z :=
  let! a := get l_a in let! b := get l_b in
  let pre := hash E (enc_sc a ++ enc_sc b ++ [0x8C]) in
  let! _ := insert (pre ++ pre ++ pre ++ pre ++ pre ++ pre) in
  let! _ := insert (firstn 8 pre) in ret SW_OK.
(** lite.py:329-339 *)
Definition l_sc_add : m Z := let! x := fetch_sc in let! y := fetch_sc in let! _ := insert_sc (sc_add x y) in ret SW_OK.
Definition l_sc_sub : m Z := let! x := fetch_sc in let! y := fetch_sc in let! _ := insert_sc (sc_sub x y) in ret SW_OK.
(** lite.py:341-350, 359-360 *)
Definition scal_mul_key : m Z :=
  let! pub := fetch_pt in let! sec := fetch_decrypt_sc in let! _ := insert_pt (scalarmult E pub sec) in ret SW_OK.
Definition scal_mul_base : m Z := let! sec := fetch_decrypt_sc in let! _ := insert_pt (scalarmult_base E sec) in ret SW_OK.
(** lite.py:352-357 *)
Definition generate_keypair (t : ltape) : m Z :=
  let sec := t_scalar t in let! _ := insert_pt (scalarmult_base E sec) in let! _ := insert_encrypt (enc_sc sec) in ret SW_OK.
(** lite.py:362-367 *)
Definition l_generate_key_derivation : m Z :=
  let! pub := fetch_pt in let! sec := fetch_decrypt_key in
  let! der := lift (generate_key_derivation E pub sec) in
  let! _ := insert_encrypt (encp E der) in ret SW_OK.
(** lite.py:369-374 *)
Definition l_derivation_to_scalar : m Z :=
  let! der := fetch_decrypt_pt in let! i := fetch_u32 in
  let! _ := insert_encrypt (enc_sc (derivation_to_scalar E der i)) in ret SW_OK.
(** lite.py:376-382 *)
Definition l_derive_public_key : m Z :=
  let! der := fetch_decrypt_pt in let! i := fetch_u32 in let! pub := fetch_pt in
  let! _ := insert_pt (derive_public_key E der i pub) in ret SW_OK.
(** lite.py:384-390 *)
Definition l_derive_secret_key : m Z :=
  let! der := fetch_decrypt_pt in let! i := fetch_u32 in let! sec := fetch_decrypt_key in
  let! d := lift (derive_secret_key E der i sec) in
  let! _ := insert_encrypt (enc_sc d) in ret SW_OK.
(** lite.py:392-397 *)
Definition l_generate_key_image : m Z :=
  let! pub := fetch 32 in let! sec := fetch_decrypt_sc in
  let! _ := insert_pt (generate_key_image E pub sec) in ret SW_OK.
(** lite.py:399-405 *)
Definition l_derive_subaddress_public_key : m Z :=
  let! pub := fetch_pt in let! der := fetch_decrypt_pt in let! i := fetch_u32 in
  let! _ := insert_pt (derive_subaddress_public_key E pub der i) in ret SW_OK.
(** lite.py:407-433: [_idx_parse] unpacks one 4-byte integer from the 8 bytes of the index: struct.error *)
Definition l_subaddress (secret : bool) : m Z :=
  let! _ := (if secret then let! _ := fetch_decrypt_sc in ret tt else ret tt) in
  let! _ := fetch 8 in fail StructError.

(** lite.py:435-459 *)
Definition mlsag_prepare (t : ltape) (size : nat) : m Z :=
  if Nat.ltb 1 size then
    let! Hi := fetch_pt in let! o := get l_options in
    let! xin := (if negb (Z.land o 0x40 =? 0) then fetch_sc else fetch_decrypt_sc) in
    let! _ := insert_encrypt (enc_sc (t_scalar t)) in
    let! _ := insert_pt (scalarmult_base E (t_scalar t)) in
    let! _ := insert_pt (scalarmult E Hi (t_scalar t)) in
    let! _ := insert_pt (scalarmult E Hi xin) in ret SW_OK
  else
    let! _ := insert_encrypt (enc_sc (t_scalar t)) in
    let! _ := insert_pt (scalarmult_base E (t_scalar t)) in ret SW_OK.
(** lite.py:461-473; hashing [self.H] before it exists: TypeError *)
Definition mlsag_hash (p2 : Z) : m Z :=
  let! msg := (if p2 =? 1 then
    let! _ := upd (set_ctx_h []) in let! h := get l_H in match h with None => fail TypeError | Some h => ret h end else fetch 32) in
  let! _ := upd (fun s => set_ctx_h (l_ctx_h s ++ msg) s) in
  let! o := get l_options in
  if Z.land o 0x80 =? 0 then
    let! x := get l_ctx_h in
    let c := hash_to_scalar E x in
    let! _ := upd (set_c (Some c)) in let! _ := insert_sc c in ret SW_OK
  else ret SW_OK.
(** lite.py:475-488; no challenge yet: TypeError *)
Definition mlsag_sign : m Z :=
  let! mode := get l_mode in
  let! xa := (if mode =? FAKE then let! x := fetch_sc in let! a := fetch_sc in ret (x, a)
              else if mode =? REAL then let! x := fetch_decrypt_sc in let! a := fetch_decrypt_sc in ret (x, a)
              else fail ValueError) in
  let! c := get l_c in
  match c with
  | None => fail TypeError
  | Some c =>
      let! _ := insert_sc (sc_mulsub c (fst xa) (snd xa)) in
      let! _ := insert_u32 mode in ret SW_OK
  end.
(** lite.py:490-499 *)
Definition open_tx (t : ltape) : m Z :=
  let! _ := upd (set_amount []) in
  let! acc := fetch_u32 in
  let! _ := upd (set_account acc) in
  let r := t_scalar t in let R := scalarmult_base E r in
  let! _ := upd (set_r (Some (r, R))) in
  let! _ := insert_pt R in
  let! _ := insert_encrypt (enc_sc r) in ret SW_OK.
(** lite.py:509-516 *)
Definition set_signature_mode : m Z :=
  let! _ := upd (set_mode FAKE) in
  let! mode := fetch_u8 in
  if negb (mode =? FAKE) && negb (mode =? REAL) then fail ValueError else
  let! _ := upd (set_mode mode) in
  let! _ := insert_u32 mode in ret SW_OK.
(** lite.py:518-531 *)
Definition mlsag_prehash_init (p2 : Z) : m Z :=
  let! _ := (if p2 =? 1 then upd (fun s => set_ctx_h [] (set_commitment [] (set_amount [] (set_KV (Some (sha K (l_amount s))) s)))) else ret tt) in
  let! _ := upd (fun s => set_ctx_h (l_ctx_h s ++ l_in s) s) in
  let! mode := get l_mode in
  if (mode =? REAL) && (p2 =? 1) then
    let! _ := fetch_u8 in let! rest := get l_in in
    let! _ := lift (read_uvarint K rest) in ret SW_OK
  else ret SW_OK.
(** lite.py:533-588; comparing with a missing KV: TypeError *)
Definition mlsag_prehash_update (t : ltape) : m Z :=
  let! sub := fetch_u8 in
  let! Aout := fetch_pt in
  let! Bout := fetch_pt in
  let! mode := get l_mode in
  let! A := get l_A in let! B := get l_B in
  let changed := (mode =? REAL) && pt_eqb E Aout A && pt_eqb E Bout B in
  let! AKout := fetch_decrypt in
  let! C := fetch 32 in
  let! k := fetch 32 in
  let! v := fetch 32 in
  let! _ := upd (fun s => set_ctx_h (l_ctx_h s ++ k ++ v) s) in
  let! _ := upd (fun s => set_amount (l_amount s ++ AKout) s) in
  let! vk := lift (unblind_int v k AKout) in
  let! _ := upd (fun s => set_amount (l_amount s ++ enc_sc (snd vk) ++ enc_sc (fst vk)) s) in
  let P := point_add E (scalarmult_base E (snd vk)) (scalarmult_h E (fst vk)) in
  let! Cp := lift (decp E C) in
  let! _ := (if pt_eqb E P Cp then ret tt else fail ValueError) in
  let! _ := upd (fun s => set_commitment (l_commitment s ++ C) s) in
  let! o := get l_options in
  let! _ := (if Z.land o MORE =? 0 then
    let! am := get l_amount in let! KV := get l_KV in
    match KV with
    | None => fail TypeError
    | Some KV =>
        if zlist_eqb (sha K am) KV
        then upd (fun s => set_commitment [] (set_C (Some (sha K (l_commitment s))) s))
        else fail ValueError
    end else ret tt) in
  if (mode =? REAL) && negb changed then
    let! _ := upd (fun s => set_shown (l_shown s ++ [(Aout, Bout, fst vk, negb (sub =? 0))]) s) in
    if t_answer t then ret SW_OK else fail ValueError
  else ret SW_OK.
(** lite.py:590-614; comparing with a missing C: TypeError *)
Definition mlsag_prehash_finalize : m Z :=
  let! o := get l_options in
  if negb (Z.land o MORE =? 0) then
    let! h := fetch 32 in
    let! _ := upd (fun s => set_ctx_h (l_ctx_h s ++ h) s) in
    let! _ := upd (fun s => set_commitment (l_commitment s ++ h) s) in
    ret SW_OK
  else
    let! cc := get l_commitment in let! C := get l_C in
    match C with
    | None => fail TypeError
    | Some C =>
        if zlist_eqb (sha K cc) C then
          let! x := get l_ctx_h in
          let H := hash E x in
          let! message := fetch 32 in
          let! proof := fetch 32 in
          let! _ := upd (set_ctx_h (message ++ H ++ proof)) in
          let! x := get l_ctx_h in
          let! _ := upd (set_H (Some (hash E x))) in
          let! _ := insert (hash E x) in ret SW_OK
        else fail ValueError
    end.
(** lite.py:616-628: a point has no [+=] with bytes: TypeError *)
Definition stealth : m Z := let! _ := fetch_pt in let! _ := fetch_decrypt_key in let! _ := fetch 8 in fail TypeError.

(** lite.py:664-744 *)
Definition command (t : ltape) (ins p1 p2 : Z) (size : nat) : m Z :=
  if ins =? INS_OPEN_TX then open_tx t
  else if ins =? INS_CLOSE_TX then ret SW_OK
  else if ins =? INS_SET_SIGNATURE_MODE then set_signature_mode
  else if ins =? INS_STEALTH then stealth
  else if ins =? INS_PUT_KEY then put_key
  else if ins =? INS_GET_KEY then get_key p1
  else if ins =? INS_MANAGE_SEEDWORDS then ret SW_OK
  else if ins =? INS_VERIFY_KEY then verify_key p1
  else if ins =? INS_GET_CHACHA8_PREKEY then chacha8_prekey
  else if ins =? INS_SECRET_KEY_TO_PUBLIC_KEY then scal_mul_base
  else if ins =? INS_GEN_KEY_DERIVATION then l_generate_key_derivation
  else if ins =? INS_DERIVATION_TO_SCALAR then l_derivation_to_scalar
  else if ins =? INS_DERIVE_PUBLIC_KEY then l_derive_public_key
  else if ins =? INS_DERIVE_SECRET_KEY then l_derive_secret_key
  else if ins =? INS_GEN_KEY_IMAGE then l_generate_key_image
  else if ins =? INS_SECRET_KEY_ADD then l_sc_add
  else if ins =? INS_SECRET_KEY_SUB then l_sc_sub
  else if ins =? INS_GENERATE_KEYPAIR then generate_keypair t
  else if ins =? INS_SECRET_SCAL_MUL_KEY then scal_mul_key
  else if ins =? INS_SECRET_SCAL_MUL_BASE then scal_mul_base
  else if ins =? INS_DERIVE_SUBADDRESS_PUBLIC_KEY then l_derive_subaddress_public_key
  else if ins =? INS_GET_SUBADDRESS then l_subaddress false
  else if ins =? INS_GET_SUBADDRESS_SPEND_PUBLIC_KEY then l_subaddress false
  else if ins =? INS_GET_SUBADDRESS_SECRET_KEY then l_subaddress true
  else if ins =? INS_BLIND then blind
  else if ins =? INS_UNBLIND then unblind
  else if ins =? INS_VALIDATE then
    if p1 =? 1 then mlsag_prehash_init p2
    else if p1 =? 2 then mlsag_prehash_update t
    else if p1 =? 3 then mlsag_prehash_finalize
    else fail ValueError
  else if ins =? INS_MLSAG then
    if p1 =? 1 then mlsag_prepare t size
    else if p1 =? 2 then mlsag_hash p2
    else if p1 =? 3 then mlsag_sign
    else fail ValueError
  else ret 0x6F01.
(** lite.py:662-664 *)
Definition sub_dispatch (t : ltape) (ins p1 p2 : Z) (size : nat) : m Z :=
  let! o := fetch_u8 in
  let! _ := upd (set_options o) in
  command t ins p1 p2 size.
(** lite.py:630-660 *)
Record lcmd := { c_tape : ltape; c_ins : Z; c_p1 : Z; c_p2 : Z; c_input : list Z }.
Definition dispatch (c : lcmd) (s : lst) : lst * res (Z * list Z) :=
  let s := set_out [] (set_in (c_input c) s) in
  match sub_dispatch (c_tape c) (c_ins c) (c_p1 c) (c_p2 c) (length (c_input c)) s with
  | (s, Ok sw) => (s, Ok (sw, l_out s))
  | (s, Err e) => (s, Err e)
  end.
(** a history of commands; failed ones leave the state as they left it *)
Fixpoint lrun (cs : list lcmd) (s : lst) : lst * list (res (Z * list Z)) :=
  match cs with
  | [] => (s, [])
  | c :: cs => let '(s, o) := dispatch c s in let '(s, os) := lrun cs s in (s, o :: os)
  end.
(** lite.py:36-71, 97-118: the device after [init] with the wallet keys *)
Definition lite_new (a b : Z) (address key : list Z) : lst := {|
  l_a := a; l_b := b; l_A := scalarmult_base E a; l_B := scalarmult_base E b; l_address := address; l_key := key;
  l_options := 0; l_mode := 0; l_account := 0; l_r := None; l_ctx_h := []; l_H := None; l_c := None; l_amount := []; l_KV := None;
  l_commitment := []; l_C := None; l_in := []; l_out := []; l_shown := [] |}.
End Lite.
