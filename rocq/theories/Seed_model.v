(** Model of monero_glue/xmr/sub/seed.py (class SeedDerivation) and of key generation in
    monero_glue/xmr/monero.py.  Text is a list of ASCII codes; words are taken from the real
    dictionary of Mnemonic_words.v.  BIP-0039 (from_mnemonics) is left to its library. *)
From Verif Require Import Py Mnemonic_words Mnemonic_model Ints_model Ec_model Mlsag_model Bip32_model.

Section S.
Context (O : bops) (cn_fast_hash : list Z -> list Z).
Notation E := (bE O).

(** monero.py:420-427 generate_keys *)
Definition generate_keys (recovery_key : Z) : Z * pt E := (recovery_key, scalarmult_base E recovery_key).
(** monero.py:430-442 generate_monero_keys *)
Definition generate_monero_keys (seed : list Z) : res ((Z * pt E) * (Z * pt E)) :=
  let* s := decodeint seed 0 in
  let '(spend_sec, spend_pub) := generate_keys s in
  let hash := cn_fast_hash (enc_sc spend_sec) in
  let* v := decodeint hash 0 in
  Ok ((spend_sec, spend_pub), generate_keys v).

(** seed.py:18-31: the attributes that the functions below set; [None] of pre_hash when unset *)
Record derivation := {
  pre_hash : option (list Z); monero_master : list Z; electrum_words : list Z;
  spend_sec : Z; spend_pub : pt E; view_sec : Z; view_pub : pt E }.

(** " ".join(words) *)
Fixpoint join_sp (ws : list (list Z)) : list Z :=
  match ws with [] => [] | [w] => w | w :: ws => w ++ 32 :: join_sp ws end.
(** seed.py:63-74 set_monero_seed *)
Definition set_monero_seed (ph : option (list Z)) (seed : list Z) : res derivation :=
  let* ws := mn_encode words seed true in
  let* (s, v) := generate_monero_keys seed in
  Ok {| pre_hash := ph; monero_master := seed; electrum_words := join_sp ws;
        spend_sec := fst s; spend_pub := snd s; view_sec := fst v; view_pub := snd v |}.

(** seed.py:13-14: "m/44'/128'/0'/0/0", "m/44'/128'/0'" *)
Definition DEFAULT_SLIP0010_PATH : list Z := [109; 47; 52; 52; 39; 47; 49; 50; 56; 39; 47; 48; 39].
Definition DEFAULT_BIP44_PATH : list Z := DEFAULT_SLIP0010_PATH ++ [47; 48; 47; 48].
(** seed.py:33-61 set_seed; the default network of from_master_secret is "monero" (bip32.py:674) *)
Definition set_seed (seed : list Z) (path : option (list Z)) (slip0010 : bool) : res derivation :=
  let path := match path with None => if slip0010 then DEFAULT_SLIP0010_PATH else DEFAULT_BIP44_PATH | Some p => p end in
  let* wl := from_master_secret O seed MoneroMainNet slip0010 in
  let* data := get_child_for_path O wl path in
  let* k := match w_priv data with Some k => Ok k | None => Err AttributeError end in
  let* ph := unhexlify (priv_key k) in
  let* master :=
    if slip0010 then let* v := decodeint ph 0 in encodeint v
    else Ok (cn_fast_hash ph) in
  set_monero_seed (Some ph) master.

(** str.split(" ") *)
Fixpoint split_sp (s : list Z) : list (list Z) :=
  match s with
  | [] => [[]]
  | c :: t =>
      let r := split_sp t in
      if c =? 32 then [] :: r else match r with h :: r => (c :: h) :: r | [] => [[c]] end
  end.
(** str.lower() of ASCII text *)
Definition lower (s : list Z) : list Z := map (fun c => if (65 <=? c) && (c <=? 90) then c + 32 else c) s.
(** one string, or a list of strings *)
Inductive input := IStr (s : list Z) | IList (l : list (list Z)).
(** seed.py:83-94 clean_input *)
Definition clean_input (inp : input) : list (list Z) :=
  let cleaned := match inp with IStr s => [s] | IList l => flat_map split_sp l end in
  map (fun x => lower (strip_blank x)) cleaned.

(** seed.py:116-126 *)
Definition from_master_seed (seed : list Z) (path : option (list Z)) (slip0010 : bool) : res derivation := set_seed seed path slip0010.
Definition from_monero_seed (seed : list Z) : res derivation := set_monero_seed None seed.
(** seed.py:128-135 *)
Definition from_monero_mnemonics (inp : input) : res derivation :=
  let mnems := clean_input inp in
  let* seed := mn_decode words mnems in
  let* b := unhexlify seed in
  set_monero_seed None b.
End S.
Arguments pre_hash {O}. Arguments monero_master {O}. Arguments electrum_words {O}. Arguments spend_sec {O}. Arguments spend_pub {O}.
Arguments view_sec {O}. Arguments view_pub {O}.
