(** Model of monero_glue/xmr/sub/addr.py, xmr/sub/xmr_net.py and of the
    checksummed base58 of xmr/crypto.py.  The hash cn_fast_hash (Keccak-256) is
    a parameter [cn]. *)
From Verif Require Import Py B58Mnr_model.

(** xmr_net.py:1-5 NetworkTypes *)
Definition MAINNET := 0.
Definition TESTNET := 1.
Definition STAGENET := 2.
Definition FAKECHAIN := 3.

(** xmr_net.py:8-23 prefixes of MainNet, TestNet, StageNet *)
Record netp := { p_std : Z; p_int : Z; p_sub : Z }.
Definition MainNet := {| p_std := 18; p_int := 19; p_sub := 42 |}.
Definition TestNet := {| p_std := 53; p_int := 54; p_sub := 63 |}.
Definition StageNet := {| p_std := 24; p_int := 25; p_sub := 36 |}.

(** xmr_net.py:26-52 net_version.  The network may be None. Returns the byte of
    the one-byte string. *)
Definition net_version (network_type : option Z) (is_subaddr is_integrated : bool) : res Z :=
  if is_integrated && is_subaddr then Err ValueError
  else
    let* c_net :=
      match network_type with
      | None => Ok MainNet
      | Some t =>
          if t =? MAINNET then Ok MainNet
          else if t =? TESTNET then Ok TestNet
          else if t =? STAGENET then Ok StageNet
          else Err ValueError
      end in
    Ok (if is_subaddr then p_sub c_net
        else if is_integrated then p_int c_net
        else p_std c_net).

(** addr.py:194-199 is_integrated *)
Definition is_integrated (ver : Z) : bool :=
  existsb (Z.eqb ver) [p_int MainNet; p_int TestNet; p_int StageNet].
(** addr.py:202-207 is_subaddress *)
Definition is_subaddress (ver : Z) : bool :=
  existsb (Z.eqb ver) [p_sub MainNet; p_sub TestNet; p_sub StageNet].
(** addr.py:210-230 get_addr_type *)
Definition get_addr_type (ver : Z) : res Z :=
  if existsb (Z.eqb ver) [p_std MainNet; p_int MainNet; p_sub MainNet] then Ok MAINNET
  else if existsb (Z.eqb ver) [p_std TestNet; p_int TestNet; p_sub TestNet] then Ok TESTNET
  else if existsb (Z.eqb ver) [p_std StageNet; p_int StageNet; p_sub StageNet] then Ok STAGENET
  else Err ValueError.

(** addr.py:12 PubAddress *)
Record pubaddr := { spend_public_key : list Z; view_public_key : list Z }.

Section Hash.
  Variable cn : list Z -> list Z.

  (** crypto.py:110-114 xmr_base58_addr_encode_check; bytes([version]) raises
      outside 0..255 *)
  Definition addr_encode_check (version : Z) (buff : list Z) : res (list Z) :=
    if byte_okb version then
      let buf := version :: buff in
      let h := cn buf in
      b58encode_hex (hexlify (buf ++ py_slice h 0 4))
    else Err ValueError.

  (** crypto.py:117-127 xmr_base58_addr_decode_check *)
  Definition addr_decode_check (buff : list Z) : res (list Z * Z) :=
    let* d := b58decode_bin buff in
    let addr_checksum := py_from d (-4) in
    let calc_checksum := py_upto (cn (py_upto d (-4))) 4 in
    if zlist_eqb addr_checksum calc_checksum then
      match py_upto d 1 with
      | [version] => Ok (py_slice d 1 (-4), version)
      | _ => Err TypeError
      end
    else Err ValueError.

  (** addr.py:65-77 encode_addr: [if payment_id] skips None and empty ids *)
  Definition encode_addr (version : Z) (spend_pub view_pub : list Z) (payment_id : option (list Z)) : res (list Z) :=
    let buf := spend_pub ++ view_pub in
    let buf := match payment_id with Some pid => buf ++ pid | None => buf end in
    addr_encode_check version buf.

  (** addr.py:111-128 public_addr_encode *)
  Definition public_addr_encode (a : pubaddr) (is_sub : bool) (net : option Z) (payment_id : option (list Z)) : res (list Z) :=
    let bad := match payment_id with
               | Some (x :: t) => negb (zlen (x :: t) =? 8)
               | _ => false end in
    if bad then Err ValueError
    else
      let* net_ver := net_version net is_sub (match payment_id with Some _ => true | None => false end) in
      encode_addr net_ver (spend_public_key a) (view_public_key a) payment_id.

  (** addr.py:15-53 AddrInfo *)
  Record addrinfo := {
    ai_view_key : list Z; ai_spend_key : list Z; ai_net_type : Z;
    ai_is_sub : bool; ai_is_int : bool; ai_payment_id : option (list Z);
    ai_addr : list Z; ai_base_addr : list Z }.

  (** addr.py:28-47 set_addr with recompute_addr, called from __init__ with payment_id *)
  Definition set_addr (ver : Z) (data : list Z) (payment_id : option (list Z)) : res addrinfo :=
    let* net_type := get_addr_type ver in
    let is_sub := is_subaddress ver in
    let is_int := is_integrated ver in
    let spend := py_slice data 0 32 in
    let view := py_slice data 32 64 in
    let pid := if is_int then Some (py_from data 64) else payment_id in
    let a := {| spend_public_key := spend; view_public_key := view |} in
    let* base := public_addr_encode a is_sub (Some net_type) None in
    let* addr := public_addr_encode a is_sub (Some net_type) pid in
    Ok {| ai_view_key := view; ai_spend_key := spend; ai_net_type := net_type;
          ai_is_sub := is_sub; ai_is_int := is_int; ai_payment_id := pid;
          ai_addr := addr; ai_base_addr := base |}.

  (** addr.py:80-88 decode_addr *)
  Definition decode_addr (addr : list Z) : res addrinfo :=
    let* (d, version) := addr_decode_check addr in
    set_addr version d None.

  (** addr.py:49-53 recompute_sub *)
  Definition recompute_sub (ai : addrinfo) (spend view : list Z) (major minor : Z) : res addrinfo :=
    let is_sub := negb (major =? 0) && negb (minor =? 0) in
    let a := {| spend_public_key := spend; view_public_key := view |} in
    let* base := public_addr_encode a is_sub (Some (ai_net_type ai)) None in
    let* addr := public_addr_encode a is_sub (Some (ai_net_type ai)) (ai_payment_id ai) in
    Ok {| ai_view_key := view; ai_spend_key := spend; ai_net_type := ai_net_type ai;
          ai_is_sub := is_sub; ai_is_int := ai_is_int ai; ai_payment_id := ai_payment_id ai;
          ai_addr := addr; ai_base_addr := base |}.
End Hash.

(** addr.py:159-169 addr_eq *)
Definition addr_eqb (a b : pubaddr) : bool :=
  zlist_eqb (spend_public_key a) (spend_public_key b) &&
  zlist_eqb (view_public_key a) (view_public_key b).

(** addr.py:56-62 addr_to_hash *)
Definition addr_to_hash (a : pubaddr) : list Z := spend_public_key a ++ view_public_key a.

(** the fields of TxDestinationEntry used here *)
Record dest := { d_amount : Z; d_addr : pubaddr; d_is_subaddress : bool }.

(** addr.py:131-156 classify_subaddresses.  [change_addr] None or an address
    (a namedtuple / message object is always truthy). *)
Fixpoint classify_loop (dests : list dest) (change_addr : option pubaddr)
  (addr_set : list (list Z)) (nstd nsub : Z) (single : option pubaddr) : Z * Z * option pubaddr :=
  match dests with
  | [] => (nstd, nsub, single)
  | tx :: t =>
      if match change_addr with Some c => addr_eqb c (d_addr tx) | None => false end then
        classify_loop t change_addr addr_set nstd nsub single
      else
        let h := addr_to_hash (d_addr tx) in
        if existsb (zlist_eqb h) addr_set then
          classify_loop t change_addr addr_set nstd nsub single
        else if d_is_subaddress tx then
          classify_loop t change_addr (h :: addr_set) nstd (nsub + 1) (Some (d_addr tx))
        else
          classify_loop t change_addr (h :: addr_set) (nstd + 1) nsub single
  end.
Definition classify_subaddresses (dests : list dest) (change_addr : option pubaddr) :=
  classify_loop dests change_addr [] 0 0 None.

(** addr.py:172-191 get_change_addr_idx; [change_coord] is a tuple, hence truthy;
    an amount of 0 is falsy *)
Fixpoint change_idx_loop (outputs : list dest) (c : dest) (idx : Z) (r : option Z) : option Z :=
  match outputs with
  | [] => r
  | o :: t =>
      change_idx_loop t c (idx + 1)
        (if negb (d_amount c =? 0) && (d_amount c =? d_amount o) && addr_eqb (d_addr c) (d_addr o)
         then Some idx else r)
  end.
Definition get_change_addr_idx (outputs : list dest) (change_dts : option dest) : option Z :=
  match change_dts with
  | None => None
  | Some c => change_idx_loop outputs c 0 None
  end.

(** tsx_sign_builder.py:439-452 (init_transaction): which tx key is published.
    Result: (spend key of the destination relative to which r_pub = r*D is
    computed, need_additional_txkeys). *)
Definition txkey_choice (outputs : list dest) (change_addr : option pubaddr) : option (list Z) * bool :=
  let '(nstd, nsub, single) := classify_subaddresses outputs change_addr in
  let rel := if (nstd =? 0) && (nsub =? 1)
             then match single with Some a => Some (spend_public_key a) | None => None end
             else None in
  (rel, (nsub >? 0) && ((nstd >? 0) || (nsub >? 1))).
