(** Model of monero_glue/xmr/transaction_builder.py: making up inputs, outputs and change of a request, and handing it to the agent.
    The generator of random numbers is replaced by the numbers it returns.  Entries of the builder are kept as the agent
    translates them (hwtoken/misc.py:78-108, which copies neither the multisignature data of a source nor the
    original text of a destination into the message); the text is kept beside.  Left out: the extra field of made up
    transactions and of the request (set_payment_id), which need a serialiser of the library monero_serialize, the
    bookkeeping of key owners, and the printing in describe. *)
From Verif Require Import Py Digits Addr_model Lists_model Signer_model Agent_model Ints_model Ec_model Rsig_model Mlsag_model Wallet_model.

Section Builder.
Context (E : ecops).
Local Notation pt := (pt E).

(** the numbers drawn by one call of gen_input, in the order of the code; functions where a loop draws *)
Record draws := {
  dr_r : Z;                    (* 177 getrandbits *)
  dr_oidx : Z; dr_cnt : Z;     (* 200-201 randint *)
  dr_mask : Z;                 (* 218 getrandbits *)
  dr_ring : nat -> Z * Z;      (* 224-225 getrandbits, twice for every decoy *)
  dr_index : Z;                (* 229 randint *)
  dr_adds : nat -> Z;          (* 232 getrandbits *)
  dr_glob : nat -> Z;          (* 236 randint *)
  dr_vout : nat -> Z;          (* 264 and 164 getrandbits *)
}.
(** 128-130: reduced, written big-endian, read little-endian *)
Definition random_scalar (bits : Z) : Z := dec_sc (rev (le_digits 256 32 (bits mod l))).
(** 132-133 *)
Definition random_pub (bits : Z) : pt := scalarmult_base E (random_scalar bits).

(** TransferDetails, as far as it is not constant or random *)
Record transfer := { tr_index : Z; tr_global : Z; tr_mask : list Z; tr_amount : Z; tr_sub : Z * Z; tr_vout : list (list Z); tr_image : list Z }.
(** 105-126: the fields in use; [bo_text] is the text of the addresses of the outputs *)
Record bld := { bo_keys : Wallet_model.creds E; bo_ring : Z; bo_net : Z; bo_fee : Z; bo_account : Z;
  bo_transfers : list transfer; bo_selected : list Z; bo_sources : list src_entry;
  bo_outputs : list dst_entry; bo_text : list (list Z); bo_change : option Z }.

(** 531-545 check_input *)
Definition check_input (keys : Wallet_model.creds E) (subs : subaddrs) (s : src_entry) : res (Z * pt * pt) :=
  let* real := py_get (se_outputs s) (se_real_output s) in
  let* T := decp E (se_real_out_tx_key s) in
  let* add := mapM (decp E) (se_additional s) in
  let* P := decp E (re_dest real) in
  generate_key_image_helper E keys subs P T add (se_real_output_in_tx_index s).

Definition sc_init (v : Z) : res Z := if 2 ^ 64 <=? v then Err ValueError else Ok (v mod l). (* ec_py.py:450-453 *)
(** 175-292 gen_input *)
Definition gen_input (b : bld) (value : Z) (major : option Z) (minor : Z) (additionals : bool) (d : draws) : res bld :=
  let keys := bo_keys b in
  let r := random_scalar (dr_r d) in
  let M := match major with Some M => M | None => bo_account b end in
  let is_sub := negb (M =? 0) || negb (minor =? 0) in
  let* kssec := get_subaddress_secret_key E (cr_view E keys) M minor in
  let kssub := if is_sub then sc_add kssec (cr_spend E keys) else cr_spend E keys in
  let* (KSSUB, KVSUB) := generate_sub_address_keys E (cr_view E keys) (cr_spend_pub E keys) M minor in
  let* _ := guard (pt_eqb E KSSUB (scalarmult_base E kssub)) ValueError in
  let oidx := dr_oidx d in
  let* deriv := generate_key_derivation E KVSUB r in
  let* kout := derive_secret_key E deriv oidx kssub in
  let KOUT := derive_public_key E deriv oidx KSSUB in
  let* _ := guard (pt_eqb E KOUT (scalarmult_base E kout)) ValueError in
  let own := if is_sub then scalarmult E KSSUB r else scalarmult_base E r in
  let R := if additionals then scalarmult_base E r else own in
  let* amnt := sc_init value in
  let msk := random_scalar (dr_mask d) in
  let C := add_keys2 E msk amnt (Hb E) in
  let decoys := map (fun i => (encp E (random_pub (fst (dr_ring d i))), encp E (random_pub (snd (dr_ring d i))))) (seq 0 (Z.to_nat (bo_ring b - 1))) in
  let n := Z.to_nat (dr_index d) in
  let ring := firstn n decoys ++ (encp E KOUT, encp E C) :: skipn n decoys in
  let* adds := if additionals then py_set (map (fun i => random_pub (dr_adds d i)) (seq 0 (Z.to_nat (dr_cnt d)))) oidx own else Ok [] in
  let outputs := map (fun ix => {| re_idx := dr_glob d (fst ix); re_dest := fst (snd ix); re_commitment := snd (snd ix) |}) (combine (seq 0 (length ring)) ring) in
  let src := {| se_outputs := outputs; se_real_output := dr_index d; se_real_out_tx_key := encp E R; se_additional := map (encp E) adds;
    se_real_output_in_tx_index := oidx; se_amount := value; se_rct := Some true; se_mask := Some (enc_sc msk); se_multisig := None; se_subaddr_minor := None |} in
  let* real := py_get outputs (dr_index d) in
  let* vout := py_set (map (fun i => encp E (random_pub (dr_vout d i))) (seq 0 (Z.to_nat (dr_cnt d)))) oidx (encp E KOUT) in
  let* tmpsubs := compute_subaddresses E (cr_view E keys) (cr_spend_pub E keys) M [minor] [] in
  let* (xk, _) := check_input keys tmpsubs src in
  let '(xi, ki) := xk in
  let* _ := guard (xi =? kout) ValueError in
  let td := {| tr_index := oidx; tr_global := re_idx real; tr_mask := enc_sc msk; tr_amount := value; tr_sub := (M, minor); tr_vout := vout; tr_image := encp E ki |} in
  let* P := decp E (re_dest real) in
  let* _ := guard (pt_eqb E P (scalarmult_base E kout)) ValueError in
  Ok {| bo_keys := keys; bo_ring := bo_ring b; bo_net := bo_net b; bo_fee := bo_fee b; bo_account := bo_account b;
        bo_transfers := bo_transfers b ++ [td]; bo_selected := bo_selected b ++ [zlen (bo_transfers b)]; bo_sources := bo_sources b ++ [src];
        bo_outputs := bo_outputs b; bo_text := bo_text b; bo_change := bo_change b |}.

(** 294-322 gen_output; the destination is given (the code may draw it from a list) *)
Definition gen_output (b : bld) (value : Z) (dest : Wallet_model.creds E) (M minor : Z) (pid : option (list Z)) : res bld :=
  let is_sub := negb (M =? 0) || negb (minor =? 0) in
  let* _ := guard (negb (is_sub && match pid with Some _ => true | None => false end)) ValueError in
  let* (KS, KV) := generate_sub_address_keys E (cr_view E dest) (cr_spend_pub E dest) M minor in
  let a := {| spend_public_key := encp E KS; view_public_key := encp E KV |} in
  let* text := public_addr_encode (hash E) a is_sub (Some (bo_net b)) pid in
  Ok {| bo_keys := bo_keys b; bo_ring := bo_ring b; bo_net := bo_net b; bo_fee := bo_fee b; bo_account := bo_account b;
        bo_transfers := bo_transfers b; bo_selected := bo_selected b; bo_sources := bo_sources b;
        bo_outputs := bo_outputs b ++ [{| de_amount := value; de_addr := a; de_is_subaddress := Some is_sub; de_original := None; de_is_integrated := None |}];
        bo_text := bo_text b ++ [text]; bo_change := bo_change b |}.
(** 324-333 gen_change *)
Definition set_change (b : bld) (i : Z) : bld :=
  {| bo_keys := bo_keys b; bo_ring := bo_ring b; bo_net := bo_net b; bo_fee := bo_fee b; bo_account := bo_account b;
     bo_transfers := bo_transfers b; bo_selected := bo_selected b; bo_sources := bo_sources b; bo_outputs := bo_outputs b; bo_text := bo_text b; bo_change := Some i |}.
Definition gen_change (b : bld) (value : option Z) : res bld :=
  let inc_total := zsum_map se_amount (bo_sources b) in
  let out_total := zsum_map de_amount (bo_outputs b) in
  let to_change := match value with Some v => v | None => inc_total - out_total - bo_fee b end in
  let* _ := guard (0 <=? to_change) ValueError in
  let* b := gen_output b to_change (bo_keys b) (bo_account b) 0 None in
  Ok (set_change b (zlen (bo_outputs b) - 1)).

(** list(set(...)) of 401, in some order *)
Definition distinct (zs : list Z) : list Z := nodup Z.eq_dec zs.
(** 382-406 build, then agent_lite.py:340-375 with no payment id in the empty extra field; without change the agent reads an
    attribute of None.  [hf] and [client] are the agent's. *)
Definition build (b : bld) (hf client : Z) : res construction :=
  match bo_change b with
  | None => Err AttributeError
  | Some i =>
      let* ch := py_get (bo_outputs b) i in
      Ok {| tc_payment_id := Some []; tc_unlock_time := 0; tc_dsts := bo_outputs b; tc_change := Some ch; tc_sources := bo_sources b;
            tc_account := Some (bo_account b); tc_minor := distinct (map (fun t => fst (tr_sub t)) (bo_transfers b));
            tc_use_bulletproofs := true; tc_hf := hf; tc_client_version := client |}
  end.

(** calls on a builder *)
Inductive call :=
  | Input (value : Z) (major : option Z) (minor : Z) (additionals : bool) (d : draws)
  | Output (value : Z) (dest : Wallet_model.creds E) (M minor : Z) (pid : option (list Z))
  | Change (value : option Z).
Definition step (b : bld) (c : call) : res bld :=
  match c with
  | Input v M m a d => gen_input b v M m a d
  | Output v dest M m pid => gen_output b v dest M m pid
  | Change v => gen_change b v
  end.
Definition run (b : bld) (cs : list call) : res bld := foldM step cs b.
(** 105-126: a new builder with its keys, account, fee and ring size set *)
Definition fresh (keys : Wallet_model.creds E) (account fee ring net : Z) : bld :=
  {| bo_keys := keys; bo_ring := ring; bo_net := net; bo_fee := fee; bo_account := account; bo_transfers := []; bo_selected := []; bo_sources := [];
     bo_outputs := []; bo_text := []; bo_change := None |}.
End Builder.
