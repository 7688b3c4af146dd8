(** Model of the agent's side of the signing protocol:
    monero_glue/agent/agent_lite.py Agent.sign_transaction_data and its helpers.
    The device is the function [tsx_sign]; the k-th call draws the tape [tp k].
    Simplifications: a serialised input is kept as bytes (parse_msg and dump_msg
    of TxInV are mutually inverse; its key image is its last 32 bytes); a
    bulletproof sent to the device is serialised by [dump_rsig_bp] (dump_msg of
    the same fields); the transaction object is the record [signed] of the pieces put in it.
    The agent's own check of received range proofs only logs (708-721) and is left out. *)
From Verif Require Import Py Addr_model Lists_model Signer_model Signer_spec.

(** lists of bytes compared as Python compares bytes *)
Fixpoint bytes_ltb (a b : list Z) : bool :=
  match a, b with
  | [], [] => false
  | [], _ => true
  | _, [] => false
  | x :: a, y :: b => if x =? y then bytes_ltb a b else x <? y
  end.
(** agent_lite.py:427-430 source_permutation.sort(key=..., reverse=True): stable, descending *)
Fixpoint ins_desc (key : Z -> list Z) (x : Z) (l : list Z) : list Z :=
  match l with
  | [] => [x]
  | h :: t => if bytes_ltb (key h) (key x) || negb (bytes_ltb (key x) (key h)) && (x <? h) then x :: h :: t
              else h :: ins_desc key x t
  end.
Definition sort_desc (key : Z -> list Z) (l : list Z) : list Z := fold_right (ins_desc key) [] l.

(** the input of the agent: TxConstructionData, the agent's hf and client_version *)
Record construction := { tc_payment_id : option (list Z); tc_unlock_time : Z; tc_dsts : list dst_entry;
  tc_change : option dst_entry; tc_sources : list src_entry; tc_account : option Z; tc_minor : list Z;
  tc_use_bulletproofs : bool; tc_hf : Z; tc_client_version : Z }.
(** what the agent keeps per input *)
Record in_data := { id_src : src_entry; id_vini : list Z; id_tag : list Z; id_pseudo : list Z; id_pseudo_tag : list Z;
                    id_alpha : list Z; id_spend : list Z }.
(** the signed transaction *)
Record signed := { sg_unlock : Z; sg_vin : list (list Z); sg_vout : list (list Z); sg_extra : list Z;
                   sg_type : Z; sg_fee : Z; sg_ecdh : list (list Z); sg_out_pk : list (list Z);
                   sg_rsigs : list (list Z); sg_pseudo_outs : list (list Z); sg_sigs : list (list Z) }.

Section Agent.
  Context (C : ops) (cr : creds C) (tp : nat -> tape) (host_seed : nat -> Z).

  (** agent's connection: device state and the exchanges so far *)
  Definition conn : Type := option (builder C) * list event.
  (** trezor.tsx_sign and handle_error *)
  Definition call (m : msg) (s : conn) : res (conn * resp) :=
    let '(st, ev) := s in
    let t := tp (length ev) in
    match tsx_sign C cr st t m with
    | (_, RFailure) => Err MoneroError
    | (st', r) => Ok ((st', ev ++ [(t, m, r)]), r)
    end.

  Definition zsum_map {A} (f : A -> Z) (l : list A) : Z := fold_left (fun a x => a + f x) l 0.
  (** agent_lite.py:354-388: the init message *)
  Definition agent_init (x : construction) : res tsx_data :=
    let num_outputs := zlen (tc_dsts x) in
    let rsig_type := get_rsig_type (tc_use_bulletproofs x) num_outputs in
    let* batches := generate_rsig_batch_sizes rsig_type num_outputs in
    Ok {| td_payment_id := tc_payment_id x; td_unlock_time := tc_unlock_time x; td_outputs := tc_dsts x;
          td_change := tc_change x; td_num_inputs := zlen (tc_sources x);
          td_fee := zsum_map se_amount (tc_sources x) - zsum_map de_amount (tc_dsts x);
          td_account := tc_account x; td_minor_indices := tc_minor x;
          td_client_version := Some (tc_client_version x); td_rsig_type := rsig_type; td_grouping := batches;
          td_bp_version := if 10 <=? tc_hf x then Some 2 else None |}.

  (** agent_lite.py:406-424 *)
  Definition agent_inputs (srcs : list src_entry) (s : conn) : res (conn * list in_data) :=
    foldM (fun '(s, acc) src =>
      let* (s, r) := call (MSetInput src) s in
      match r with
      | RSetInput vini tag po ptag al sp =>
          Ok (s, acc ++ [{| id_src := src; id_vini := vini; id_tag := tag; id_pseudo := po; id_pseudo_tag := ptag; id_alpha := al; id_spend := sp |}])
      | _ => Err TypeError
      end) srcs (s, []).
  Definition k_image (vini : list Z) : list Z := skipn (length vini - 32) vini.

  (** the outputs phase: gammas, current batch, position in the batch, outputs so far *)
  Record out_st := { os_conn : conn; os_gamma : list (list Z); os_batch : Z; os_in_batch : Z;
                     os_vout : list (list Z); os_ecdh : list (list Z); os_out_pk : list (list Z); os_rsigs : list (list Z) }.
  (** agent_lite.py:607-641 _rct_offload with bulletproofs: the proof bytes, if the batch is full *)
  Definition rct_offload (dsts : list dst_entry) (batches : list Z) (idx : Z) (o : out_st) : res (option (list Z)) :=
    let* size := py_get batches (os_batch o) in
    if os_in_batch o <? size then Ok None
    else
      let* ams := mapM (fun i => let* d := py_get dsts (1 + idx - size + i) in Ok (de_amount d)) (zrange size) in
      let* ms := mapM (fun i => let* g := py_get (os_gamma o) (1 + idx - size + i) in Ok (dec_int C g)) (zrange size) in
      let* p := prove_bp C ams ms (host_seed (length (os_rsigs o))) in
      let* bs := dump_rsig_bp C p in
      Ok (Some bs).
  (** agent_lite.py:477-487, 585-605, 643-690, 723-738 *)
  Definition agent_output (x : construction) (tags : list (list Z)) (offload : bool) (batches : list Z) (o : out_st) (idx : Z) : res out_st :=
    let* dst := py_get (tc_dsts x) idx in
    let* tag := py_get tags idx in
    let o := {| os_conn := os_conn o; os_gamma := os_gamma o; os_batch := os_batch o; os_in_batch := os_in_batch o + 1;
                os_vout := os_vout o; os_ecdh := os_ecdh o; os_out_pk := os_out_pk o; os_rsigs := os_rsigs o |} in
    let* pre := (if (tc_client_version x =? 0) && offload then rct_offload (tc_dsts x) batches idx o else Ok None) in
    let o := match pre with
             | Some bs => {| os_conn := os_conn o; os_gamma := os_gamma o; os_batch := os_batch o; os_in_batch := os_in_batch o;
                             os_vout := os_vout o; os_ecdh := os_ecdh o; os_out_pk := os_out_pk o; os_rsigs := os_rsigs o ++ [bs] |}
             | None => o end in
    let* (s, r) := call (MSetOutput (Some dst) tag pre false) (os_conn o) in
    match r with
    | RSetOutput tx_out _ rsig mask out_pk ecdh =>
        let gamma := match mask with
                     | Some g => if 1 <=? tc_client_version x then os_gamma o ++ [g] else os_gamma o
                     | None => os_gamma o end in
        let o := {| os_conn := s; os_gamma := gamma; os_batch := os_batch o; os_in_batch := os_in_batch o;
                    os_vout := os_vout o ++ [tx_out]; os_ecdh := os_ecdh o ++ [ecdh]; os_out_pk := os_out_pk o ++ [out_pk]; os_rsigs := os_rsigs o |} in
        let next o rs := {| os_conn := os_conn o; os_gamma := os_gamma o; os_batch := os_batch o + 1; os_in_batch := 0;
                            os_vout := os_vout o; os_ecdh := os_ecdh o; os_out_pk := os_out_pk o; os_rsigs := os_rsigs o ++ rs |} in
        if (1 <=? tc_client_version x) && offload then
          let* pre := rct_offload (tc_dsts x) batches idx o in
          match pre with
          | None => Ok o
          | Some bs =>
              let* (s, _) := call (MSetOutput None [] (Some bs) true) (os_conn o) in
              Ok (next {| os_conn := s; os_gamma := os_gamma o; os_batch := os_batch o; os_in_batch := os_in_batch o;
                          os_vout := os_vout o; os_ecdh := os_ecdh o; os_out_pk := os_out_pk o; os_rsigs := os_rsigs o |} [bs])
          end
        else match rsig with
             | Some ((_ :: _) as bs) => Ok (next o [bs])
             | _ => Ok o
             end
    | _ => Err TypeError
    end.

  (** agent_lite.py:567-583 _on_all_input_set *)
  Definition agent_gammas (x : construction) (offload : bool) (masks : option (list Z)) : res (list (list Z)) :=
    if negb offload || (0 <? tc_client_version x) then Ok []
    else match masks with
         | None => Err ValueError
         | Some m =>
             let* _ := guard (zlen m =? zlen (tc_dsts x) * 32) ValueError in
             Ok (map (fun i => py_slice m (i * 32) ((i + 1) * 32)) (zrange (zlen m / 32)))
         end.

  (** monero.py:330-337 get_transaction_prefix_hash: version 2, unlock time, inputs, outputs, extra *)
  Definition prefix_blob (unlock : Z) (vin vout : list (list Z)) (extra : list Z) : res (list Z) :=
    let* v := uvarint 2 in
    let* u := uvarint unlock in
    let* n := uvarint (zlen vin) in
    let* m := uvarint (zlen vout) in
    let* e := uvarint (zlen extra) in
    Ok (v ++ u ++ n ++ concat vin ++ m ++ concat vout ++ e ++ extra).

  (** agent_lite.py:532-557: the signatures; new pseudo outputs when client_version > 0 *)
  Definition agent_signs (x : construction) (ins : list in_data) (s : conn) : res (conn * list (list Z * list Z)) :=
    foldM (fun '(s, acc) i =>
      let* (s, r) := call (MSign (id_src i) (id_vini i) (id_tag i) (Some (id_pseudo i)) (id_pseudo_tag i) (Some (id_alpha i)) (id_spend i)) s in
      match r with
      | RSign sig po =>
          Ok (s, acc ++ [(sig, if (0 <? tc_client_version x) && (0 <? zlen po) then po else id_pseudo i)])
      | _ => Err TypeError
      end) ins (s, []).

  (** mlsag_hasher.py:154-210 get_pre_mlsag_hash for the bulletproof signature types: message, then the
      hash of the serialised RctSigBase (no pseudo outputs in these types), then the hash of the proofs *)
  Definition oneshot (message : list Z) (ty fee : Z) (ecdh out_pk rsigs : list (list Z)) : res (list Z) :=
    let* f := uvarint fee in
    let* ps := mapM (parse_bp C) rsigs in
    Ok (cn_hash C (message ++ cn_hash C ([ty] ++ f ++ concat ecdh ++ concat out_pk) ++ cn_hash C (concat (map (bp_bytes C) ps)))).

  (** agent_lite.py:319-565 sign_transaction_data.  Result: the exchanges and the transaction. *)
  Definition sign_transaction_data
    (x : construction) (st : option (builder C)) : res (conn * signed) :=
    let* d := agent_init x in
    let* (s, r) := call (MInit d) (st, []) in
    match r with
    | RInit tags offload =>
        let* (s, ins) := agent_inputs (tc_sources x) s in
        let perm := sort_desc (fun i => match py_get ins i with Ok a => k_image (id_vini a) | Err _ => [] end) (zrange (zlen (tc_sources x))) in
        let* ins := apply_permutation swap_elems perm ins in
        let* (s, _) := call (MPerm perm) s in
        let* s := foldM (fun s i => let* (s, _) := call (MVini (id_src i) (id_vini i) (id_tag i)) s in Ok s) ins s in
        let* (s, r) := call MAllIn s in
        let* gammas := agent_gammas x offload (match r with RAllIn m => m | _ => None end) in
        let* o := foldM (agent_output x tags offload (td_grouping d))
                    (zrange (zlen (tc_dsts x)))
                    {| os_conn := s; os_gamma := gammas; os_batch := 0; os_in_batch := 0; os_vout := []; os_ecdh := []; os_out_pk := []; os_rsigs := [] |} in
        let* (s, r) := call MAllOut (os_conn o) in
        match r with
        | RAllOut extra prefix_hash fee ty full =>
            let* blob := prefix_blob (tc_unlock_time x) (map id_vini ins) (os_vout o) extra in
            let* _ := guard (zlist_eqb prefix_hash (cn_hash C blob)) ValueError in
            let* full' := oneshot prefix_hash ty fee (os_ecdh o) (map (skipn 32) (os_out_pk o)) (os_rsigs o) in
            let* _ := guard (zlist_eqb full full') ValueError in
            let* (s, sigs) := agent_signs x ins s in
            let* (s, _) := call MFinal s in
            Ok (s, {| sg_unlock := tc_unlock_time x; sg_vin := map id_vini ins; sg_vout := os_vout o; sg_extra := extra;
                      sg_type := ty; sg_fee := fee; sg_ecdh := os_ecdh o; sg_out_pk := map (skipn 32) (os_out_pk o);
                      sg_rsigs := os_rsigs o; sg_pseudo_outs := map snd sigs; sg_sigs := map fst sigs |})
        | _ => Err TypeError
        end
    | _ => Err TypeError
    end.
End Agent.
