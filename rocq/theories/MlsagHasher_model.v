(** monero_glue/xmr/sub/mlsag_hasher.py on top of the Keccak model: the
    piecewise hasher and the one-shot function. *)
From Verif Require Import Py Protobuf_model Keccak_model.

(** range proofs: xmrtypes.Bulletproof and RangeSig, keys as byte strings *)
Record bproof := { bA : list Z; bS : list Z; bT1 : list Z; bT2 : list Z; btaux : list Z; bmu : list Z;
                   bL : list (list Z); bR : list (list Z); ba : list Z; bb : list Z; bt : list Z }.
Record rangesig := { rs0 : list (list Z); rs1 : list (list Z); ree : list Z; rCi : list (list Z) }.

(** keccak_hasher.py:92-95 HashWrapper.update; 106-108 AHashWriter.write *)
Definition hw_update (h : khash) (buf : list Z) : res khash := if zlen buf =? 0 then Ok h else kh_update h buf.
(** successive ctx.update calls *)
Definition updates (h : khash) (l : list (list Z)) : res khash := foldM kh_update l h.

(** mlsag_hasher.py:6-22 *)
Record pmh := { h_simple : option bool; h_state : Z; h_master : khash; h_rsig : option khash; h_rct : option khash }.
Definition pmh_new : pmh :=
  {| h_simple := None; h_state := 0; h_master := Keccak256; h_rsig := Some Keccak256; h_rct := Some Keccak256 |}.

(** mlsag_hasher.py:24-31 *)
Definition state_save (h : pmh) := (h_simple h, h_state h, h_master h, h_rsig h, h_rct h).
(** mlsag_hasher.py:11-20 with a state, and 33-43 *)
Definition state_load x : pmh :=
  let '(a, b, c, d, e) := x in {| h_simple := a; h_state := b; h_master := c; h_rsig := d; h_rct := e |}.

(** bytes written to the base hasher: KeccakXmrArchive.field / message_field /
    buffer (keccak_hasher.py:57-76); None hasher: AttributeError *)
Definition rct_write (h : pmh) (st : Z) (bs : list (list Z)) : res pmh :=
  match h_rct h with
  | None => Err AttributeError
  | Some k => let* k := foldM hw_update bs k in
      Ok {| h_simple := h_simple h; h_state := st; h_master := h_master h; h_rsig := h_rsig h; h_rct := Some k |}
  end.
(** mlsag_hasher.py:45-50 *)
Definition p_init (h : pmh) (is_simple : bool) : res pmh :=
  let* _ := guard (h_state h =? 0) ValueError in
  Ok {| h_simple := Some is_simple; h_state := 1; h_master := h_master h; h_rsig := h_rsig h; h_rct := h_rct h |}.
(** mlsag_hasher.py:52-53 *)
Definition p_message (h : pmh) (m : list Z) : res pmh :=
  let* k := hw_update (h_master h) m in
  Ok {| h_simple := h_simple h; h_state := h_state h; h_master := k; h_rsig := h_rsig h; h_rct := h_rct h |}.
(** mlsag_hasher.py:55-64: RctSigBase fields are type (uint8) and txnFee (uvarint) *)
Definition p_type_fee (h : pmh) (t fee : Z) : res pmh :=
  let* _ := guard (h_state h =? 1) ValueError in
  let* f := dump_uvarint bytes_write [] fee in
  rct_write h 2 [[t]; f].
(** mlsag_hasher.py:66-73 *)
Definition p_pseudo (h : pmh) (out : list Z) : res pmh :=
  let* _ := guard ((h_state h =? 2) || (h_state h =? 3)) ValueError in rct_write h 3 [out].
(** mlsag_hasher.py:75-86; not raw: EcdhInfo is its two keys mask, amount *)
Inductive ecdh := ERaw (b : list Z) | EInfo (mask amount : list Z).
Definition p_ecdh (h : pmh) (e : ecdh) : res pmh :=
  let* _ := guard ((h_state h =? 2) || (h_state h =? 3) || (h_state h =? 4)) ValueError in
  match e with ERaw b => rct_write h 4 [b] | EInfo m a => rct_write h 4 [m; a] end.
(** mlsag_hasher.py:88-95; [mask if mask else out_pk] *)
Definition p_out_pk (h : pmh) (out_pk : list Z) (mask : option (list Z)) : res pmh :=
  let* _ := guard ((h_state h =? 4) || (h_state h =? 5)) ValueError in
  rct_write h 5 [match mask with Some (b :: t) => b :: t | _ => out_pk end].
(** mlsag_hasher.py:97-104 *)
Definition p_base_done (h : pmh) : res pmh :=
  let* _ := guard (h_state h =? 5) ValueError in
  match h_rct h with
  | None => Err AttributeError
  | Some k => let* (_, c) := kh_digest k in let* m := hw_update (h_master h) c in
      Ok {| h_simple := h_simple h; h_state := 6; h_master := m; h_rsig := h_rsig h; h_rct := None |}
  end.
(** the updates of 118-140, in order; range(64) indexes raise IndexError on short lists *)
Definition bp_chunks (p : bproof) : list (list Z) :=
  [bA p; bS p; bT1 p; bT2 p; btaux p; bmu p] ++ bL p ++ bR p ++ [ba p; bb p; bt p].
Definition first64 (l : list (list Z)) : res (list (list Z)) :=
  if (length l <? 64)%nat then Err IndexError else Ok (firstn 64 l).
Definition rs_chunks (r : rangesig) : res (list (list Z)) :=
  let* a := first64 (rs0 r) in let* b := first64 (rs1 r) in let* c := first64 (rCi r) in
  Ok (a ++ b ++ [ree r] ++ c).
Inductive rsig := RList (l : list (list Z)) | RRaw (b : list Z) | RBp (p : bproof) | RBorro (r : rangesig).
Definition rsig_chunks (r : rsig) : res (list (list Z)) :=
  match r with RList l => Ok l | RRaw b => Ok [b] | RBp p => Ok (bp_chunks p) | RBorro r => rs_chunks r end.
(** mlsag_hasher.py:106-140 *)
Definition p_rsig (h : pmh) (r : rsig) : res pmh :=
  let* _ := guard (negb (h_state h =? 8)) ValueError in
  match h_rsig h with
  | None => Err AttributeError
  | Some k => let* cs := rsig_chunks r in let* k := updates k cs in
      Ok {| h_simple := h_simple h; h_state := h_state h; h_master := h_master h; h_rsig := Some k; h_rct := h_rct h |}
  end.
(** mlsag_hasher.py:142-151 *)
Definition p_digest (h : pmh) : res (pmh * list Z) :=
  let* _ := guard (h_state h =? 6) ValueError in
  match h_rsig h with
  | None => Err AttributeError
  | Some k => let* (_, c) := kh_digest k in let* m := hw_update (h_master h) c in let* (m, d) := kh_digest m in
      Ok ({| h_simple := h_simple h; h_state := 8; h_master := m; h_rsig := None; h_rct := h_rct h |}, d)
  end.

(** calls on the object; [PReload]: state_save followed by state_load (the state
    kept between two protocol messages, tsx_sign_builder.py:110-160) *)
Inductive pop :=
| PInit (simple : bool) | PMessage (m : list Z) | PTypeFee (t fee : Z) | PPseudo (out : list Z) | PEcdh (e : ecdh)
| POutPk (pk : list Z) (mask : option (list Z)) | PBaseDone | PRsig (r : rsig) | PDigest | PReload.
Definition pstep (h : pmh) (o : pop) : res (pmh * list (list Z)) :=
  let ret x := let* h := x in Ok (h, []) in
  match o with
  | PInit s => ret (p_init h s) | PMessage m => ret (p_message h m) | PTypeFee t f => ret (p_type_fee h t f)
  | PPseudo x => ret (p_pseudo h x) | PEcdh e => ret (p_ecdh h e) | POutPk p m => ret (p_out_pk h p m)
  | PBaseDone => ret (p_base_done h) | PRsig r => ret (p_rsig h r)
  | PDigest => let* (h, d) := p_digest h in Ok (h, [d])
  | PReload => Ok (state_load (state_save h), [])
  end.
Fixpoint prun (h : pmh) (l : list pop) : res (pmh * list (list Z)) :=
  match l with
  | [] => Ok (h, [])
  | o :: l => let* (h, d) := pstep h o in let* (h, ds) := prun h l in Ok (h, d ++ ds)
  end.

(** one-shot: the signature structure.  RctType: Null 0, Full 1, Simple 2,
    Bulletproof 3, Bulletproof2 4 *)
Record rctsig := { v_message : list Z; v_type : Z; v_fee : Z; v_pseudo : list (list Z); v_ecdh : list ecdh;
                   v_outpk : list (list Z); v_bps : list bproof; v_rsigs : list rangesig }.
(** RctSigBase.serialize_rctsig_base (monero_serialize, not in /repo): type, fee,
    for Simple the pseudo outputs, then the ECDH entries and output masks; a
    wrong number of entries raises *)
Definition ecdh_chunks (e : ecdh) : list (list Z) := match e with ERaw b => [b] | EInfo m a => [m; a] end.
Definition base_chunks (v : rctsig) : res (list (list Z)) :=
  if v_type v =? 0 then Ok [[v_type v]]
  else if negb ((1 <=? v_type v) && (v_type v <=? 4)) then Err ValueError
  else if negb (zlen (v_outpk v) =? zlen (v_ecdh v)) then Err ValueError
  else let* f := dump_uvarint bytes_write [] (v_fee v) in
    Ok ([[v_type v]; f] ++ (if v_type v =? 2 then v_pseudo v else []) ++ flat_map ecdh_chunks (v_ecdh v) ++ v_outpk v).
(** mlsag_hasher.py:154-211 *)
Definition get_pre_mlsag_hash (v : rctsig) : res (list Z) :=
  let* m := hw_update Keccak256 (v_message v) in
  let* bc := base_chunks v in
  let* k := foldM hw_update bc Keccak256 in
  let* (_, c) := kh_digest k in
  let* m := hw_update m c in
  let* kc :=
    if (v_type v =? 3) || (v_type v =? 4)
    then foldM (fun k p => updates k (bp_chunks p)) (v_bps v) Keccak256
    else foldM (fun k r => let* cs := rs_chunks r in updates k cs) (v_rsigs v) Keccak256 in
  let* (_, c) := kh_digest kc in
  let* m := hw_update m c in
  let* (_, d) := kh_digest m in
  Ok d.
