(** What the pre-signature hash is, independently of the order of the calls. *)
From Verif Require Import Py Protobuf_spec MlsagHasher_model.

(** bytes of a range proof, all fields in order *)
Definition proof_bytes (r : rsig) : list Z :=
  match r with
  | RList l => concat l
  | RRaw b => b
  | RBp p => bA p ++ bS p ++ bT1 p ++ bT2 p ++ btaux p ++ bmu p ++ concat (bL p) ++ concat (bR p) ++ ba p ++ bb p ++ bt p
  | RBorro r => concat (rs0 r) ++ concat (rs1 r) ++ ree r ++ concat (rCi r)
  end.
(** a range signature over 64 bits *)
Definition proof_wf (r : rsig) : Prop :=
  match r with
  | RBorro r => length (rs0 r) = 64%nat /\ length (rs1 r) = 64%nat /\ length (rCi r) = 64%nat
  | _ => True
  end.
Definition ecdh_bytes (e : ecdh) : list Z := match e with ERaw b => b | EInfo m a => m ++ a end.

(** the three independent streams of calls *)
Definition messages (l : list pop) : list Z := concat (map (fun o => match o with PMessage m => m | _ => [] end) l).
Definition proofs (l : list pop) : list rsig := flat_map (fun o => match o with PRsig r => [r] | _ => [] end) l.
Definition is_base (o : pop) : bool :=
  match o with PMessage _ | PRsig _ | PReload => false | _ => true end.
Definition base_calls (l : list pop) : list pop := filter is_base l.
(** set_out_pk is given either the commitment alone or a record and its mask *)
Definition out_call (o : pop) (x : list Z) : Prop :=
  o = POutPk x None \/ (exists pk, o = POutPk pk (Some x) /\ x <> []).

Definition is_bulletproof (t : Z) : bool := (t =? 3) || (t =? 4).
Definition v_proofs (v : rctsig) : list rsig :=
  if is_bulletproof (v_type v) then map RBp (v_bps v) else map RBorro (v_rsigs v).

(** every byte string is one *)
Definition pop_ok (o : pop) : Prop :=
  match o with
  | PMessage m => bytes_ok m
  | PTypeFee t _ => byte_ok t
  | PPseudo x => bytes_ok x
  | PEcdh e => bytes_ok (ecdh_bytes e)
  | POutPk p m => bytes_ok p /\ match m with Some x => bytes_ok x | None => True end
  | PRsig r => bytes_ok (proof_bytes r) /\ proof_wf r
  | _ => True
  end.
Definition rctsig_ok (v : rctsig) : Prop :=
  bytes_ok (v_message v) /\ 1 <= v_type v <= 4 /\ 0 <= v_fee v /\
  Forall bytes_ok (v_pseudo v) /\ Forall (fun e => bytes_ok (ecdh_bytes e)) (v_ecdh v) /\ Forall bytes_ok (v_outpk v) /\
  length (v_outpk v) = length (v_ecdh v) /\ v_ecdh v <> [] /\
  Forall (fun r => bytes_ok (proof_bytes r) /\ proof_wf r) (v_proofs v).

(** [pre] and [mid] are the calls before and after the base part is closed:
    the structure's parts in order, interleaved in any way with the message,
    the proofs (cut into any batches) and state reloads *)
Definition spells (pre mid : list pop) (v : rctsig) : Prop :=
  (exists simple outs, Forall2 out_call outs (v_outpk v) /\
    base_calls pre = [PInit simple; PTypeFee (v_type v) (v_fee v)] ++
      (if v_type v =? 2 then map PPseudo (v_pseudo v) else []) ++ map PEcdh (v_ecdh v) ++ outs) /\
  base_calls mid = [] /\
  messages pre = v_message v /\ messages mid = [] /\
  concat (map proof_bytes (proofs pre ++ proofs mid)) = concat (map proof_bytes (v_proofs v)).

(** bytes a base call contributes: the type byte and the varint fee, a key, an ECDH
    entry, a commitment *)
Definition base_bytes (o : pop) : list Z :=
  match o with
  | PTypeFee t f => [t] ++ varint f
  | PPseudo x => x
  | PEcdh e => ecdh_bytes e
  | POutPk pk mask => match mask with Some (b :: t) => b :: t | _ => pk end
  | _ => []
  end.
Definition is_out (o : pop) : Prop := exists pk mask, o = POutPk pk mask.
