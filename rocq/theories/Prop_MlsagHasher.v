(** C27: the piecewise transaction hash. *)
From Verif Require Import Py PyLemmas Protobuf_spec Keccak_model Keccak_spec Keccak_proof3.
From Verif Require Import MlsagHasher_model MlsagHasher_spec MlsagHasher_proof.

(** Piecewise equals one-shot, for every signature type, any number of inputs,
    outputs and proofs, any interleaving of the three streams, any batching of
    the proofs, and with the hasher saved and reloaded at any point. *)
Theorem C27_piecewise_equals_oneshot : forall pre mid v,
  rctsig_ok v -> Forall pop_ok pre -> Forall pop_ok mid -> spells pre mid v ->
  exists h d, prun pmh_new (pre ++ PBaseDone :: mid ++ [PDigest]) = Ok (h, [d]) /\ get_pre_mlsag_hash v = Ok d.
Proof. exact incremental_is_oneshot. Qed.
Print Assumptions C27_piecewise_equals_oneshot.

(** Conversely a hasher only ever returns a digest once, and only after the parts
    came in the prescribed order; the digest is then
    Keccak(message || Keccak(base) || Keccak(proofs)). *)
Theorem C27_only_in_order : forall l h ds, Forall pop_ok l -> prun pmh_new l = Ok (h, ds) -> ds <> [] ->
  exists pre mid post d hb hp, l = pre ++ PBaseDone :: mid ++ PDigest :: post /\ ds = [d] /\
    (exists s t f ps es outs, base_calls pre = PInit s :: PTypeFee t f :: map PPseudo ps ++ map PEcdh es ++ outs /\
       0 <= f /\ es <> [] /\ Forall is_out outs /\ outs <> []) /\
    base_calls mid = [] /\
    is_keccak 136 32 (concat (map base_bytes (base_calls pre))) hb /\
    is_keccak 136 32 (concat (map proof_bytes (proofs pre ++ proofs mid))) hp /\
    is_keccak 136 32 (messages pre ++ hb ++ messages mid ++ hp) d.
Proof.
  intros l h ds Hl E N. destruct (history_form l h ds Hl E N) as (pre & mid & post & El & Sh & Bm & (B1 & B2 & B3 & B4) & D).
  exists pre, mid, post. eexists. exists (K (concat (map base_bytes (base_calls pre)))), (K (concat (map proof_bytes (proofs pre ++ proofs mid)))).
  split; [exact El|]. split; [exact D|]. split; [exact Sh|]. split; [exact Bm|].
  split; [apply K_spec, B2|]. split; [apply K_spec, B4|]. apply K_spec.
  apply bytes_ok_app; split; [exact B1|]. apply bytes_ok_app; split; [apply K_bytes, B2|].
  apply bytes_ok_app; split; [exact B3|apply K_bytes, B4].
Qed.
Print Assumptions C27_only_in_order.

(** a two-output Bulletproof signature: message first, one proof before and one
    after the outputs, a reload in the middle *)
Definition ex_bp (x : Z) : bproof :=
  {| bA := [x]; bS := [2]; bT1 := [3]; bT2 := [4]; btaux := [5]; bmu := [6]; bL := [[7]; [8]]; bR := [[9]; [10]];
     ba := [11]; bb := [12]; bt := [13] |}.
Definition ex_v : rctsig :=
  {| v_message := [1; 2]; v_type := 4; v_fee := 300; v_pseudo := [[9]]; v_ecdh := [ERaw [5]; EInfo [6] [7]];
     v_outpk := [[8]; [9; 9]]; v_bps := [ex_bp 1; ex_bp 100]; v_rsigs := [] |}.
Definition ex_pre : list pop :=
  [PInit true; PMessage [1; 2]; PTypeFee 4 300; PRsig (RBp (ex_bp 1)); PEcdh (ERaw [5]); PReload; PEcdh (EInfo [6] [7]);
   POutPk [8] None; POutPk [0] (Some [9; 9])].
Definition ex_mid : list pop := [PRsig (RBp (ex_bp 100)); PReload].
Example C27_case : rctsig_ok ex_v /\ Forall pop_ok ex_pre /\ Forall pop_ok ex_mid /\ spells ex_pre ex_mid ex_v.
Proof.
  assert (B : forall x, byte_ok x -> bytes_ok (proof_bytes (RBp (ex_bp x)))).
  { intros x Hx. cbn. repeat constructor; try lia; apply Hx. }
  split; [|split; [|split]].
  - unfold rctsig_ok, ex_v, v_proofs, is_bulletproof; cbn. repeat split; try lia; try discriminate; repeat constructor; lia.
  - unfold ex_pre. repeat (apply Forall_cons; [cbn [pop_ok proof_wf ecdh_bytes]; repeat split; try (apply B; split; lia); repeat constructor; lia|]). constructor.
  - unfold ex_mid. repeat (apply Forall_cons; [cbn [pop_ok proof_wf ecdh_bytes]; repeat split; try (apply B; split; lia)|]). constructor.
  - split; [|repeat split].
    exists true, [POutPk [8] None; POutPk [0] (Some [9; 9])]. split; [|reflexivity].
    constructor; [left; reflexivity|]. constructor; [right; exists [0]; split; [reflexivity|discriminate]|]. constructor.
Qed.
