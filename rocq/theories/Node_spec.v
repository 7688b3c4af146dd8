(** What a node checks of a RingCT transaction with bulletproofs, from the fields of the transaction and the ring members the inputs refer to.
    The checks are those of the verification functions of /repo: mlsag2.py:594-613 for the signatures, bulletproof.py verify_batch for the range proofs,
    and the sum of the commitments (ring_ct.py).  Double spends and the fee rules are a matter of the chain and left out. *)
From Coq Require Import Sorted.
From Verif Require Import Py Lists_model Signer_model Signer_spec Ints_model Ec_model Mlsag_model Bp_model Agent_model Agent_sound Real_model.

Section Node.
Context (E : ecops).

Definition sum_points (ps : list (pt E)) : pt E := fold_right (padd E) (pid E) ps.
(** inputs = outputs + fee, in the commitments *)
Definition balanced (pseudo_outs out_pk : list (list Z)) (fee : Z) : Prop :=
  exists Ps Qs, mapM (decp E) pseudo_outs = Ok Ps /\ mapM (decp E) out_pk = Ok Qs /\
    sum_points Ps = padd E (sum_points Qs) (smul E (Hb E) fee).

(** every output commitment is covered by one of the range proofs; [w] are the verifier's random weights.
    A proof in a transaction has no V: it is the commitments divided by 8 (ring_ct.py bp_comm_to_v) *)
Definition in_range (w : Z * Z) (commitments : list (list Z)) (proof : list Z) : Prop :=
  exists Ps p, mapM (decp E) commitments = Ok Ps /\ parse_bulletproof proof = Ok p /\
    verify_batch E (computed_gens E) [set_V p (map (inv8 E) Ps)] [w] true = Ok true.
Definition ranges_proved (w : Z * Z) (out_pk proofs : list (list Z)) : Prop :=
  exists groups, concat groups = out_pk /\ Forall2 (in_range w) groups proofs.

(** the input [vini] (amount, ring offsets and key image) is signed: the key image is in the prime order group and the
    ring signature over [message] verifies for that image, the ring and the pseudo output *)
Definition input_signed (parse_sig : list Z -> res (list (list Z) * Z)) (message : list Z) (amount : Z) (ring : list ring_entry) (vini pseudo sig : list Z) : Prop :=
  exists ki offs ss cc P,
    offsets_to_relative (map re_idx ring) = Ok offs /\ dump_vini amount offs (encp E ki) = Ok vini /\ smul E ki l = pid E /\
    parse_sig sig = Ok (ss, cc) /\ decp E pseudo = Ok P /\
    ver_rct_mg_simple E message {| mg_ss := ss; mg_cc := cc; mg_II := [ki] |} (ring_of ring) P = Ok true.

(** rings: amount written in the input, and ring members, of every input in the order of the transaction *)
Record node_accepts (hashf : Signer_model.ops) (parse_sig : list Z -> res (list (list Z) * Z)) (w : Z * Z) (rings : list (Z * list ring_entry)) (tx : signed) : Prop := {
  na_message : exists blob fm, prefix_blob (sg_unlock tx) (sg_vin tx) (sg_vout tx) (sg_extra tx) = Ok blob /\
    oneshot hashf (Signer_model.cn_hash hashf blob) (sg_type tx) (sg_fee tx) (sg_ecdh tx) (sg_out_pk tx) (sg_rsigs tx) = Ok fm /\
    forall j ring, nth_error rings j = Some ring ->
      exists vini pseudo sig, nth_error (sg_vin tx) j = Some vini /\ nth_error (sg_pseudo_outs tx) j = Some pseudo /\ nth_error (sg_sigs tx) j = Some sig /\
        input_signed parse_sig fm (fst ring) (snd ring) vini pseudo sig;
  na_counts : length (sg_vin tx) = length rings /\ length (sg_pseudo_outs tx) = length rings /\ length (sg_sigs tx) = length rings /\
    length (sg_out_pk tx) = length (sg_vout tx) /\ length (sg_ecdh tx) = length (sg_vout tx);
  na_sorted : Sorted (fun v v' => bytes_le (skipn (length v' - 32) v') (skipn (length v - 32) v)) (sg_vin tx);
  na_balanced : balanced (sg_pseudo_outs tx) (sg_out_pk tx) (sg_fee tx);
  na_fee : 0 <= sg_fee tx;
  na_ranges : ranges_proved w (sg_out_pk tx) (sg_rsigs tx)
}.
End Node.
