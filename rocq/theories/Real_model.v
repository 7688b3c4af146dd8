(** The operations of the signing device (Signer_model.ops) with the modelled primitives: the curve and hash of [E], the wallet
    functions of Wallet_model, the ring signatures of Mlsag_model and the bulletproofs of Bp_model.  Scalars are reduced
    when they are made (ec_py.py EdScalar), so operations on integers reduce first.  Left open are the cipher, the
    HMAC, the random numbers and two serialisations. *)
From Verif Require Import Py Digits Lists_model Signer_model Ints_model Ec_model Mlsag_model Wallet_model Extra_model Bp_model.

Section Real.
Context (E : ecops).

Record env := {
  v_hmac : list Z -> list Z -> list Z;               (* crypto.compute_hmac(key, msg) *)
  v_enc : list Z -> list Z -> list Z -> list Z;      (* chacha_poly.encrypt_pack, key nonce plaintext *)
  v_dec : list Z -> list Z -> res (list Z);          (* chacha_poly.decrypt_pack *)
  v_rand : Z -> nat -> prand;                        (* random numbers of the prover for that many amounts *)
  v_weights : Z * Z;                                 (* weights of the verifier *)
  v_nonces : Z -> list Z; v_rows : Z -> nat -> list Z;  (* random numbers of a ring signature *)
  v_dump_tsx : tsx_data -> option (list Z) -> list Z;   (* protobuf dump *)
  v_dump_mg : mgsig E -> list Z;                     (* recode_msg and dump of a ring signature *)
}.
Context (v : env).

(** a call that raises is replaced by a fixed value: zero private keys, sub-address indices of 2^32 and more and
    payment ids of other lengths, which the device refuses elsewhere *)
Definition val {A} (dflt : A) (r : res A) : A := match r with Ok x => x | Err _ => dflt end.
Definition ring_of (outs : list ring_entry) : list ctkey := map (fun r => {| ct_dest := re_dest r; ct_comm := re_commitment r |}) outs.

(** tsx_sign_builder.py:1599-1648.  [index] counts from 0; a negative one makes the loop of
    gen_mlsag_ext (mlsag2.py:327) run forever. *)
Definition real_sign (message : list Z) (outs : list ring_entry) (spend mask alpha : Z) (pseudo : pt E) (index sd : Z) : res (list Z) :=
  let* _ := guard (0 <=? index) OutOfFuel in
  let* (mg, _) := prove_rct_mg_simple E message (ring_of outs) {| sk_dest := spend; sk_mask := mask |} (alpha mod l) pseudo None false (Z.to_nat index) (v_nonces v sd) (v_rows v sd) in
  let* ok := ver_rct_mg_simple E message mg (ring_of outs) pseudo in
  let* _ := guard ok AssertionError in
  Ok (v_dump_mg v mg).

(** ring_ct.py:74-92 verify_bp: V is recomputed from amounts and masks unless there are none *)
Definition set_V (p : bproof) (V : list (list Z)) : bproof :=
  {| bp_V := V; bp_A := bp_A p; bp_S := bp_S p; bp_T1 := bp_T1 p; bp_T2 := bp_T2 p; bp_taux := bp_taux p; bp_mu := bp_mu p;
     bp_L := bp_L p; bp_R := bp_R p; bp_a := bp_a p; bp_b := bp_b p; bp_t := bp_t p |}.
Definition commit_V (amounts masks : list Z) : list (list Z) :=
  map (fun am => inv8 E (gen_c E (snd am mod l) (fst am))) (combine amounts masks).
Definition real_verify (p : bproof) (amounts masks : list Z) : res bool :=
  let* p := match amounts with
            | [] => Ok p
            | _ => let* _ := guard (length amounts <=? length masks)%nat IndexError in Ok (set_V p (commit_V amounts masks))
            end in
  verify_batch E (computed_gens E) [p] [v_weights v] true.
(** ring_ct.py:63-71 *)
Definition real_prove (amounts masks : list Z) (sd : Z) : res bproof :=
  prove_range_bp_batch E (computed_gens E) amounts (map (fun m => m mod l) masks) (v_rand v sd (length amounts)).

(** misc.parse_msg(rsig, Bulletproof()): six keys, two lists of keys with their lengths, three keys; V stays empty.
    What follows the proof is ignored. *)
Fixpoint key_list (n : nat) (b : list Z) : res (list (list Z) * list Z) :=
  match n with
  | O => Ok ([], b)
  | S n => let* (k, b) := take 32 b in let* (ks, b) := key_list n b in Ok (k :: ks, b)
  end.
Definition parse_bulletproof (b : list Z) : res bproof :=
  let* (hd, b) := key_list 6 b in
  let* (n, b) := read_uvarint b in
  let* (L, b) := key_list (Z.to_nat n) b in
  let* (m, b) := read_uvarint b in
  let* (R, b) := key_list (Z.to_nat m) b in
  let* (tl, _) := key_list 3 b in
  match hd, tl with
  | [A; S1; T1; T2; taux; mu], [a; b; t] =>
      Ok {| bp_V := []; bp_A := A; bp_S := S1; bp_T1 := T1; bp_T2 := T2; bp_taux := taux; bp_mu := mu;
            bp_L := L; bp_R := R; bp_a := a; bp_b := b; bp_t := t |}
  | _, _ => Err AssertionError
  end.

Definition real_ops : Signer_model.ops := {|
  Signer_model.pt := pt E;
  Signer_model.dec_pt := decp E;
  Signer_model.enc_pt := encp E;
  Signer_model.smul := fun P k => scalarmult E P (k mod l);
  Signer_model.smul_base := fun k => scalarmult_base E (k mod l);
  Signer_model.gen_c := fun a x => gen_c E (a mod l) x;
  Signer_model.point_eqb := pt_eqb E;
  Signer_model.enc_int := enc_sc;
  Signer_model.dec_int := fun b => le_val 256 b mod l;
  Signer_model.cn_hash := hash E;
  Signer_model.keccak2 := fun m => hash E (hash E m);
  Signer_model.hmac := v_hmac v;
  Signer_model.hash_to_sc := hash_to_scalar E;
  Signer_model.key_derivation := fun P k => point_mul8 E (scalarmult E P (k mod l));
  Signer_model.derivation_to_sc := derivation_to_scalar E;
  Signer_model.derive_pub := derive_public_key E;
  Signer_model.commitment_mask := commitment_mask E;
  Signer_model.sub_addr_keys := fun vw S a i => val (S, S) (generate_sub_address_keys E vw S a i);
  Signer_model.subs := subaddrs;
  Signer_model.subs_empty := [];
  Signer_model.compute_subs := fun vw S a idx => val [] (compute_subaddresses E vw S a idx []);
  Signer_model.key_image_helper := fun vw sp sb P T add i =>
    let* (r, _) := generate_key_image_helper E {| cr_view := vw; cr_spend := sp; cr_spend_pub := scalarmult_base E sp; cr_multisig := false |} sb P T add i in Ok r;
  Signer_model.encrypt_pid := fun p P r => val p (encrypt_payment_id E p P r);
  Signer_model.dump_tsx := v_dump_tsx v;
  Signer_model.aead_enc := v_enc v;
  Signer_model.aead_dec := v_dec v;
  Signer_model.bp := bproof;
  Signer_model.parse_bp := parse_bulletproof;
  Signer_model.prove_bp := real_prove;
  Signer_model.verify_bp := real_verify;
  Signer_model.bp_parts := fun p => ([bp_A p; bp_S p; bp_T1 p; bp_T2 p; bp_taux p; bp_mu p], bp_L p, bp_R p, [bp_a p; bp_b p; bp_t p]);
  Signer_model.mlsag_sign := real_sign;
|}.
End Real.
