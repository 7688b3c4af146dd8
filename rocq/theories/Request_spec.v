(** What a wallet can ask the agent to sign, in terms of addresses, keys and commitments. *)
From Verif Require Import Py Digits Addr_model Lists_model Signer_model Signer_spec Ints_model Protobuf_spec KeySep_model Ec_model Ec_spec Mlsag_model Mlsag_spec Sigs_spec Wallet_model Wallet_spec Bp_model Agent_model Complete_spec Real_model Prop_Bp.

(** what is left open in the operations of the device: the cipher can be undone, the random numbers are scalars, as many as
    are asked for *)
Record env_ok (E : ecops) (v : env E) : Prop := {
  eo_cipher : forall k n p, v_dec E v k (v_enc E v k n p) = Ok p;
  eo_prover : forall sd n, (1 <= n <= 32)%nat -> random_ok n (v_rand E v sd n);
  eo_nonces : forall sd, length (v_nonces E v sd) = 2%nat /\ Forall scalar (v_nonces E v sd);
  eo_rows : forall sd i, length (v_rows E v sd i) = 2%nat /\ Forall scalar (v_rows E v sd i)
}.
(** a ring signature can be read back from the message *)
Definition sig_codec (E : ecops) (v : env E) (parse : list Z -> res (list (list Z) * Z)) : Prop :=
  forall mg, Forall (Forall scalar) (mg_ss E mg) -> scalar (mg_cc E mg) -> parse (v_dump_mg E v mg) = Ok (mg_ss E mg, mg_cc E mg).

Section Request.
Context (E : ecops).
(** the one-time key of output [i] to the sub-address (M, m) of the wallet (a, b); [R] is the transaction key
    or the additional key of the output *)
Definition one_time_key (a b : Z) (R : pt E) (i M m : Z) : pt E :=
  padd E (sub_D E a b M m) (smul E (Gb E) (hash_to_scalar E (encp E (smul E (smul E R a) 8) ++ varint i))).
(** the source spends an output paid to one of the listed sub-addresses of the wallet, and its mask opens the commitment; there is at least one decoy *)
Definition mine (a b : Z) (x : construction) (s : src_entry) : Prop :=
  exists acc m real T add R mask,
    tc_account x = Some acc /\ u32 acc /\ Forall u32 (tc_minor x) /\ In m (tc_minor x) /\
    (2 <= length (se_outputs s))%nat /\ Forall (fun r => exists P Q, decp E (re_dest r) = Ok P /\ decp E (re_commitment r) = Ok Q) (se_outputs s) /\
    nth_error (se_outputs s) (Z.to_nat (se_real_output s)) = Some real /\
    decp E (se_real_out_tx_key s) = Ok T /\ mapM (decp E) (se_additional s) = Ok add /\
    (R = T \/ nth_error add (Z.to_nat (se_real_output_in_tx_index s)) = Some R) /\
    decp E (re_dest real) = Ok (one_time_key a b R (se_real_output_in_tx_index s) acc m) /\
    se_mask s = Some mask /\ decp E (re_commitment real) = Ok (commit E (le_val 256 mask mod l) (se_amount s)).

(** a request the agent signs: as [well_formed], with sources of the wallet *)
Definition request (v : env E) (cr : Signer_model.creds (real_ops E v)) (x : construction) : Prop :=
  nz_scalar (view_priv _ cr) /\ nz_scalar (spend_priv _ cr) /\ spend_pub _ cr = smul E (Gb E) (spend_priv _ cr) /\
  0 < zlen (tc_sources x) < 2 ^ 42 /\ 0 < zlen (tc_dsts x) < 2 ^ 42 /\ 0 <= tc_unlock_time x /\ tc_use_bulletproofs x = true /\ supported x /\
  Forall (fun s => src_ok s /\ mine (view_priv _ cr) (spend_priv _ cr) x s) (tc_sources x) /\ Forall (payable (real_ops E v)) (tc_dsts x) /\
  change_ok (real_ops E v) cr x /\ payment_id_ok x /\
  zsum (map de_amount (tc_dsts x)) <= zsum (map se_amount (tc_sources x)).
End Request.
