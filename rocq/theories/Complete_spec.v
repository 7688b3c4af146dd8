(** What it takes for a transaction to be signed: working primitives, honest
    randomness, a wallet that owns its inputs, well-formed destinations. *)
From Verif Require Import Py Addr_model Addr_spec Addr_proof Lists_model Lists_spec Signer_model Signer_spec Agent_model.

(** The primitives work: encodings can be undone and have the documented sizes and ranges, and a range proof
    made for admissible amounts and masks survives serialisation and is accepted (C36, C51). *)
Record prim_laws (C : ops) : Prop := {
  pl_codec : codec_laws C;
  pl_int_range : forall b, 0 <= dec_int C b < ell;
  pl_mask_range : forall k, 0 <= commitment_mask C k < ell;
  pl_keccak_len : forall m, length (keccak2 C m) = 32%nat;
  pl_int_len : forall x, length (enc_int C x) = 32%nat;
  pl_pid_len : forall p P r, length p = 8%nat -> length (encrypt_pid C p P r) = 8%nat;
  pl_bp : forall am ms sd p, (1 <= length am <= 16)%nat -> length ms = length am ->
    Forall (fun a => 0 <= a < 2 ^ 64) am -> Forall (fun m => 0 <= m < ell) ms -> prove_bp C am ms sd = Ok p ->
    exists bs q, dump_rsig_bp C p = Ok bs /\ bs <> [] /\
      parse_bp C bs = Ok q /\ bp_bytes C q = bp_bytes C p /\ verify_bp C q am ms = Ok true
}.

(** the user agrees, and random scalars are reduced *)
Definition honest_tapes (tp : nat -> tape) : Prop :=
  answer (tp 0%nat) = true /\ forall n i, 0 <= rnd (tp n) i < ell.

(** a source entry as the protobuf reader delivers it *)
Definition src_ok (s : src_entry) : Prop :=
  Forall (fun r => 0 <= re_idx r /\ bytes_ok (re_dest r) /\ bytes_ok (re_commitment r)) (se_outputs s) /\
  0 <= se_real_output s /\ bytes_ok (se_real_out_tx_key s) /\ Forall bytes_ok (se_additional s) /\
  0 <= se_real_output_in_tx_index s /\ 0 <= se_amount s /\
  match se_mask s with Some m => bytes_ok m | None => False end /\ se_multisig s = None /\
  match se_subaddr_minor s with Some i => 0 <= i | None => True end.

Section Good.
  Context (C : ops) (cr : creds C).

  (** the sub-addresses the device looks inputs up in *)
  Definition table (x : construction) : subs C :=
    match tc_account x, tc_minor x with
    | Some a, _ :: _ => compute_subs C (view_priv C cr) (spend_pub C cr) a (tc_minor x)
    | _, _ => subs_empty C
    end.
  (** The wallet owns the real output of [s] and knows its opening: [xi] is the one-time private key, [mask] the mask of the
      commitment; ring signatures with them can be made (C33). *)
  Definition owned (x : construction) (s : src_entry) : Prop :=
    exists real P T add xi ki mask Q,
      nth_error (se_outputs s) (Z.to_nat (se_real_output s)) = Some real /\
      dec_pt C (re_dest real) = Ok P /\ dec_pt C (se_real_out_tx_key s) = Ok T /\ mapM (dec_pt C) (se_additional s) = Ok add /\
      key_image_helper C (view_priv C cr) (spend_priv C cr) (table x) P T add (se_real_output_in_tx_index s) = Ok (xi, ki) /\
      0 <= xi < ell /\ point_eqb C P (smul_base C xi) = true /\
      se_mask s = Some mask /\ dec_pt C (re_commitment real) = Ok Q /\
      point_eqb C Q (gen_c C (dec_int C mask) (se_amount s)) = true /\
      forall msg alpha sd, 0 <= alpha < ell -> exists sg,
        mlsag_sign C msg (se_outputs s) xi (dec_int C mask) alpha (gen_c C alpha (se_amount s)) (se_real_output s) sd = Ok sg.
  (** a destination: valid non-zero keys *)
  Definition payable (e : dst_entry) : Prop :=
    dst_ok e /\ de_amount e < 2 ^ 64 /\ keys32 (de_addr e) /\ view_public_key (de_addr e) <> repeat 0 32 /\
    (exists B, dec_pt C (spend_public_key (de_addr e)) = Ok B) /\ exists A, dec_pt C (view_public_key (de_addr e)) = Ok A.
  (** there is no change, or it goes back to the wallet's account and is one of the outputs, or it is zero and
      there are two outputs (sweeping) *)
  Definition change_ok (x : construction) : Prop :=
    match tc_change x with
    | None => True
    | Some ch =>
        (de_amount ch = 0 /\ zlen (tc_dsts x) = 2) \/
        (exists a, tc_account x = Some a /\
           de_addr ch = {| spend_public_key := enc_pt C (fst (sub_addr_keys C (view_priv C cr) (spend_pub C cr) a 0));
                           view_public_key := enc_pt C (snd (sub_addr_keys C (view_priv C cr) (spend_pub C cr) a 0)) |}) /\
        exists e, In e (tc_dsts x) /\ de_addr e = de_addr ch
    end.
  (** a real recipient: something is paid, and not to the change address *)
  Definition recipient (x : construction) (e : dst_entry) : Prop :=
    In e (tc_dsts x) /\ de_amount e <> 0 /\ match tc_change x with Some ch => de_addr e <> de_addr ch | None => True end.
  (** somebody is paid; a short payment id has one recipient address, a long one is 32 bytes *)
  Definition payment_id_ok (x : construction) : Prop :=
    (exists e, recipient x e) /\
    match tc_payment_id x with
    | None => True
    | Some p => p = [] \/ length p = 32%nat \/
                length p = 8%nat /\ forall e e', recipient x e -> recipient x e' -> de_addr e = de_addr e'
    end.
  (** the client versions and hard forks the agent and the device support together: the old client cannot offload range
      proofs for the newer proof type, nor more than one batch *)
  Definition supported (x : construction) : Prop :=
    9 <= tc_hf x /\ 0 <= tc_client_version x /\
    (tc_client_version x = 0 -> zlen (tc_dsts x) <= 2 \/ tc_hf x < 10 /\ zlen (tc_dsts x) <= 16).

  Definition well_formed (x : construction) : Prop :=
    0 < zlen (tc_sources x) < 2 ^ 42 /\ 0 < zlen (tc_dsts x) < 2 ^ 42 /\ 0 <= tc_unlock_time x /\
    tc_use_bulletproofs x = true /\ supported x /\
    Forall (fun s => src_ok s /\ owned x s) (tc_sources x) /\ Forall payable (tc_dsts x) /\
    change_ok x /\ payment_id_ok x /\
    zsum (map de_amount (tc_dsts x)) <= zsum (map se_amount (tc_sources x)).
End Good.

(** The shared secret of an output is made from the transaction secret or the secret of an output to a sub-address, drawn in
    the session. *)
Definition shared_secret (C : ops) (cr : creds C) (tp : nat -> tape) (x : construction) (e : dst_entry) (s : pt C) : Prop :=
    (exists P, s = key_derivation C P (view_priv C cr) /\
       (P = smul_base C (rnd (tp 0%nat) 0) \/
        exists D e', In e' (tc_dsts x) /\ dec_pt C (spend_public_key (de_addr e')) = Ok D /\ P = smul C D (rnd (tp 0%nat) 0))) \/
    (exists A n, (n = 0%nat \/ de_is_subaddress e = Some true) /\ dec_pt C (view_public_key (de_addr e)) = Ok A /\ s = key_derivation C A (rnd (tp n) 0)).
(** No mask is zero for more than two outputs: the masks are hashes of the shared secret of an output.  (The device does not
    send a mask that is zero.) *)
Definition no_zero_mask (C : ops) (cr : creds C) (tp : nat -> tape) (x : construction) : Prop :=
  2 < zlen (tc_dsts x) -> forall e i s, In e (tc_dsts x) -> 0 <= i < zlen (tc_dsts x) -> shared_secret C cr tp x e s ->
    commitment_mask C (enc_int C (derivation_to_sc C s i)) <> 0.
(** The prover of range proofs does not give up on the batches of this request, that is, on the amounts of up to 16 destinations from number [j]
    on with the masks of these outputs (the old client with forks below 10 uses other masks), and random numbers of the session: it gives up when
    one of its challenges is zero (C36). *)
Definition batch_mask (C : ops) (cr : creds C) (tp : nat -> tape) (x : construction) (i : nat) (mk : Z) : Prop :=
  exists e s, nth_error (tc_dsts x) i = Some e /\ shared_secret C cr tp x e s /\ mk = commitment_mask C (enc_int C (derivation_to_sc C s (Z.of_nat i))).
Definition no_give_up (C : ops) (cr : creds C) (tp : nat -> tape) (hs : nat -> Z) (x : construction) : Prop :=
  forall j k am ms n sd, am = map de_amount (skipn j (firstn k (tc_dsts x))) -> (1 <= length am <= 16)%nat -> length ms = length am -> Forall (fun m => 0 <= m < ell) ms ->
    (10 <= tc_hf x \/ 0 < tc_client_version x -> forall t mk, nth_error ms t = Some mk -> batch_mask C cr tp x (j + t) mk) ->
    sd = seed (tp n) \/ sd = hs n -> exists p, prove_bp C am ms sd = Ok p.
