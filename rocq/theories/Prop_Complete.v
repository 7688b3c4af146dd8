(** C25 and C67: the honest agent and the device together. *)
From Coq Require Import Permutation Sorted.
From Verif Require Import Py PyLemmas Addr_model Addr_spec Addr_proof Lists_model Lists_spec Signer_model Signer_spec Signer_base Agent_model Signer_toy
  Complete_spec Complete_proof4 Complete_toy Agent_sound.

(** ** C25 *)
(** A well-formed transaction is signed: whatever the state of the device and the numbers of inputs and outputs, the
    agent's messages are all accepted, its own checks succeed, and it returns a transaction with one signature per source and one
    output per destination. *)
Theorem C25_honest_agent_completes (C : ops) (cr : creds C) (tp : nat -> tape) (hs : nat -> Z) (x : construction) (st : option (builder C)) :
  prim_laws C -> well_formed C cr x -> honest_tapes tp -> no_zero_mask C cr tp x -> no_give_up C cr tp hs x ->
  exists ev sg, sign_transaction_data C cr tp hs x st = Ok ((None, ev), sg) /\
    length (sg_vin sg) = length (tc_sources x) /\ length (sg_sigs sg) = length (tc_sources x) /\ length (sg_pseudo_outs sg) = length (tc_sources x) /\
    length (sg_vout sg) = length (tc_dsts x) /\ length (sg_out_pk sg) = length (tc_dsts x) /\
    sg_fee sg = zsum (map se_amount (tc_sources x)) - zsum (map de_amount (tc_dsts x)).
Proof. exact (honest_run C cr tp hs x st). Qed.
(** two inputs, twenty outputs: range proofs are offloaded in two batches *)
Example C25_ex : prim_laws toy_ops /\ well_formed toy_ops toy_creds (toy_tx 2 20 1 10) /\ honest_tapes toy_tape_r /\
  no_zero_mask toy_ops toy_creds toy_tape_r (toy_tx 2 20 1 10) /\ (forall hs, no_give_up toy_ops toy_creds toy_tape_r hs (toy_tx 2 20 1 10)) /\ zlen (tc_dsts (toy_tx 2 20 1 10)) = 20.
Proof.
  split; [exact toy_prim|]. split; [apply toy_well_formed; try lia; unfold supported; cbn; lia|]. split; [exact toy_honest|].
  split; [exact (toy_no_zero toy_tape_r _ toy_20)|]. split; [intros hs; apply toy_no_give_up|reflexivity].
Qed.
(** one input, two outputs, the old client *)
Example C25_ex_old : well_formed toy_ops toy_creds (toy_tx 1 2 0 10) /\ no_zero_mask toy_ops toy_creds toy_tape_r (toy_tx 1 2 0 10).
Proof.
  split; [apply toy_well_formed; try lia; unfold supported, zlen; cbn; lia|]. intros H. exfalso. revert H. cbn. lia.
Qed.

(** The restriction on client versions is needed: with client version 0 the agent cannot make range proofs for the
    newer proof type (more than two outputs), nor for more than one batch. *)
Definition otherwise_well_formed (C : ops) (cr : creds C) (x : construction) : Prop :=
  forall cv hf, supported {| tc_payment_id := tc_payment_id x; tc_unlock_time := tc_unlock_time x; tc_dsts := tc_dsts x; tc_change := tc_change x;
      tc_sources := tc_sources x; tc_account := tc_account x; tc_minor := tc_minor x; tc_use_bulletproofs := tc_use_bulletproofs x; tc_hf := hf; tc_client_version := cv |} ->
    well_formed C cr {| tc_payment_id := tc_payment_id x; tc_unlock_time := tc_unlock_time x; tc_dsts := tc_dsts x; tc_change := tc_change x;
      tc_sources := tc_sources x; tc_account := tc_account x; tc_minor := tc_minor x; tc_use_bulletproofs := tc_use_bulletproofs x; tc_hf := hf; tc_client_version := cv |}.
Lemma toy_otherwise k m cv hf : (1 <= k)%nat -> (2 <= m)%nat -> Z.of_nat k < 2 ^ 32 -> Z.of_nat m <= 10 * Z.of_nat k -> Z.of_nat m < 2 ^ 32 ->
  otherwise_well_formed toy_ops toy_creds (toy_tx k m cv hf).
Proof. intros H1 H2 H3 H4 H5 cv' hf' Hs. exact (toy_well_formed k m cv' hf' H1 H2 H3 H4 H5 Hs). Qed.
Definition fails_with (e : exn) (r : res (conn toy_ops * signed)) : bool :=
  match r, e with Err ValueError, ValueError => true | _, _ => false end.
Lemma fails_with_ok r : fails_with ValueError r = true -> r = Err ValueError.
Proof. destruct r as [v|e]; [discriminate|]. destruct e; try discriminate. reflexivity. Qed.
Definition old_newer : bool := fails_with ValueError (sign_transaction_data toy_ops toy_creds toy_tape_r (fun n => Z.of_nat n) (toy_tx 2 4 0 10) None).
Lemma old_newer_true : old_newer = true.
Proof. vm_compute. reflexivity. Qed.
Lemma old_many_fails : is_ok (sign_transaction_data toy_ops toy_creds toy_tape_r (fun n => Z.of_nat n) (toy_tx 2 20 0 9) None) = false.
Proof. vm_compute. reflexivity. Qed.
Theorem C25_old_client_refuted : exists (C : ops) (cr : creds C) tp hs x y, prim_laws C /\ honest_tapes tp /\
  otherwise_well_formed C cr x /\ tc_client_version x = 0 /\ tc_hf x = 10 /\ zlen (tc_dsts x) = 4 /\
  sign_transaction_data C cr tp hs x None = Err ValueError /\
  otherwise_well_formed C cr y /\ tc_client_version y = 0 /\ tc_hf y = 9 /\ zlen (tc_dsts y) = 20 /\
  is_ok (sign_transaction_data C cr tp hs y None) = false.
Proof.
  exists toy_ops, toy_creds, toy_tape_r, (fun n => Z.of_nat n), (toy_tx 2 4 0 10), (toy_tx 2 20 0 9).
  split; [exact toy_prim|]. split; [exact toy_honest|]. split; [apply toy_otherwise; lia|]. split; [reflexivity|]. split; [reflexivity|]. split; [reflexivity|].
  split; [exact (fails_with_ok _ old_newer_true)|]. split; [apply toy_otherwise; lia|]. split; [reflexivity|]. split; [reflexivity|]. split; [reflexivity|]. exact old_many_fails.
Qed.

(** ** C67 *)
(** Whenever the agent returns a transaction, it is the one it was asked for and the device signed: every source is spent exactly
    once by a signature with its key; every destination is paid at its position; inputs, outputs and fee balance in the
    clear and in the commitments; the message of all signatures is the hash of the returned fields; and range proofs made or verified by the
    device cover all outputs.  No assumption about the sources, destinations or the device's earlier state. *)
Theorem C67_agent_transaction (C : ops) (cr : creds C) (tp : nat -> tape) (hs : nat -> Z) (x : construction) (st st' : option (builder C)) ev sg :
  codec_laws C -> (forall n i, 0 <= rnd (tp n) i < ell) ->
  sign_transaction_data C cr tp hs x st = Ok ((st', ev), sg) ->
  exists d c extra srcs a m blob fm,
    agent_init x = Ok d /\ init_params C (tp 0%nat) cr d = Ok (c, extra) /\
    (* every source is spent once *)
    Permutation srcs (tc_sources x) /\ length (sg_vin sg) = length srcs /\ length a = length srcs /\ length (sg_sigs sg) = length srcs /\
    (forall j s vini aj sig, nth_error srcs j = Some s -> nth_error (sg_vin sg) j = Some vini -> nth_error a j = Some aj -> nth_error (sg_sigs sg) j = Some sig ->
       spends C cr fm s vini aj sig) /\
    (* every destination is paid *)
    length (sg_vout sg) = length (tc_dsts x) /\ (forall i e, nth_error (tc_dsts x) i = Some e -> tx_pays C c sg i e) /\
    (* amounts and commitments balance *)
    zsum (map se_amount (tc_sources x)) = zsum (map de_amount (tc_dsts x)) + sg_fee sg /\ 0 <= sg_fee sg /\
    length m = length (tc_dsts x) /\ sg_out_pk sg = commitments C m (map de_amount (tc_dsts x)) /\
    (pseudo_outs_kept x -> sg_pseudo_outs sg = commitments C a (map se_amount srcs)) /\ zsum a mod ell = zsum m mod ell /\
    (* the signed message is the hash of this transaction *)
    prefix_blob (tc_unlock_time x) (sg_vin sg) (sg_vout sg) (sg_extra sg) = Ok blob /\
    oneshot C (cn_hash C blob) (sg_type sg) (sg_fee sg) (sg_ecdh sg) (sg_out_pk sg) (sg_rsigs sg) = Ok fm /\
    (* every output is covered by a range proof that was made or verified by the device *)
    (pseudo_outs_kept x -> exists B, concat (map (fun b => fst (fst b)) B) = map de_amount (tc_dsts x) /\
       sg_out_pk sg = commitments C (concat (map (fun b => snd (fst b)) B)) (map de_amount (tc_dsts x)) /\
       length (concat (map (fun b => snd (fst b)) B)) = length (tc_dsts x) /\
       Forall (fun b => proof_for C ev (fst (fst b)) (snd (fst b)) (snd b)) B /\
       (* the proofs in the transaction are these *)
       (c_rsig_offload C c = false ->
          Forall2 (fun b bs => (exists sd, prove_bp C (fst (fst b)) (snd (fst b)) sd = Ok (snd b)) /\ dump_rsig_bp C (snd b) = Ok bs) B (sg_rsigs sg)) /\
        (c_rsig_offload C c = true -> Forall2 (fun b bs => parse_bp C bs = Ok (snd b) /\ verify_bp C (snd b) (fst (fst b)) (snd (fst b)) = Ok true) B (sg_rsigs sg))).
Proof. exact (agent_transaction cr tp hs x st st' ev sg). Qed.
(** The inputs are in the order of descending key images (the last 32 bytes of a serialised input), which nodes require. *)
Theorem C67_inputs_sorted (C : ops) (cr : creds C) (tp : nat -> tape) (hs : nat -> Z) (x : construction) (st st' : option (builder C)) ev sg :
  sign_transaction_data C cr tp hs x st = Ok ((st', ev), sg) ->
  Sorted (fun v w => bytes_le (skipn (length w - 32) w) (skipn (length v - 32) v)) (sg_vin sg).
Proof. exact (agent_sorted cr tp hs x st st' ev sg). Qed.
(** the hypotheses are met by every well-formed transaction (C25) *)
Example C67_ex : exists ev sg, sign_transaction_data toy_ops toy_creds toy_tape_r (fun n => Z.of_nat n) (toy_tx 2 20 1 10) None = Ok ((None, ev), sg) /\
  codec_laws toy_ops /\ (forall n i, 0 <= rnd (toy_tape_r n) i < ell) /\ pseudo_outs_kept (toy_tx 2 20 1 10) /\ length (sg_vout sg) = 20%nat /\ sg_fee sg = 0.
Proof.
  destruct C25_ex as (H1 & H2 & H3 & H4 & H5 & _). destruct (C25_honest_agent_completes _ _ _ (fun n => Z.of_nat n) _ None H1 H2 H3 H4 (H5 _)) as (ev & sg & E & _ & _ & _ & Lv & _ & Ef).
  exists ev, sg. split; [exact E|]. split; [exact toy_laws|]. split; [exact (proj2 toy_honest)|]. split; [left; reflexivity|]. split; [rewrite Lv; reflexivity|rewrite Ef; reflexivity].
Qed.
(** The exception is real: with client version 0 and the newer proof type the device changes the last pseudo output and the
    agent keeps the old one.  The returned transaction then does not balance, whatever masks one tries. *)
Definition out_of (r : res (conn toy_ops * signed)) : option (list (list Z) * list (list Z)) :=
  match r with Ok (_, sg) => Some (sg_pseudo_outs sg, sg_out_pk sg) | Err _ => None end.
Definition old_run := sign_transaction_data toy_ops toy_creds toy_tape_r (fun n => Z.of_nat n) (toy_tx 2 2 0 10) None.
Definition unbalanced (o : option (list (list Z) * list (list Z))) : bool :=
  match o with
  | Some ([p1; p2], [q1; q2]) => negb ((le_int p1 + le_int p2 - 1000 - (le_int q1 + le_int q2 - 100)) mod ell =? 0)
  | _ => false
  end.
Lemma commitments2 a1 a2 y z p : commitments toy_ops [a1; a2] [y; z] = p -> exists p1 p2, p = [p1; p2] /\ le_int p1 = (a1 + 5 * y) mod ell /\ le_int p2 = (a2 + 5 * z) mod ell.
Proof.
  intros <-. exists (enc32 (gen_c toy_ops a1 y)), (enc32 (gen_c toy_ops a2 z)). split; [reflexivity|].
  rewrite !le_int_enc32 by apply toy_gen_range. split; reflexivity.
Qed.
Lemma balance_mod l a1 a2 m1 m2 : l <> 0 -> (a1 + (a2 + 0)) mod l = (m1 + (m2 + 0)) mod l ->
  ((a1 + 5 * 100) mod l + (a2 + 5 * 100) mod l - 1000 - ((m1 + 5 * 10) mod l + (m2 + 5 * 10) mod l - 100)) mod l = 0.
Proof.
  intros L0 Ez. rewrite !Z.mod_eq in * by exact L0.
  match goal with |- ?t - l * (?u / l) = 0 => assert (Hd : exists k, t = k * l) end.
  { exists (a1 + (a2 + 0) - (a1 + (a2 + 0)) + ((a1 + (a2 + 0)) / l - (m1 + (m2 + 0)) / l) - ((a1 + 5 * 100) / l + (a2 + 5 * 100) / l) + ((m1 + 5 * 10) / l + (m2 + 5 * 10) / l)). nia. }
  destruct Hd as (k & Hk). rewrite Hk, Z.div_mul by exact L0. lia.
Qed.
Lemma old_run_unbalanced : unbalanced (out_of old_run) = true.
Proof. vm_compute. reflexivity. Qed.
Lemma balanced_not P Q a m : length a = 2%nat -> length m = 2%nat -> zsum a mod ell = zsum m mod ell ->
  P = commitments toy_ops a [100; 100] -> Q = commitments toy_ops m [10; 10] -> unbalanced (Some (P, Q)) = true -> False.
Proof.
  intros La Lm Ez Ep Eq U. rewrite (list2 a 0 La) in Ep, Ez. rewrite (list2 m 0 Lm) in Eq, Ez. revert Ep Eq Ez.
  generalize (nth 0 a 0) as a1, (nth 1 a 0) as a2, (nth 0 m 0) as m1, (nth 1 m 0) as m2. intros a1 a2 m1 m2 Ep Eq Ez.
  symmetry in Ep, Eq. apply commitments2 in Ep, Eq. destruct Ep as (p1 & p2 & Ep & P1 & P2), Eq as (q1 & q2 & Eq & Q1 & Q2).
  rewrite Ep, Eq in U. cbn [unbalanced] in U. rewrite P1, P2, Q1, Q2 in U.
  rewrite (balance_mod ell a1 a2 m1 m2) in U; [discriminate|discriminate|exact Ez].
Qed.
Lemma old_sources : map se_amount (tc_sources (toy_tx 2 2 0 10)) = [100; 100].
Proof. reflexivity. Qed.
Lemma old_dsts : map de_amount (tc_dsts (toy_tx 2 2 0 10)) = [10; 10].
Proof. reflexivity. Qed.
Lemma old_lens : length (tc_sources (toy_tx 2 2 0 10)) = 2%nat /\ length (tc_dsts (toy_tx 2 2 0 10)) = 2%nat.
Proof. split; reflexivity. Qed.
Lemma old_run_some ev sg : old_run = Ok ((None, ev), sg) -> unbalanced (Some (sg_pseudo_outs sg, sg_out_pk sg)) = true.
Proof. intros E. rewrite <- old_run_unbalanced, E. reflexivity. Qed.
Theorem C67_old_client_refuted : exists (C : ops) (cr : creds C) tp hs x ev sg, prim_laws C /\ well_formed C cr x /\ honest_tapes tp /\ no_zero_mask C cr tp x /\
  sign_transaction_data C cr tp hs x None = Ok ((None, ev), sg) /\
  ~ exists a m, length a = length (tc_sources x) /\ length m = length (tc_dsts x) /\ zsum a mod ell = zsum m mod ell /\
      sg_pseudo_outs sg = commitments C a (map se_amount (tc_sources x)) /\ sg_out_pk sg = commitments C m (map de_amount (tc_dsts x)).
Proof.
  exists toy_ops, toy_creds, toy_tape_r, (fun n => Z.of_nat n), (toy_tx 2 2 0 10).
  assert (W : well_formed toy_ops toy_creds (toy_tx 2 2 0 10)) by (apply toy_well_formed; try lia; unfold supported, zlen; cbn; lia).
  assert (N : no_zero_mask toy_ops toy_creds toy_tape_r (toy_tx 2 2 0 10)) by (intros H; exfalso; revert H; cbn; lia).
  destruct (C25_honest_agent_completes _ _ _ (fun n => Z.of_nat n) _ None toy_prim W toy_honest N (toy_no_give_up _ _ _ _)) as (ev & sg & E & _).
  exists ev, sg. split; [exact toy_prim|]. split; [exact W|]. split; [exact toy_honest|]. split; [exact N|]. split; [exact E|].
  intros (a & m & La & Lm & Ez & Ep & Eq). rewrite old_sources in Ep. rewrite old_dsts in Eq. rewrite (proj1 old_lens) in La. rewrite (proj2 old_lens) in Lm.
  exact (balanced_not _ _ a m La Lm Ez Ep Eq (old_run_some ev sg E)).
Qed.

Print Assumptions C25_honest_agent_completes.
Print Assumptions C25_old_client_refuted.
Print Assumptions C67_agent_transaction.
Print Assumptions C67_old_client_refuted.
Print Assumptions C67_inputs_sorted.
