(** C73: a node accepts the transactions the agent returns.  C25: with the modelled primitives every request of the wallet is
    completed. *)
From Coq Require Import Permutation Sorted.
From Verif Require Import Py PyLemmas Digits Addr_model Lists_model Signer_model Signer_spec Ints_model Protobuf_spec Ec_model Ec_spec Ec_proof Ec_toy Ed25519_model Ed25519_inst Sigs_spec
  Mlsag_model Mlsag_spec Wallet_model Wallet_spec Bp_model Agent_model Agent_sound Complete_spec Complete_toy Real_model Real_proof Node_spec Node_proof Request_spec Node_complete Prop_Bp Prop_Complete.
Ltac Zify.zify_post_hook ::= idtac.

(** [rings]: for every source, the amount its input states (zero if it is confidential) and its ring *)
Definition ring_request (s : src_entry) : Z * list ring_entry := (if truthy (se_rct s) then 0 else se_amount s, se_outputs s).

(** Whatever the request and the random scalars: if the agent returns a transaction, a node that looks up the rings accepts it (Node_spec).
    With more than two outputs, where the device checks proofs of the host, this is shown for the weights the device drew. *)
Theorem C73_node_accepts (E : ecops) (L : ec_laws E) (v : env E) (cr : Signer_model.creds (real_ops E v)) tp hs x st st' ev sg parse :
  (forall P, length (encp E P) = 32%nat) -> env_ok E v -> sig_codec E v parse -> (forall n i, 0 <= rnd (tp n) i < ell) ->
  tc_use_bulletproofs x = true -> pseudo_outs_kept x -> Forall (fun e => u64 (de_amount e)) (tc_dsts x) ->
  sign_transaction_data (real_ops E v) cr tp hs x st = Ok ((st', ev), sg) ->
  exists srcs, Permutation srcs (tc_sources x) /\
    forall w, w = v_weights E v \/ (length (tc_dsts x) <= 2)%nat -> node_accepts E (real_ops E v) parse w (map ring_request srcs) sg.
Proof.
  intros Hlen HV Hp Hr Hb Hk Hu H. apply (node_accepts_agent E L v Hlen cr tp hs x st st' ev sg parse); try assumption.
  - apply (eo_cipher E v HV).
  - intros sd i. apply (eo_rows E v HV).
  - apply (eo_prover E v HV).
Qed.
Print Assumptions C73_node_accepts.

(** the same for the curve and the hash of the code *)
Theorem C73_on_ed25519 (v : env ed25519) (cr : Signer_model.creds (real_ops ed25519 v)) tp hs x st st' ev sg parse :
  env_ok ed25519 v -> sig_codec ed25519 v parse -> (forall n i, 0 <= rnd (tp n) i < ell) ->
  tc_use_bulletproofs x = true -> pseudo_outs_kept x -> Forall (fun e => u64 (de_amount e)) (tc_dsts x) ->
  sign_transaction_data (real_ops ed25519 v) cr tp hs x st = Ok ((st', ev), sg) ->
  exists srcs, Permutation srcs (tc_sources x) /\
    forall w, w = v_weights ed25519 v \/ (length (tc_dsts x) <= 2)%nat -> node_accepts ed25519 (real_ops ed25519 v) parse w (map ring_request srcs) sg.
Proof. exact (C73_node_accepts ed25519 ed25519_laws v cr tp hs x st st' ev sg parse ed25519_enc_len). Qed.
Print Assumptions C73_on_ed25519.

(** With the modelled primitives, every request of the wallet is completed, and a node accepts the result, unless the prover of range proofs
    gives up (when one of its challenges is zero, C36) or a mask of one of more than two outputs is zero. *)
Theorem C25_request_accepted (E : ecops) (L : ec_laws E) (v : env E) (cr : Signer_model.creds (real_ops E v)) tp hs x st parse :
  (forall P, length (encp E P) = 32%nat) -> hash_bytes E -> env_ok E v -> sig_codec E v parse -> honest_tapes tp -> request E v cr x -> pseudo_outs_kept x ->
  no_zero_mask (real_ops E v) cr tp x -> no_give_up (real_ops E v) cr tp hs x ->
  exists ev sg srcs, sign_transaction_data (real_ops E v) cr tp hs x st = Ok ((None, ev), sg) /\
    Permutation srcs (tc_sources x) /\ length (sg_vout sg) = length (tc_dsts x) /\
    sg_fee sg = zsum (map se_amount (tc_sources x)) - zsum (map de_amount (tc_dsts x)) /\
    forall w, w = v_weights E v \/ (length (tc_dsts x) <= 2)%nat -> node_accepts E (real_ops E v) parse w (map ring_request srcs) sg.
Proof.
  intros Hlen HB HV Hp Ht Hx Hk NZ NG.
  destruct (C25_honest_agent_completes (real_ops E v) cr tp hs x st (real_prim E L v Hlen HB HV) (request_well_formed E L v Hlen HV cr x Hx) Ht NZ NG) as (ev & sg & H & _ & _ & _ & Hv & _ & Hf).
  destruct (C73_node_accepts E L v cr tp hs x st None ev sg parse Hlen HV Hp (proj2 Ht)) as (srcs & Hs & Hn); try assumption; [apply Hx| |].
  - destruct Hx as (_ & _ & _ & _ & _ & _ & _ & _ & _ & Hd & _). eapply Forall_impl; [|exact Hd]. intros e (A & B & _). split; [apply A|exact B].
  - exists ev, sg, srcs. auto.
Qed.
Print Assumptions C25_request_accepted.
(** the same for the curve and the hash of the code *)
Theorem C25_on_ed25519 (v : env ed25519) (cr : Signer_model.creds (real_ops ed25519 v)) tp hs x st parse :
  env_ok ed25519 v -> sig_codec ed25519 v parse -> honest_tapes tp -> request ed25519 v cr x -> pseudo_outs_kept x ->
  no_zero_mask (real_ops ed25519 v) cr tp x -> no_give_up (real_ops ed25519 v) cr tp hs x ->
  exists ev sg srcs, sign_transaction_data (real_ops ed25519 v) cr tp hs x st = Ok ((None, ev), sg) /\
    Permutation srcs (tc_sources x) /\ length (sg_vout sg) = length (tc_dsts x) /\
    sg_fee sg = zsum (map se_amount (tc_sources x)) - zsum (map de_amount (tc_dsts x)) /\
    forall w, w = v_weights ed25519 v \/ (length (tc_dsts x) <= 2)%nat -> node_accepts ed25519 (real_ops ed25519 v) parse w (map ring_request srcs) sg.
Proof. exact (C25_request_accepted ed25519 ed25519_laws v cr tp hs x st parse ed25519_enc_len ed25519_hash). Qed.
Print Assumptions C25_on_ed25519.

(** ** A case: the toy group, every hash being 1; one source, one recipient and the change *)
Definition put_rows (rows : list (list Z)) : list Z := concat (map (fun r => Z.of_nat (length r) :: r) rows).
Fixpoint get_rows (n : nat) (b : list Z) : res (list (list Z) * list Z) :=
  match n with
  | O => Ok ([], b)
  | S n => match b with [] => Err EOFErr | k :: b => let* (rs, b') := get_rows n (skipn (Z.to_nat k) b) in Ok (firstn (Z.to_nat k) b :: rs, b') end
  end.
Lemma get_put rows : forall rest, get_rows (length rows) (put_rows rows ++ rest) = Ok (rows, rest).
Proof.
  induction rows as [|r rows IH]; intros rest; [reflexivity|]. unfold put_rows. cbn [map concat length get_rows app]. rewrite <- app_assoc, Nat2Z.id, firstn_app, skipn_app, firstn_all, skipn_all, Nat.sub_diag.
  cbn [firstn skipn app]. rewrite app_nil_r. fold (put_rows rows). rewrite IH. reflexivity.
Qed.
Definition toy_env : env toy1 := {|
  v_hmac := fun k m => toy_hash (k ++ m); v_enc := fun k n p => p; v_dec := fun k c => Ok c;
  v_rand := fun sd n => toy_rand n; v_weights := (5, 6); v_nonces := fun sd => [17; 18]; v_rows := fun sd i => [19; 20 + Z.of_nat i mod 5];
  v_dump_tsx := fun d p => toy_hash [1]; v_dump_mg := fun mg => mg_cc toy1 mg :: Z.of_nat (length (mg_ss toy1 mg)) :: put_rows (mg_ss toy1 mg) |}.
Definition toy_parse (b : list Z) : res (list (list Z) * Z) :=
  match b with cc :: n :: b => let* (rows, _) := get_rows (Z.to_nat n) b in Ok (rows, cc) | _ => Err EOFErr end.
Lemma toy_codec : sig_codec toy1 toy_env toy_parse.
Proof. intros mg _ _. cbn [v_dump_mg toy_env toy_parse]. rewrite <- (app_nil_r (put_rows _)), Nat2Z.id, get_put. reflexivity. Qed.
Lemma toy_small x : 0 <= x < 1000 -> scalar x.
Proof. intros [A B]. split; [exact A|eapply Z.lt_trans; [exact B|reflexivity]]. Qed.
Lemma toy_env_ok : env_ok toy1 toy_env.
Proof.
  constructor.
  - reflexivity.
  - intros sd n Hn. apply toy_rand_ok. lia.
  - intros sd. split; [reflexivity|]. repeat constructor; discriminate.
  - intros sd i. split; [reflexivity|]. pose proof (Z.mod_pos_bound (Z.of_nat i) 5 eq_refl). constructor; [apply toy_small; lia|]. constructor; [apply toy_small; lia|constructor].
Qed.
Lemma toy1_no_zero s : hash_to_scalar toy1 s <> 0.
Proof. unfold hash_to_scalar. cbn [hash toy1]. vm_compute. discriminate. Qed.
Lemma toy1_hash_bytes : hash_bytes toy1.
Proof. intros x. cbn [hash toy1]. split; [reflexivity|]. repeat constructor; discriminate. Qed.
Lemma toy1_len P : length (encp toy1 P) = 32%nat.
Proof. apply le_digits_length. Qed.

Definition pub (k : Z) : list Z := encp toy1 (smul toy1 (Gb toy1) k).
Definition toy_cr : Signer_model.creds (real_ops toy1 toy_env) := Signer_model.Build_creds (real_ops toy1 toy_env) 101 202 (smul toy1 (Gb toy1) 202).
Definition my_addr : pubaddr := {| spend_public_key := pub 202; view_public_key := pub 101 |}.
Definition your_addr : pubaddr := {| spend_public_key := pub 303; view_public_key := pub 404 |}.
Definition pays (a : Z) (ad : pubaddr) : dst_entry := {| de_amount := a; de_addr := ad; de_is_subaddress := None; de_original := None; de_is_integrated := None |}.
Definition one_source : src_entry :=
  {| se_outputs := [{| re_idx := 3; re_dest := pub 99; re_commitment := pub 98 |};
                    {| re_idx := 10; re_dest := encp toy1 (one_time_key toy1 101 202 (smul toy1 (Gb toy1) 55) 1 0 0); re_commitment := encp toy1 (commit toy1 66 1000) |}];
     se_real_output := 1; se_real_out_tx_key := pub 55; se_additional := []; se_real_output_in_tx_index := 1; se_amount := 1000; se_rct := Some true;
     se_mask := Some (enc_sc 66); se_multisig := None; se_subaddr_minor := None |}.
Definition one_tx : construction :=
  {| tc_payment_id := None; tc_unlock_time := 0; tc_dsts := [pays 600 your_addr; pays 390 my_addr]; tc_change := Some (pays 390 my_addr);
     tc_sources := [one_source]; tc_account := Some 0; tc_minor := [0; 1]; tc_use_bulletproofs := true; tc_hf := 10; tc_client_version := 1 |}.
Lemma pub_ok k : bytes_ok (encp toy1 k).
Proof. cbn [encp toy1 toy]. apply Forall_forall. intros b Hb. pose proof (le_digits_ok 256 32 (Ec_toy.v k) eq_refl) as D. unfold digits_ok in D. rewrite Forall_forall in D. specialize (D b Hb). unfold byte_ok. lia. Qed.
Lemma dec_pub P : decp toy1 (encp toy1 P) = Ok P.
Proof. apply (law_dec toy1 toy1_laws). Qed.
Lemma one_request : request toy1 toy_env toy_cr one_tx.
Proof.
  unfold request. cbn [view_priv spend_priv spend_pub toy_cr].
  split; [split; [reflexivity|reflexivity]|]. split; [split; [reflexivity|reflexivity]|]. split; [reflexivity|].
  split; [split; reflexivity|]. split; [split; reflexivity|]. split; [discriminate|]. split; [reflexivity|].
  split. { unfold supported. cbn [one_tx tc_hf tc_client_version tc_dsts]. split; [lia|]. split; [lia|]. intros X. discriminate X. }
  split; [|split; [|split; [|split]]].
  - constructor; [|constructor]. split.
    + unfold src_ok, one_source. cbn [se_outputs se_real_output se_real_out_tx_key se_additional se_real_output_in_tx_index se_amount se_mask se_multisig se_subaddr_minor].
      split; [constructor; [|constructor; [|constructor]]; cbn [re_idx re_dest re_commitment]; (split; [lia|split; apply pub_ok])|].
      split; [lia|]. split; [apply pub_ok|]. split; [constructor|]. split; [lia|]. split; [lia|]. split; [|split; [reflexivity|exact I]]. repeat constructor; discriminate.
    + exists 0, 0, {| re_idx := 10; re_dest := encp toy1 (one_time_key toy1 101 202 (smul toy1 (Gb toy1) 55) 1 0 0); re_commitment := encp toy1 (commit toy1 66 1000) |}, (smul toy1 (Gb toy1) 55), [], (smul toy1 (Gb toy1) 55), (enc_sc 66).
      split; [reflexivity|]. split; [split; [discriminate|reflexivity]|]. split; [repeat constructor; discriminate|]. split; [left; reflexivity|]. split; [cbn; lia|].
      split. { constructor; [|constructor; [|constructor]]; cbn [re_dest re_commitment]; eexists _, _; split; apply dec_pub. }
      split; [reflexivity|]. split; [apply dec_pub|]. split; [reflexivity|]. split; [left; reflexivity|]. split; [apply dec_pub|]. split; [reflexivity|]. cbn [re_commitment se_amount one_source]. change (le_val 256 (enc_sc 66) mod l) with 66. apply dec_pub.
  - assert (P : forall a s w, 0 <= a < 2 ^ 64 -> encp toy1 w <> repeat 0 32 -> payable (real_ops toy1 toy_env) (pays a {| spend_public_key := encp toy1 s; view_public_key := encp toy1 w |})).
    { intros a s w Ha Hw. unfold payable, dst_ok, pays. cbn [de_amount de_addr de_original spend_public_key view_public_key]. split; [split; [lia|]; split; [apply pub_ok|]; split; [apply pub_ok|exact I]|]. split; [lia|].
      split; [apply toy1_len|]. split; [exact Hw|]. split; eexists; apply dec_pub. }
    constructor; [|constructor; [|constructor]]; apply P; try lia; intros X; vm_compute in X; discriminate X.
  - right. split; [exists 0; split; reflexivity|]. exists (pays 390 my_addr). split; [right; left; reflexivity|reflexivity].
  - split; [|exact I]. exists (pays 600 your_addr). split; [left; reflexivity|]. split; [discriminate|]. cbn [tc_change one_tx]. intros X. apply (f_equal spend_public_key) in X. vm_compute in X. discriminate X.
  - vm_compute. discriminate.
Qed.
(** the hypotheses hold together, for every seed of the host *)
Example C73_case hs : exists ev sg srcs, sign_transaction_data (real_ops toy1 toy_env) toy_cr toy_tape_r hs one_tx None = Ok ((None, ev), sg) /\
  length (sg_vout sg) = 2%nat /\ sg_fee sg = 10 /\ srcs = [one_source] /\ forall w, node_accepts toy1 (real_ops toy1 toy_env) toy_parse w (map ring_request srcs) sg.
Proof.
  destruct (C25_request_accepted toy1 toy1_laws toy_env toy_cr toy_tape_r hs one_tx None toy_parse toy1_len toy1_hash_bytes toy_env_ok toy_codec toy_honest one_request) as (ev & sg & srcs & H & Hp & Hv & Hf & Hn).
  { left. reflexivity. }
  { apply request_no_zero, toy1_no_zero. }
  { apply (request_no_give_up toy1 toy1_laws toy_env toy_env_ok); [exact toy1_no_zero|]. repeat constructor; discriminate. }
  exists ev, sg, srcs. split; [exact H|]. split; [exact Hv|]. split; [rewrite Hf; reflexivity|]. split; [apply Permutation_length_1_inv, Permutation_sym, Hp|].
  intros w. apply Hn. right. cbn. lia.
Qed.
