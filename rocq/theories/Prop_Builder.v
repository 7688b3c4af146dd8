(** C77: the transaction builder makes requests the wallet can sign. *)
From Coq Require Import Permutation.
From Verif Require Import Py PyLemmas Digits Addr_model Lists_model Signer_model Signer_spec Agent_model Agent_sound Complete_spec Complete_toy Addr_spec Addr_proof Ints_model Protobuf_spec Ec_model Ec_spec Ec_proof Ec_toy Ed25519_model Ed25519_enc Ed25519_inst Rsig_model Mlsag_model Mlsag_spec Sigs_spec Sigs_proof
  Wallet_model Wallet_spec Wallet_proof Bp_model Real_model Node_spec Node_complete Request_spec Builder_model Builder_spec Builder_proof Builder_proof2 Builder_proof3 Prop_Bp Prop_Complete Prop_Node.
Ltac Zify.zify_post_hook ::= idtac.

(** what is asked of the curve: encodings of 32 bytes, a base point that is not neutral *)
Definition usable (E : ecops) : Prop :=
  ec_laws E /\ (forall P, length (encp E P) = 32%nat) /\ (forall P, bytes_ok (encp E P)) /\ hash_bytes E /\ Gb E <> pid E.
Lemma ed25519_usable : usable ed25519.
Proof.
  split; [exact ed25519_laws|]. split; [exact ed25519_enc_len|]. split; [intros P; rewrite ed_enc; apply enc_pt_bytes|]. split; [exact ed25519_hash|].
  rewrite ed_G, ed_id. exact Ed25519_order.G_nz.
Qed.

(** Any sequence of calls, whatever the random numbers: the builder holds the inputs, outputs and change that were asked for (Builder_spec), none of its
    own checks fails, and the only refusal is of a negative change. *)
Theorem C77_calls (E : ecops) a b account fee ring n cs : usable E ->
  nz_scalar a -> nz_scalar b -> u32 account -> Forall (sensible E a b account ring) cs ->
  match plan_of E a b account fee cs with
  | Some p => exists bl, run E (fresh E (wallet E a b) account fee ring (net_code n)) cs = Ok bl /\ holds E a b ring (net_code n) p bl
  | None => run E (fresh E (wallet E a b) account fee ring (net_code n)) cs = Err ValueError
  end.
Proof.
  intros (L & Hl & HB & HH & NG) Ha Hb Hc F. pose proof (run_ok E L Hl HB HH NG a b account fee ring n Ha Hb Hc cs _ _ (inv_fresh E a b account fee ring n) F) as R.
  unfold plan_of. destruct (fold_left _ _ _) as [p|]; [|exact R]. destruct R as (bl & R1 & R2 & _). exists bl. split; assumption.
Qed.
Print Assumptions C77_calls.

(** Every source the builder holds can be spent by the wallet from any table of sub-addresses that knows its address, with the key
    image noted in the transfer. *)
Theorem C77_spendable (E : ecops) a b ring value M m s t d : usable E -> nz_scalar a -> nz_scalar b ->
  received E a b ring value M m s t -> table_sound E a b d -> table_has E a b d M m ->
  exists x ki der, check_input E (wallet E a b) d s = Ok (x, ki, der) /\ encp E ki = tr_image t /\
    exists real, nth_error (se_outputs s) (Z.to_nat (se_real_output s)) = Some real /\ decp E (re_dest real) = Ok (smul E (Gb E) x).
Proof.
  intros (L & Hl & HB & HH & NG) Ha Hb (real & P & C & T & adds & R & x & mk & V1 & V2 & V3 & V4 & V5 & V6 & V7 & V8 & V9 & V10 & V11 & V12 & V13 & _ & _ & _ & _ & _ & _ & _ & _ & _ & V14 & V15 & V16) Sd Hd.
  exists x, (smul E (Hp E (encp E P)) x), (Ec_proof.zmul E (8 * a) T). split; [|split].
  - unfold check_input. rewrite (py_get_nonneg _ _ real V3 V4). cbn [bind]. rewrite V7. cbn [bind]. rewrite V8. cbn [bind]. rewrite V5, (law_dec E L). cbn [bind].
    rewrite V14 in V15. apply (helper_finds E L a b d P _ M m T adds R x NG Ha Hb Sd Hd V15 V10 V9 V11 (eq_sym V12)).
  - rewrite V13, V5. reflexivity.
  - exists real. split; [exact V4|]. rewrite V5, (law_dec E L), V12. reflexivity.
Qed.
Print Assumptions C77_spendable.

(** Whatever was called before, when the change is left to the builder the inputs are the outputs and the fee. *)
Theorem C77_fee (E : ecops) bl cs bl' : run E bl (cs ++ [Change E None]) = Ok bl' ->
  zsum (map se_amount (bo_sources E bl')) = zsum (map de_amount (bo_outputs E bl')) + bo_fee E bl'.
Proof.
  unfold run. rewrite foldM_app. intros H. apply bind_ok_inv in H. destruct H as (b1 & _ & H). cbn [foldM step] in H. apply bind_ok_inv in H. destruct H as (b2 & H & H2). assert (X : bl' = b2) by congruence. subst b2. clear H2.
  unfold gen_change in H. apply bind_ok_inv in H. destruct H as (u & _ & H). apply bind_ok_inv in H. destruct H as (b2 & H & H2). assert (X : bl' = set_change E b2 (zlen (bo_outputs E b2) - 1)) by congruence. subst bl'. clear H2.
  unfold gen_output in H. apply bind_ok_inv in H. destruct H as (u2 & _ & H). apply bind_ok_inv in H. destruct H as ([KS KV] & _ & H). apply bind_ok_inv in H. destruct H as (text & _ & H).
  match type of H with Ok ?x = _ => assert (X : b2 = x) by congruence end. subst b2. cbn [set_change bo_sources bo_outputs bo_fee].
  rewrite map_app, zsum_app. cbn [map de_amount]. rewrite !Complete_proof1.zsum_map_ok. change Lists_spec.zsum with zsum. unfold zsum at 3. cbn [fold_right]. lia.
Qed.
Print Assumptions C77_fee.

(** A builder with inputs and outputs in any order and then the change, for inputs at sub-address (account, account) (for the main account: its main address):
    the agent signs the request and a node accepts it, with the fee of the builder.
    Missing: inputs at other sub-addresses, see below. *)
Theorem C77_accepted_partial (E : ecops) (v : env E) a b account fee ring n calls bl hf client tp hs st parse : usable E ->
  env_ok E v -> sig_codec E v parse -> honest_tapes tp ->
  nz_scalar a -> nz_scalar b -> u32 account -> 2 <= ring -> 0 <= fee -> 9 <= hf -> 1 <= client ->
  Forall (sensible E a b account ring) calls -> zlen calls < 2 ^ 40 ->
  Forall (fun c => match c with
                   | Input _ v major m _ _ => match major with Some M => M | None => account end = account /\ m = account
                   | Output _ v dest M m pid => encp E (sub_C E (cr_view E dest) (cr_spend E dest) M m) <> repeat 0 32
                   | Change _ _ => False
                   end) calls ->
  encp E (sub_C E a b account 0) <> repeat 0 32 ->
  (exists w major m ad d, In (Input E w major m ad d) calls) ->
  (exists w dest M m pid, In (Output E w dest M m pid) calls /\ w <> 0 /\ sub_D E (cr_view E dest) (cr_spend E dest) M m <> sub_D E a b account 0) ->
  run E (fresh E (wallet E a b) account fee ring (net_code n)) (calls ++ [Change E None]) = Ok bl ->
  zsum (map se_amount (bo_sources E bl)) < 2 ^ 64 ->
  (forall x, build E bl hf client = Ok x -> no_zero_mask (real_ops E v) (device E a b v) tp x /\ no_give_up (real_ops E v) (device E a b v) tp hs x) ->
  exists x ev sg srcs, build E bl hf client = Ok x /\
    sign_transaction_data (real_ops E v) (device E a b v) tp hs x st = Ok ((None, ev), sg) /\
    Permutation srcs (bo_sources E bl) /\ length (sg_vout sg) = length (bo_outputs E bl) /\ sg_fee sg = fee /\
    forall w, w = v_weights E v \/ (length (bo_outputs E bl) <= 2)%nat -> node_accepts E (real_ops E v) parse w (map ring_request srcs) sg.
Proof.
  intros (L & Hl & HB & HH & NG) HV Hp Ht Ha Hb Hc Hring Hfee Hhf Hcl F Hlc U Hzc Hin Hout Hrun Hsum HX.
  destruct (build_request E L Hl HB HH NG a b account fee ring n Ha Hb Hc v calls bl hf client Hring Hfee Hhf Hcl F U Hlc Hzc Hin Hout Hrun Hsum) as (x & X1 & X2 & X3 & X4 & X5 & X6).
  destruct (C25_request_accepted E L v (device E a b v) tp hs x st parse Hl HH HV Hp Ht X2) as (ev & sg & srcs & S1 & S2 & S3 & S4 & S5).
  { left. rewrite X5. clear - Hcl. lia. } { apply (HX x X1). } { apply (HX x X1). }
  exists x, ev, sg, srcs. rewrite X3, X4 in *. split; [exact X1|]. split; [exact S1|]. split; [exact S2|]. split; [exact S3|]. split; [|exact S5]. rewrite S4. exact X6.
Qed.
Print Assumptions C77_accepted_partial.

(** ** A case *)
Definition toy_draws (r oidx cnt index : Z) : draws :=
  {| dr_r := r; dr_oidx := oidx; dr_cnt := cnt; dr_mask := 77 * r; dr_ring := fun i => (r + 10 * Z.of_nat i, r + 5 + 10 * Z.of_nat i); dr_index := index;
     dr_adds := fun i => 900 + Z.of_nat i; dr_glob := fun i => 40 + Z.of_nat i; dr_vout := fun i => 800 + Z.of_nat i |}.
Definition toy_calls (m : Z) : list (call toy1) :=
  [Input toy1 700 None 0 false (toy_draws 31 1 3 0); Output toy1 600 (wallet toy1 404 303) 1 2 None; Input toy1 300 (Some 0) m true (toy_draws 57 2 4 1)].
Definition toy_fresh : bld toy1 := fresh toy1 (wallet toy1 101 202) 0 10 2 1.
Definition asks (m : Z) (p : option plan) : Prop :=
  p = Some {| pl_in := [(700, 0, 0); (300, 0, m)]; pl_out := [(600, (404, 303), (1, 2), None); (390, (101, 202), (0, 0), None)]; pl_change := Some 1%nat |}.
Lemma toy1_usable : usable toy1.
Proof.
  split; [exact toy1_laws|]. split; [exact toy1_len|]. split; [exact pub_ok|]. split; [exact toy1_hash_bytes|].
  intros X. apply (law_eqb toy1 toy1_laws) in X. vm_compute in X. discriminate X.
Qed.
Lemma toy_draws_ok r oidx cnt index : 0 <= oidx <= 12 -> oidx + 1 <= cnt <= 2 * oidx + 1 -> 0 <= index <= 1 -> random_scalar r <> 0 -> draws_ok 2 (toy_draws r oidx cnt index).
Proof. intros A B C D. split; [exact A|]. split; [exact B|]. split; [cbn [dr_index toy_draws]; lia|]. split; [intros i; cbn [dr_glob toy_draws]; lia|exact D]. Qed.
Lemma toy_sensible m : m = 0 \/ m = 1 -> Forall (sensible toy1 101 202 0 2) (toy_calls m).
Proof.
  intros Hm. assert (U : forall z, 0 <= z < 10 -> u32 z) by (intros z Hz; split; [lia|]; assert (10 < 2 ^ 32) by reflexivity; lia).
  constructor; [|constructor; [|constructor; [|constructor]]]; cbn [sensible].
  - split; [lia|]. split; [apply U; lia|]. split; [apply U; lia|]. split; [vm_compute; discriminate|]. apply toy_draws_ok; try lia. vm_compute. discriminate.
  - split; [lia|]. split; [reflexivity|]. split; [split; [discriminate|reflexivity]|]. split; [apply U; lia|]. split; [apply U; lia|exact I].
  - split; [lia|]. split; [apply U; lia|]. split; [apply U; lia|]. split; [destruct Hm as [->| ->]; vm_compute; discriminate|]. apply toy_draws_ok; try lia. vm_compute. discriminate.
Qed.
(** two inputs, one with additional keys, an output to a sub-address in between, then the change of 390 *)
Example C77_case : asks 0 (plan_of toy1 101 202 0 10 (toy_calls 0 ++ [Change toy1 None])) /\
  forall hs, exists bl x ev sg srcs, run toy1 toy_fresh (toy_calls 0 ++ [Change toy1 None]) = Ok bl /\ length (bo_sources toy1 bl) = 2%nat /\ build toy1 bl 10 1 = Ok x /\
    sign_transaction_data (real_ops toy1 toy_env) (device toy1 101 202 toy_env) toy_tape_r hs x None = Ok ((None, ev), sg) /\ sg_fee sg = 10 /\
    forall w, node_accepts toy1 (real_ops toy1 toy_env) toy_parse w (map ring_request srcs) sg.
Proof.
  split; [reflexivity|]. intros hs.
  assert (N1 : nz_scalar 101) by (split; reflexivity). assert (N2 : nz_scalar 202) by (split; reflexivity). assert (U0 : u32 0) by (split; [discriminate|reflexivity]).
  pose proof (C77_calls toy1 101 202 0 10 2 Test (toy_calls 0 ++ [Change toy1 None]) toy1_usable N1 N2 U0) as R.
  assert (F : Forall (sensible toy1 101 202 0 2) (toy_calls 0 ++ [Change toy1 None])) by (apply Forall_app; split; [apply toy_sensible; left; reflexivity|constructor; [exact I|constructor]]).
  specialize (R F). change (plan_of toy1 101 202 0 10 (toy_calls 0 ++ [Change toy1 None])) with (Some {| pl_in := [(700, 0, 0); (300, 0, 0)]; pl_out := [(600, (404, 303), (1, 2), @None (list Z)); (390, (101, 202), (0, 0), None)]; pl_change := Some 1%nat |}) in R.
  destruct R as (bl & R1 & R2). pose proof R2 as (L1 & L2 & F1 & L3 & L4 & F2 & _). cbn [pl_in pl_out length] in L1, L2, L3, L4.
  assert (Z1 : zsum (map se_amount (bo_sources toy1 bl)) = 1000).
  { rewrite (sums_eq _ (fun x => fst (fst x)) se_amount _ _ _ (eq_trans L1 (eq_sym L2)) F1); [reflexivity|]. intros x y z (real & P & C & T & adds & Rr & k & mk & H). apply H. }
  destruct (C77_accepted_partial toy1 toy_env 101 202 0 10 2 Test (toy_calls 0) bl 10 1 toy_tape_r hs None toy_parse toy1_usable toy_env_ok toy_codec toy_honest N1 N2 U0 ltac:(lia) ltac:(lia) ltac:(lia) ltac:(lia) (toy_sensible 0 (or_introl eq_refl))) as (x & ev & sg & srcs & X1 & X2 & X3 & X4 & X5 & X6); try assumption.
  - reflexivity.
  - constructor; [split; reflexivity|]. constructor; [intros X; vm_compute in X; discriminate X|]. constructor; [split; reflexivity|constructor].
  - intros X. vm_compute in X. discriminate X.
  - eexists _, _, _, _, _. left. reflexivity.
  - exists 600, (wallet toy1 404 303), 1, 2, None. split; [right; left; reflexivity|]. split; [discriminate|]. intros X. apply (law_eqb toy1 toy1_laws) in X. vm_compute in X. discriminate X.
  - rewrite Z1. reflexivity.
  - intros x Hx. split; [apply request_no_zero, toy1_no_zero|]. apply (request_no_give_up toy1 toy1_laws toy_env toy_env_ok); [exact toy1_no_zero|].
    unfold build in Hx. destruct (bo_change toy1 bl) as [i|]; [|discriminate]. apply bind_ok_inv in Hx. destruct Hx as (ch & _ & Hx). injection Hx as <-. cbn [tc_dsts].
    cbn [pl_out] in F2. destruct (bo_outputs toy1 bl) as [|e1 [|e2 [|? ?]]]; try discriminate L3. destruct (bo_text toy1 bl) as [|t1 [|t2 [|? ?]]]; try discriminate L4.
    cbn [combine] in F2. inversion F2 as [|? ? ? ? A1 F3]; subst. inversion F3 as [|? ? ? ? A2 _]; subst. unfold pays_to in A1, A2. cbn [fst snd] in A1, A2. apply proj1 in A1, A2.
    constructor; [rewrite A1; split; [discriminate|reflexivity]|]. constructor; [rewrite A2; split; [discriminate|reflexivity]|constructor].
  - exists bl, x, ev, sg, srcs. split; [exact R1|]. split; [exact L1|]. split; [exact X1|]. split; [exact X2|]. split; [exact X5|]. intros w. apply X6. right. rewrite L3. apply Nat.le_refl.
Qed.

(** the list of sub-addresses of a request holds account numbers, so the device does not find an input at another sub-address of the account:
    with the second input at (0, 1), an address of the account, the builder still succeeds but the agent does not sign *)
Definition fails_to_sign (m : Z) (hs : nat -> Z) : bool :=
  match run toy1 toy_fresh (toy_calls m ++ [Change toy1 None]) with
  | Ok bl => match build toy1 bl 10 1 with
             | Ok x => match sign_transaction_data (real_ops toy1 toy_env) (device toy1 101 202 toy_env) toy_tape_r hs x None with Err MoneroError => true | _ => false end
             | Err _ => false
             end
  | Err _ => false
  end.
Theorem C77_other_subaddress_refuted : Forall (sensible toy1 101 202 0 2) (toy_calls 1) /\ asks 1 (plan_of toy1 101 202 0 10 (toy_calls 1 ++ [Change toy1 None])) /\
  forall hs, fails_to_sign 1 hs = true.
Proof. split; [apply toy_sensible; right; reflexivity|]. split; [reflexivity|]. intros hs. vm_compute. reflexivity. Qed.
Print Assumptions C77_other_subaddress_refuted.
(** a change larger than what is left of the inputs is refused *)
Example C77_case_negative : plan_of toy1 101 202 0 500 (toy_calls 0 ++ [Change toy1 None]) = None.
Proof. reflexivity. Qed.
