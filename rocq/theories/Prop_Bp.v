(** C36: a bulletproof made for 64-bit amounts verifies.  C37: the two verification
    paths agree, and how the verdict of a batch depends on its members.  C65: the masks are not hidden. *)
From Verif Require Import Py PyLemmas Digits Ints_model Primes KeySep_proof Clsag_proof Ec_model Ec_spec Ec_proof Ec_toy Ed25519_inst Mlsag_model Mlsag_spec Mlsag_proof Bp_model Bp_proof1 Bp_proof2 Bp_proof3 Bp_proof4 Bp_spec Bp_proof5 Bp_proof6.
From Coq Require Import Permutation Znumtheory.
Ltac Zify.zify_post_hook ::= idtac.

(** generators of order dividing l *)
Definition generators (E : ecops) (gs : gens E) : Prop := forall i, smul E (gG E gs i) l = pid E /\ smul E (gH E gs i) l = pid E.
#[local] Transparent sub.
Lemma gens_gens_ok E (L : ec_laws E) gs : generators E gs -> gens_ok E gs.
Proof. intros H i. destruct (H i) as [A B]. unfold sub. rewrite <- !(smul_zmul E L) by (pose proof l_pos; lia). split; assumption. Qed.
#[local] Opaque sub.
Lemma computed_generators E (L : ec_laws E) : generators E (computed_gens E).
Proof. intros i. split; apply (law_Hp E L). Qed.

(** the number of blocks: the next power of two *)
Definition padded (n : nat) : nat := Nat.pow 2 (Nat.log2_up n).
Lemma blocks_small n : (1 <= n <= 32)%nat -> exists k, bp_blocks n = Ok (Z.of_nat (padded n), k) /\ (n <= padded n)%nat.
Proof.
  intros H. assert (C : forallb (fun n => match bp_blocks n with Ok (M, _) => (M =? Z.of_nat (padded n)) && Nat.leb n (padded n) | Err _ => false end) (seq 1 32) = true) by (vm_compute; reflexivity).
  rewrite forallb_forall in C. specialize (C n ltac:(apply in_seq; lia)). destruct (bp_blocks n) as [[M k]|e]; [|discriminate].
  apply andb_prop in C. destruct C as [C1 C2]. apply Z.eqb_eq in C1. apply Nat.leb_le in C2. exists k. rewrite C1. split; [reflexivity|exact C2].
Qed.

(** the prover's random values: scalars, two of them for each of the 64 bits of each (padded) amount *)
Definition random_ok (n : nat) (rd : prand) : Prop :=
  scalar (r_alpha rd) /\ scalar (r_rho rd) /\ scalar (r_tau1 rd) /\ scalar (r_tau2 rd) /\
  length (r_sL rd) = (64 * padded n)%nat /\ length (r_sR rd) = (64 * padded n)%nat /\ Forall scalar (r_sL rd) /\ Forall scalar (r_sR rd).
(** a 64-bit amount *)
Definition u64 (a : Z) : Prop := 0 <= a < 2 ^ 64.
(** the verification value [k] encodes a point whose eightfold is the commitment *)
Definition commits_8 (E : ecops) (k : list Z) (c : pt E) : Prop := exists V, decp E k = Ok V /\ smul E V 8 = c.

Lemma sc_init_all amounts : Forall u64 amounts -> mapM bp_sc_init amounts = Ok amounts.
Proof.
  induction 1 as [|a amounts [A1 A2] H IH]; [reflexivity|]. cbn [mapM]. unfold bp_sc_init at 1. rewrite Z.geb_leb, (proj2 (Z.leb_gt _ _) A2). cbn [bind]. rewrite IH. cbn [bind].
  rewrite Z.mod_small by (split; [exact A1|eapply Z.lt_trans; [exact A2|reflexivity]]). reflexivity.
Qed.
Lemma verdict_of E (L : ec_laws E) gs : gens_ok E gs -> forall p M k d ws w so, bp_check p = Ok tt -> (length (bp_V p) <= Z.to_nat M)%nat -> bp_blocks (length (bp_V p)) = Ok (M, k) ->
  satisfied E gs p M k d ws -> verify_batch E gs [p] [w] so = Ok true.
Proof.
  intros GS p M k d ws [wy wz] so BC LM EB (O & S & LL & LR & Hy & Hz & Hx & Hi & RC & E1 & E2).
  rewrite (verify_is E L gs GS). unfold verdict. cbn [mapM combine fold_left]. rewrite BC. cbn [bind].
  destruct (bp_blocks_ok (length (bp_V p))) as (M' & k' & EB' & EM & Hk & _). rewrite EB in EB'. assert (k' = k) by congruence. subst k'.
  rewrite (proj2 (Nat.ltb_lt _ _)) by lia. cbn [guard bind].
  rewrite (contrib_eq E L gs GS p d ws wy wz M k) by assumption. cbn [bind psum]. rewrite E1, E2, !(zmul_id E L), !(law_id E L).
  rewrite (proj2 (law_eqb E L _ _)) by reflexivity. reflexivity.
Qed.

Theorem C36_complete : forall E, ec_laws E -> forall gs, generators E gs -> forall amounts masks rd,
  (1 <= length amounts <= 32)%nat -> length masks = length amounts -> Forall u64 amounts -> Forall scalar masks -> random_ok (length amounts) rd ->
  match prove_range_bp_batch E gs amounts masks rd with
  | Ok p => (forall weights single, verify_batch E gs [p] [weights] single = Ok true) /\
            Forall2 (commits_8 E) (bp_V p) (map (fun ma => commit E (fst ma) (snd ma)) (combine masks amounts))
  | Err _ => exists s, hash_to_scalar E s = 0
  end.
Proof.
  intros E L gs GG amounts masks rd Hn Lm HU HM HR. pose proof (gens_gens_ok E L gs GG) as GS. unfold prove_range_bp_batch. rewrite sc_init_all by exact HU. cbn [bind].
  destruct (blocks_small _ Hn) as (k & EB & LE). assert (RO : rand_ok (Z.to_nat (Z.of_nat (padded (length amounts))) * BP_N) rd).
  { rewrite Nat2Z.id, Nat.mul_comm. exact HR. }
  pose proof (prove_total E L gs GS amounts masks rd _ k EB HU HM RO (eq_sym Lm) ltac:(lia)) as PT.
  destruct (prove_batch E gs amounts masks rd) as [p|e] eqn:PB; [|exact PT].
  destruct (prove_sat E L gs GS amounts masks rd p _ k EB ltac:(rewrite Nat2Z.id; exact LE) HU HM RO PB) as (_ & _ & BC & EV & d & ws & SAT).
  assert (LV : length (bp_V p) = length amounts) by (rewrite EV, map_length, map2_length; lia).
  split.
  - intros w so. apply (verdict_of E L gs GS p (Z.of_nat (padded (length amounts))) k d ws w so BC); rewrite ?LV, ?Nat2Z.id; assumption.
  - rewrite EV. clear - L HU HM Lm. revert amounts Lm HU. induction masks as [|m masks IH]; intros [|a amounts] Lm HU; try discriminate; cbn [map2 map combine]; constructor.
    + eexists. split; [apply (law_dec E L)|]. rewrite (smul_zmul E L) by lia. rewrite (eight E L) by (apply (sub_keys E L)).
      unfold commit. inversion HU as [|? ? [A _]]; inversion HM as [|? ? [B _]]; subst. cbn [fst snd]. rewrite !(smul_zmul E L) by assumption. reflexivity.
    + inversion HU; inversion HM; subst. apply IH; try assumption. cbn in Lm. lia.
Qed.
Print Assumptions C36_complete.

(** a case: the toy group, every challenge being 1 *)
Definition toy1 : ecops := {| pt := pt toy; pt_eqb := pt_eqb toy; padd := padd toy; pneg := pneg toy; pid := pid toy; smul := smul toy; Gb := Gb toy; Hb := Hb toy;
  encp := encp toy; decp := decp toy; hash := fun _ => 1 :: repeat 0 31; Hp := Hp toy |}.
Lemma toy1_laws : ec_laws toy1.
Proof.
  destruct toy_laws. constructor; try assumption. intros P e He. assert (N : forall n (P : pt toy), nsum toy1 n P = nsum toy n P).
  { induction n as [|n IH]; intros Q; [reflexivity|]. cbn [nsum]. rewrite IH. reflexivity. }
  rewrite N. apply law_smul, He.
Qed.
Definition toy_rand (n : nat) : prand :=
  {| r_alpha := 11; r_rho := 22; r_tau1 := 33; r_tau2 := 44; r_sL := map (fun i => Z.of_nat i + 5) (seq 0 (64 * padded n)); r_sR := map (fun i => 3 * Z.of_nat i + 1) (seq 0 (64 * padded n)) |}.
Lemma toy_rand_ok n : (n <= 32)%nat -> random_ok n (toy_rand n).
Proof.
  intros Hn. assert (P : (padded n <= 32)%nat).
  { unfold padded. change 32%nat with (Nat.pow 2 5). apply Nat.pow_le_mono_r; [lia|]. change 5%nat with (Nat.log2_up 32). apply Nat.log2_up_le_mono, Hn. }
  assert (Q : forall x, 0 <= x < 100000 -> scalar x) by (intros x [A B]; split; [exact A|eapply Z.lt_trans; [exact B|reflexivity]]).
  unfold random_ok, toy_rand. cbn [r_alpha r_rho r_tau1 r_tau2 r_sL r_sR]. do 4 (split; [apply Q; lia|]). rewrite !map_length, !seq_length. do 2 (split; [reflexivity|]).
  split; apply Forall_forall; intros x Hx; apply in_map_iff in Hx; destruct Hx as (i & <- & Hi); apply in_seq in Hi; apply Q; lia.
Qed.
Example C36_three_amounts : exists p, prove_range_bp_batch toy1 (computed_gens toy1) [18446744073709551615; 0; 1000] [7; 8; 9] (toy_rand 3) = Ok p /\
  verify_batch toy1 (computed_gens toy1) [p] [(5, 6)] true = Ok true.
Proof.
  assert (U : forall x, (0 <=? x) && (x <? 2 ^ 64) = true -> u64 x) by (intros x H; apply andb_prop in H; destruct H as [A B]; apply Z.leb_le in A; apply Z.ltb_lt in B; split; assumption).
  pose proof (C36_complete toy1 toy1_laws (computed_gens toy1) (computed_generators _ toy1_laws) [18446744073709551615; 0; 1000] [7; 8; 9] (toy_rand 3)) as C.
  destruct (prove_range_bp_batch toy1 _ _ _ _) as [p|e].
  - exists p. split; [reflexivity|]. apply C; [cbn; lia|reflexivity|repeat constructor; apply U; reflexivity| |apply toy_rand_ok; lia].
    repeat constructor; discriminate.
  - exfalso. destruct C as [s Hs]; [cbn; lia|reflexivity|repeat constructor; apply U; reflexivity| |apply toy_rand_ok; lia|].
    + repeat constructor; discriminate.
    + revert Hs. unfold hash_to_scalar. cbn [hash toy1]. vm_compute. discriminate.
Qed.

(** amounts of 64 bits or more are refused, whatever the rest *)
Theorem C36_too_big : forall E gs amounts masks rd, Exists (fun a => 2 ^ 64 <= a) amounts -> prove_range_bp_batch E gs amounts masks rd = Err ValueError.
Proof.
  intros E gs amounts masks rd H. unfold prove_range_bp_batch. assert (X : mapM bp_sc_init amounts = Err ValueError); [|rewrite X; reflexivity].
  induction H as [a amounts H|a amounts H IH]; cbn [mapM]; unfold bp_sc_init at 1; rewrite Z.geb_leb.
  - rewrite (proj2 (Z.leb_le _ _) H). reflexivity.
  - destruct (2 ^ 64 <=? a); [reflexivity|]. cbn [bind]. rewrite IH. reflexivity.
Qed.
Print Assumptions C36_too_big.
Example C36_too_big_case : prove_range_bp_batch toy (computed_gens toy) [5; 18446744073709551616] [1; 2] (toy_rand 2) = Err ValueError.
Proof. apply C36_too_big. apply Exists_cons_tl, Exists_cons_hd. vm_compute. discriminate. Qed.

Lemma check_lr p : bp_check p = Ok tt -> length (bp_L p) = length (bp_R p).
Proof.
  unfold bp_check. destruct (Nat.eqb_spec (length (bp_L p)) (length (bp_R p))) as [H|H]; [intros _; exact H|]. cbn [guard].
  repeat (match goal with |- context [guard ?b ValueError] => destruct b end; cbn [guard bind]; try discriminate).
Qed.
(** what is checked: for a proof whose points decode to elements of the prime-order subgroup, the verdict is that a weighted sum of the two
    equations of the protocol (Bp_spec) vanishes *)
Theorem C36_equations : forall E, ec_laws E -> forall gs, generators E gs -> forall p d ws wy wz single,
  (1 <= length (bp_V p) <= 32)%nat -> bp_check p = Ok tt -> Z.of_nat (length (bp_L p)) = 6 + Z.of_nat (Nat.log2_up (length (bp_V p))) ->
  opens E p d -> dsub E d ->
  ch_y E p <> 0 -> ch_z E p <> 0 -> ch_x E p <> 0 -> ch_ip E p <> 0 ->
  round_challenges E (ch_ip E p) (combine (bp_L p) (bp_R p)) = Ok ws ->
  (verify_batch E gs [p] [(wy, wz)] single = Ok true <->
   padd E (zmul E wy (W1 E (padded (length (bp_V p))) p d)) (zmul E wz (W2 E gs (padded (length (bp_V p))) p d ws)) = pid E).
Proof.
  intros E L gs GG p d ws wy wz single Hn BC LL O S Hy Hz Hx Hi RC. pose proof (gens_gens_ok E L gs GG) as GS.
  destruct (blocks_small _ Hn) as (k & EB & LE). rewrite (verify_is E L gs GS). unfold verdict. cbn [mapM combine fold_left]. rewrite BC. cbn [bind].
  destruct (bp_blocks_ok (length (bp_V p))) as (M' & k' & EB' & EM & Hk & _). rewrite EB in EB'. assert (k' = k) by congruence. subst k'. assert (EM2 : Z.of_nat (padded (length (bp_V p))) = 2 ^ k) by congruence. clear EM EB'. rename EM2 into EM.
  assert (K : k = Z.of_nat (Nat.log2_up (length (bp_V p)))).
  { unfold padded in EM. rewrite Nat2Z.inj_pow in EM. change (Z.of_nat 2) with 2 in EM. apply Z.pow_inj_r in EM; lia. }
  rewrite (proj2 (Nat.ltb_lt _ _)) by lia. cbn [guard bind].
  assert (LR : length (bp_R p) = length (bp_L p)) by (symmetry; apply check_lr, BC).
  rewrite (contrib_eq E L gs GS p d ws wy wz (Z.of_nat (padded (length (bp_V p)))) k); rewrite ?Nat2Z.id; try assumption; [|lia].
  cbn [bind psum]. rewrite (id_r E L). destruct (pt_eqb E _ (pid E)) eqn:Q.
  - apply (law_eqb E L) in Q. split; [intros _; exact Q|reflexivity].
  - split; [discriminate|]. intros X. apply (law_eqb E L) in X. congruence.
Qed.
Print Assumptions C36_equations.

(** ** C37 *)
Theorem C37_paths_agree : forall E, ec_laws E -> forall gs, generators E gs -> forall proofs weights,
  verify_batch E gs proofs weights true = verify_batch E gs proofs weights false.
Proof. intros E L gs GG proofs weights. rewrite !(verify_is E L gs (gens_gens_ok E L gs GG)). reflexivity. Qed.
Print Assumptions C37_paths_agree.

(** acceptance of a batch in terms of its members' contributions *)
Lemma mapM_ok_iff {A B} (f : A -> res B) : forall I, (exists r, mapM f I = Ok r) <-> Forall (fun i => exists r, f i = Ok r) I.
Proof.
  induction I as [|i I IH]; cbn [mapM]; [split; [constructor|eexists; reflexivity]|]. split.
  - intros [r H]. apply bind_ok_inv in H. destruct H as (b & H1 & H). apply bind_ok_inv in H. destruct H as (bs & H2 & _). constructor; [exists b; exact H1|]. apply IH. exists bs. exact H2.
  - intros H. inversion H as [|? ? [b Hb] H2]; subst. apply IH in H2. destruct H2 as [bs H2]. rewrite Hb. cbn [bind]. rewrite H2. eexists. reflexivity.
Qed.
Lemma max_lt (ps : list bproof) : forall m, (fold_left (fun m p => Nat.max m (length (bp_L p))) ps m < 32 <-> m < 32 /\ Forall (fun p => length (bp_L p) < 32) ps)%nat.
Proof.
  induction ps as [|p ps IH]; intros m; cbn [fold_left]; [split; [intros H; split; [exact H|constructor]|intros [H _]; exact H]|].
  rewrite IH. split.
  - intros [H1 H2]. split; [lia|constructor; [lia|exact H2]].
  - intros [H1 H2]. inversion H2; subst. split; [lia|assumption].
Qed.
Section Batch.
Context (E : ecops) (L : ec_laws E) (gs : gens E) (GG : generators E gs).
Let GS := gens_gens_ok E L gs GG.
Local Notation "A +' B" := (padd E A B) (at level 50, left associativity).
(** well-formed: the checks which depend on one proof alone *)
Definition wf1 (pw : bproof * (Z * Z)) (c : pt E) : Prop := bp_check (fst pw) = Ok tt /\ (length (bp_L (fst pw)) < 32)%nat /\ contrib E gs pw = Ok c.
Lemma accept_iff (pws : list (bproof * (Z * Z))) so :
  verify_batch E gs (map fst pws) (map snd pws) so = Ok true <-> exists cs, Forall2 wf1 pws cs /\ psum E cs = pid E.
Proof.
  rewrite (verify_is E L gs GS). unfold verdict.
  assert (EC : combine (map fst pws) (map snd pws) = pws) by (clear; induction pws as [|[a b] pws IH]; [reflexivity|]; cbn [map combine fst snd]; rewrite IH; reflexivity). rewrite EC.
  assert (CU : forall p u, bp_check p = Ok u -> bp_check p = Ok tt) by (intros p []; trivial).
  split.
  - intros H. apply bind_ok_inv in H. destruct H as (us & H1 & H). apply bind_ok_inv in H. destruct H as (u & H2 & H). apply bind_ok_inv in H. destruct H as (cs & H3 & H4).
    assert (F1 : Forall (fun p => exists r, bp_check p = Ok r) (map fst pws)) by (apply mapM_ok_iff; eexists; exact H1).
    apply guard_ok_inv in H2. apply Nat.ltb_lt, max_lt in H2. destruct H2 as [_ F2].
    exists cs. split.
    + clear - CU H3 F1 F2. revert cs H3 F1 F2. induction pws as [|pw pws IH]; intros cs H3 F1 F2; cbn [mapM map] in *.
      * assert (cs = []) as -> by congruence. constructor.
      * apply bind_ok_inv in H3. destruct H3 as (c & C1 & H3). apply bind_ok_inv in H3. destruct H3 as (cs' & C2 & C3). assert (cs = c :: cs') as -> by congruence.
        inversion F1 as [|? ? [r Hr] F1']; inversion F2; subst. constructor; [split; [exact (CU _ _ Hr)|split; assumption]|apply IH; assumption].
    + destruct (pt_eqb E (psum E cs) (pid E)) eqn:Q; [|discriminate]. apply (law_eqb E L) in Q. exact Q.
  - intros (cs & F & Q).
    assert (F1 : Forall (fun p => exists r, bp_check p = Ok r) (map fst pws)).
    { clear Q. apply Forall_forall. intros p Hp. apply in_map_iff in Hp. destruct Hp as (pw & <- & Hp). induction F as [|x c xs cs Hx F IH]; [destruct Hp|]. destruct Hp as [<-|Hp]; [exists tt; apply Hx|].
      apply IH; [|exact Hp]. clear -EC. cbn in EC. congruence. }
    assert (F2 : Forall (fun p => length (bp_L p) < 32)%nat (map fst pws)).
    { clear Q. apply Forall_forall. intros p Hp. apply in_map_iff in Hp. destruct Hp as (pw & <- & Hp). clear EC F1. induction F as [|x c xs cs Hx F IH]; [destruct Hp|]. destruct Hp as [<-|Hp]; [apply Hx|].
      apply IH; exact Hp. }
    apply mapM_ok_iff in F1. destruct F1 as [us ->]. cbn [bind]. rewrite (proj2 (Nat.ltb_lt _ _)) by (apply max_lt; split; [lia|exact F2]). cbn [guard bind].
    assert (M : mapM (contrib E gs) pws = Ok cs).
    { clear - F. induction F as [|x c xs cs Hx F IH]; [reflexivity|]. cbn [mapM]. destruct Hx as (_ & _ & Hx). rewrite Hx. cbn [bind]. rewrite IH. reflexivity. }
    rewrite M. cbn [bind]. rewrite (proj2 (law_eqb E L _ _) Q). reflexivity.
Qed.
Lemma one_iff p w so : verify_batch E gs [p] [w] so = Ok true <-> wf1 (p, w) (pid E).
Proof.
  rewrite (accept_iff [(p, w)] so). split.
  - intros (cs & F & Q). inversion F as [|? c ? cs' H1 H2]; subst. inversion H2; subst. cbn [psum] in Q. rewrite (id_r E L) in Q. subst c. exact H1.
  - intros H. exists [pid E]. split; [constructor; [exact H|constructor]|]. cbn [psum]. apply (law_id E L).
Qed.
Lemma psum_app a b : psum E (a ++ b) = psum E a +' psum E b.
Proof. induction a as [|x a IH]; cbn [app psum]; [rewrite (law_id E L); reflexivity|]. rewrite IH. apply (law_assoc E L). Qed.
Lemma psum_perm a b : Permutation a b -> psum E a = psum E b.
Proof.
  induction 1 as [|x a b H IH|x y a|a b c H1 IH1 H2 IH2]; cbn [psum]; [reflexivity|rewrite IH; reflexivity| |congruence].
  rewrite !(law_assoc E L). f_equal. apply (law_comm E L).
Qed.
End Batch.

(** proofs each accepted alone are accepted together *)
Theorem C37_batch_honest : forall E, ec_laws E -> forall gs, generators E gs -> forall (pws : list (bproof * (Z * Z))) single,
  Forall (fun pw => verify_batch E gs [fst pw] [snd pw] true = Ok true) pws ->
  verify_batch E gs (map fst pws) (map snd pws) single = Ok true.
Proof.
  intros E L gs GG pws so H. apply (accept_iff E L gs GG). exists (map (fun _ => pid E) pws). split.
  - induction H as [|[p w] pws H1 H2 IH]; constructor; [|exact IH]. apply (one_iff E L gs GG) in H1. exact H1.
  - clear H. induction pws as [|x pws IH]; [reflexivity|]. cbn [map psum]. rewrite IH. apply (law_id E L).
Qed.
Print Assumptions C37_batch_honest.

(** one proof that is rejected alone makes a batch of otherwise accepted proofs rejected, wherever it stands *)
Theorem C37_one_bad : forall E, ec_laws E -> forall gs, generators E gs -> forall (pre post : list (bproof * (Z * Z))) p w single,
  Forall (fun pw => verify_batch E gs [fst pw] [snd pw] true = Ok true) (pre ++ post) ->
  (verify_batch E gs (map fst (pre ++ (p, w) :: post)) (map snd (pre ++ (p, w) :: post)) single = Ok true <-> verify_batch E gs [p] [w] true = Ok true).
Proof.
  intros E L gs GG pre post p w so H. rewrite (accept_iff E L gs GG), (one_iff E L gs GG).
  assert (PZ : forall pws cs, Forall (fun pw => verify_batch E gs [fst pw] [snd pw] true = Ok true) pws -> Forall2 (wf1 E gs) pws cs -> psum E cs = pid E).
  { intros pws cs F. revert cs. induction F as [|[q v] pws H1 H2 IH]; intros cs F2; inversion F2 as [|? c ? cs' F3 F4]; subst; [reflexivity|]. cbn [psum]. rewrite (IH cs' F4), (id_r E L).
    apply (one_iff E L gs GG) in H1. destruct H1 as (_ & _ & H1). destruct F3 as (_ & _ & F3). cbn [fst snd] in *. congruence. }
  apply Forall_app in H. destruct H as [Hpre Hpost]. split.
  - intros (cs & F & Q). apply Forall2_app_inv_l in F. destruct F as (c1 & c2 & F1 & F2 & ->). inversion F2 as [|? c ? c3 F3 F4]; subst.
    rewrite (psum_app E L) in Q. cbn [psum] in Q. rewrite (PZ _ _ Hpre F1), (PZ _ _ Hpost F4), (law_id E L), (id_r E L) in Q. subst c. exact F3.
  - intros W. exists (map (fun _ => pid E) pre ++ pid E :: map (fun _ => pid E) post). split.
    + assert (A : forall pws, Forall (fun pw => verify_batch E gs [fst pw] [snd pw] true = Ok true) pws -> Forall2 (wf1 E gs) pws (map (fun _ => pid E) pws)).
      { induction 1 as [|[q v] pws H1 H2 IH]; constructor; [|exact IH]. apply (one_iff E L gs GG) in H1. exact H1. }
      apply Forall2_app; [apply A, Hpre|]. constructor; [exact W|apply A, Hpost].
    + assert (A : forall pws : list (bproof * (Z * Z)), psum E (map (fun _ => pid E) pws) = pid E) by (induction pws as [|x pws IH]; [reflexivity|]; cbn [map psum]; rewrite IH; apply (law_id E L)).
      rewrite (psum_app E L). cbn [psum]. rewrite !A, !(law_id E L). reflexivity.
Qed.
Print Assumptions C37_one_bad.

(** the order of the proofs does not matter *)
Theorem C37_order : forall E, ec_laws E -> forall gs, generators E gs -> forall (pws pws' : list (bproof * (Z * Z))) single,
  Permutation pws pws' -> verify_batch E gs (map fst pws) (map snd pws) single = Ok true -> verify_batch E gs (map fst pws') (map snd pws') single = Ok true.
Proof.
  intros E L gs GG pws pws' so P H. apply (accept_iff E L gs GG) in H. apply (accept_iff E L gs GG). destruct H as (cs & F & Q).
  assert (X : exists cs', Forall2 (wf1 E gs) pws' cs' /\ Permutation cs cs').
  { clear Q. revert cs F. induction P as [|x a b P IH|x y a|a b c P1 IH1 P2 IH2]; intros cs F.
    - exists cs. split; [exact F|reflexivity].
    - inversion F as [|? u ? cs1 F1 F2]; subst. destruct (IH cs1 F2) as (cs' & G & P'). exists (u :: cs'). split; [constructor; assumption|]. apply perm_skip, P'.
    - inversion F as [|? u ? cs1 F1 F2]; subst. inversion F2 as [|? u2 ? cs2 F3 F4]; subst. exists (u2 :: u :: cs2). split; [constructor; [assumption|constructor; assumption]|]. apply perm_swap.
    - destruct (IH1 cs F) as (c1 & G1 & Q1). destruct (IH2 c1 G1) as (c2 & G2 & Q2). exists c2. split; [exact G2|]. transitivity c1; assumption. }
  destruct X as (cs' & F' & P'). exists cs'. split; [exact F'|]. rewrite <- (psum_perm E L _ _ P'). exact Q.
Qed.
Print Assumptions C37_order.

(** Random weights: if the first (second) equation of some proof of the batch fails, then whatever the other weights are, at most one value modulo l
    of this proof's first (second) weight lets the batch pass. *)
Lemma cancel_weight E (L : ec_laws E) a b P X Y : sub E P -> a mod l <> b mod l -> padd E X (padd E (zmul E a P) Y) = pid E -> padd E X (padd E (zmul E b P) Y) = pid E -> P = pid E.
Proof.
  intros S N H1 H2. assert (D : zmul E (a - b) P = pid E).
  { transitivity (padd E (padd E X (padd E (zmul E a P) Y)) (pneg E (padd E X (padd E (zmul E b P) Y)))); [lin E L|]. rewrite H1, H2. apply (law_neg E L). }
  assert (NZ : (a - b) mod l <> 0).
  { intros Z0. apply N. apply Z.mod_divide in Z0; [|discriminate]. destruct Z0 as [c Hc]. replace a with (b + c * l) by lia. apply Z.mod_add. discriminate. }
  transitivity (zmul E ((a - b) * sc_inv (a - b)) P).
  - symmetry. rewrite (zc E L _ 1 P S (c_inv _ NZ)). apply (zmul_1 E L).
  - rewrite Z.mul_comm, (zmul_mul E L), D. apply (zmul_id E L).
Qed.
Lemma sub_W1 E (L : ec_laws E) M p d : dsub E d -> sub E (W1 E M p d).
Proof.
  intros (SV & _ & _ & S1 & S2 & _). unfold W1. cbv zeta. apply (sub_add E L); [apply (sub_msm E L), SV|]. apply (sub_add E L); [apply (sub_zmul E L), S1|]. apply (sub_add E L); [apply (sub_zmul E L), S2|].
  apply (sub_add E L); apply (sub_zmul E L); [exact (sub_G E L)|exact (sub_H E L)].
Qed.
Lemma sub_lrs E (L : ec_laws E) : forall ws PL PR, Forall (sub E) PL -> Forall (sub E) PR -> sub E (lrs E ws PL PR).
Proof.
  induction ws as [|w ws IH]; intros PL PR H1 H2; [exact (sub_id E L)|]. destruct PL as [|P PL]; [exact (sub_id E L)|]. destruct PR as [|Q PR]; [exact (sub_id E L)|]. cbn [lrs]. inversion H1; inversion H2; subst.
  apply (sub_add E L); [apply (sub_zmul E L); assumption|]. apply (sub_add E L); [apply (sub_zmul E L); assumption|]. apply IH; assumption.
Qed.
Lemma sub_W2 E (L : ec_laws E) gs (GS : gens_ok E gs) M p d ws : dsub E d -> sub E (W2 E gs M p d ws).
Proof.
  intros (_ & SA & SS & _ & _ & SL & SR). unfold W2. cbv zeta. apply (sub_add E L); [apply (sub_zmul E L), SA|]. apply (sub_add E L); [apply (sub_zmul E L), SS|].
  apply (sub_add E L); [apply (sub_zmul E L), (sub_G E L)|]. apply (sub_add E L); [apply sub_lrs; assumption|]. apply (sub_add E L); [apply (sub_zmul E L), (sub_H E L)|].
  apply (sub_neg E L). apply (sub_add E L); apply (sub_msm E L); apply sub_map; intros i; apply GS.
Qed.
Theorem C37_weights : forall E, ec_laws E -> forall gs, generators E gs -> forall (pre post : list (bproof * (Z * Z))) p d ws single,
  (1 <= length (bp_V p) <= 32)%nat -> Z.of_nat (length (bp_L p)) = 6 + Z.of_nat (Nat.log2_up (length (bp_V p))) -> bp_check p = Ok tt ->
  opens E p d -> dsub E d -> ch_y E p <> 0 -> ch_z E p <> 0 -> ch_x E p <> 0 -> ch_ip E p <> 0 ->
  round_challenges E (ch_ip E p) (combine (bp_L p) (bp_R p)) = Ok ws ->
  let accepted w := verify_batch E gs (map fst (pre ++ (p, w) :: post)) (map snd (pre ++ (p, w) :: post)) single = Ok true in
  (W1 E (padded (length (bp_V p))) p d <> pid E -> forall wz wy wy', accepted (wy, wz) -> accepted (wy', wz) -> wy mod l = wy' mod l) /\
  (W2 E gs (padded (length (bp_V p))) p d ws <> pid E -> forall wy wz wz', accepted (wy, wz) -> accepted (wy, wz') -> wz mod l = wz' mod l).
Proof.
  intros E L gs GG pre post p d ws so Hn LL BC O S Hy Hz Hx Hi RC accepted. pose proof (gens_gens_ok E L gs GG) as GS.
  destruct (blocks_small _ Hn) as (k & EB & LE).
  destruct (bp_blocks_ok (length (bp_V p))) as (M' & k' & EB' & EM & Hk & _). rewrite EB in EB'. assert (k' = k) by congruence. subst k'. assert (EM2 : Z.of_nat (padded (length (bp_V p))) = 2 ^ k) by congruence. clear EM EB'. rename EM2 into EM.
  assert (K : k = Z.of_nat (Nat.log2_up (length (bp_V p)))).
  { unfold padded in EM. rewrite Nat2Z.inj_pow in EM. change (Z.of_nat 2) with 2 in EM. apply Z.pow_inj_r in EM; lia. }
  assert (CE : forall wy wz, contrib E gs (p, (wy, wz)) = Ok (padd E (zmul E wy (W1 E (padded (length (bp_V p))) p d)) (zmul E wz (W2 E gs (padded (length (bp_V p))) p d ws)))).
  { intros wy wz. rewrite (contrib_eq E L gs GS p d ws wy wz (Z.of_nat (padded (length (bp_V p)))) k); rewrite ?Nat2Z.id; try assumption; [reflexivity|lia|]. symmetry. apply check_lr, BC. }
  set (w1 := W1 E (padded (length (bp_V p))) p d) in *. set (w2 := W2 E gs (padded (length (bp_V p))) p d ws) in *.
  assert (SA : forall w, accepted w -> exists c1 c2, mapM (contrib E gs) pre = Ok c1 /\ mapM (contrib E gs) post = Ok c2 /\ padd E (psum E c1) (padd E (padd E (zmul E (fst w) w1) (zmul E (snd w) w2)) (psum E c2)) = pid E).
  { intros [wy wz] A. unfold accepted in A. apply (accept_iff E L gs GG) in A. destruct A as (cs & F & Q). apply Forall2_app_inv_l in F. destruct F as (c1 & c2 & F1 & F2 & ->). inversion F2 as [|? c ? c3 F3 F4]; subst.
    assert (MM : forall I c, Forall2 (wf1 E gs) I c -> mapM (contrib E gs) I = Ok c) by (induction 1 as [|x u xs us Ha F IH]; [reflexivity|]; cbn [mapM]; destruct Ha as (_ & _ & Ha); rewrite Ha; cbn [bind]; rewrite IH; reflexivity).
    exists c1, c3. split; [apply MM, F1|]. split; [apply MM, F4|]. rewrite (psum_app E L) in Q. cbn [psum] in Q. destruct F3 as (_ & _ & F3). rewrite CE in F3. cbn [fst snd].
    assert (c = padd E (zmul E wy w1) (zmul E wz w2)) as -> by congruence. exact Q. }
  split.
  - intros N wz wy wy' A A'. apply SA in A, A'. destruct A as (c1 & c2 & A1 & A2 & A3), A' as (d1 & d2 & B1 & B2 & B3). assert (d1 = c1) by congruence. assert (d2 = c2) by congruence. subst d1 d2. cbn [fst snd] in *.
    destruct (Z.eq_dec (wy mod l) (wy' mod l)) as [Q|Q]; [exact Q|]. exfalso. apply N. apply (cancel_weight E L wy wy' w1 (psum E c1) (padd E (zmul E wz w2) (psum E c2))); try assumption.
    + apply (sub_W1 E L), S.
    + rewrite <- A3. lin E L.
    + rewrite <- B3. lin E L.
  - intros N wy wz wz' A A'. apply SA in A, A'. destruct A as (c1 & c2 & A1 & A2 & A3), A' as (d1 & d2 & B1 & B2 & B3). assert (d1 = c1) by congruence. assert (d2 = c2) by congruence. subst d1 d2. cbn [fst snd] in *.
    destruct (Z.eq_dec (wz mod l) (wz' mod l)) as [Q|Q]; [exact Q|]. exfalso. apply N. apply (cancel_weight E L wz wz' w2 (psum E c1) (padd E (zmul E wy w1) (psum E c2))); try assumption.
    + apply (sub_W2 E L gs GS), S.
    + rewrite <- A3. lin E L.
    + rewrite <- B3. lin E L.
Qed.
Print Assumptions C37_weights.

(** a case for the theorems on batches: two proofs accepted alone *)
Example C37_two_proofs : exists p q, prove_range_bp_batch toy1 (computed_gens toy1) [18446744073709551615; 0; 1000] [7; 8; 9] (toy_rand 3) = Ok p /\
  prove_range_bp_batch toy1 (computed_gens toy1) [77] [78] (toy_rand 1) = Ok q /\
  verify_batch toy1 (computed_gens toy1) [p; q] [(5, 6); (7, 8)] true = Ok true /\ verify_batch toy1 (computed_gens toy1) [q; p] [(7, 8); (5, 6)] false = Ok true.
Proof.
  assert (U : forall x, (0 <=? x) && (x <? 2 ^ 64) = true -> u64 x) by (intros x H; apply andb_prop in H; destruct H as [A B]; apply Z.leb_le in A; apply Z.ltb_lt in B; split; assumption).
  assert (GG : generators toy1 (computed_gens toy1)) by exact (computed_generators _ toy1_laws).
  assert (R : forall am ms, (1 <= length am <= 32)%nat -> length ms = length am -> Forall u64 am -> Forall scalar ms -> exists p, prove_range_bp_batch toy1 (computed_gens toy1) am ms (toy_rand (length am)) = Ok p /\
    forall w, verify_batch toy1 (computed_gens toy1) [p] [w] true = Ok true).
  { intros am ms H1 H2 H3 H4. pose proof (C36_complete toy1 toy1_laws (computed_gens toy1) GG am ms (toy_rand (length am)) H1 H2 H3 H4 (toy_rand_ok _ (proj2 H1))) as C.
    destruct (prove_range_bp_batch toy1 _ _ _ _) as [p|e]; [exists p; split; [reflexivity|intros w; apply C]|]. exfalso. destruct C as [s Hs]. revert Hs. unfold hash_to_scalar. cbn [hash toy1]. vm_compute. discriminate. }
  destruct (R [18446744073709551615; 0; 1000] [7; 8; 9]) as (p & P1 & P2); [cbn; lia|reflexivity|repeat constructor; apply U; reflexivity|repeat constructor; discriminate|].
  destruct (R [77] [78]) as (q & Q1 & Q2); [cbn; lia|reflexivity|repeat constructor; apply U; reflexivity|repeat constructor; discriminate|].
  exists p, q. split; [exact P1|]. split; [exact Q1|]. split.
  - apply (C37_batch_honest toy1 toy1_laws _ GG [(p, (5, 6)); (q, (7, 8))]). repeat constructor; [apply P2|apply Q2].
  - apply (C37_batch_honest toy1 toy1_laws _ GG [(q, (7, 8)); (p, (5, 6))]). repeat constructor; [apply Q2|apply P2].
Qed.

(** ** the real curve *)
Theorem C36_on_ed25519_complete : forall amounts masks rd,
  (1 <= length amounts <= 32)%nat -> length masks = length amounts -> Forall u64 amounts -> Forall scalar masks -> random_ok (length amounts) rd ->
  match prove_range_bp_batch ed25519 (computed_gens ed25519) amounts masks rd with
  | Ok p => (forall weights single, verify_batch ed25519 (computed_gens ed25519) [p] [weights] single = Ok true) /\
            Forall2 (commits_8 ed25519) (bp_V p) (map (fun ma => commit ed25519 (fst ma) (snd ma)) (combine masks amounts))
  | Err _ => exists s, hash_to_scalar ed25519 s = 0
  end.
Proof. exact (C36_complete ed25519 ed25519_laws (computed_gens ed25519) (computed_generators _ ed25519_laws)). Qed.
Print Assumptions C36_on_ed25519_complete.
Theorem C37_on_ed25519_paths_agree : forall proofs weights,
  verify_batch ed25519 (computed_gens ed25519) proofs weights true = verify_batch ed25519 (computed_gens ed25519) proofs weights false.
Proof. exact (C37_paths_agree ed25519 ed25519_laws (computed_gens ed25519) (computed_generators _ ed25519_laws)). Qed.
Print Assumptions C37_on_ed25519_paths_agree.

(** ** C65 *)
(** from the public bytes of a proof for one amount and its number among the proofs made by the process *)
Definition recover_mask (E : ecops) (number : nat) (p : bproof) : res Z :=
  let* (_, (tau1, tau2)) := draws E number bp_prng in
  let x := ch_x E p in let z := ch_z E p in
  Ok (sc_mul (sc_sub (le_val 256 (bp_taux p)) (sc_add (sc_mul tau1 x) (sc_mul tau2 (sc_mul x x)))) (sc_inv (sc_mul z z))).

(** the prover's [taux], in terms of the published proof *)
Lemma prove_taux E gs sv gamma rd p : prove_batch E gs sv gamma rd = Ok p ->
  ch_z E p <> 0 /\ bp_taux p = enc_sc (taux_loop gamma (sc_muladd (r_tau2 rd) (sc_mul (ch_x E p) (ch_x E p)) (sc_mul (r_tau1 rd) (ch_x E p))) (sc_mul (ch_z E p) (ch_z E p)) (ch_z E p)).
Proof.
  unfold prove_batch. intros H. apply bind_ok_inv in H. destruct H as (u1 & _ & H). apply bind_ok_inv in H. destruct H as (u2 & _ & H). apply bind_ok_inv in H. destruct H as ([M k] & _ & H).
  cbv zeta in H. apply bind_ok_inv in H. destruct H as (u3 & _ & H). apply bind_ok_inv in H. destruct H as (u4 & Ez & H). apply guard_ok_inv in Ez.
  destruct (cross_inner_product _ _ _ _ _ _) as [t1 t2]. apply bind_ok_inv in H. destruct H as (u5 & _ & H). apply bind_ok_inv in H. destruct H as (u6 & _ & H).
  apply bind_ok_inv in H. destruct H as (s & _ & H). apply bind_ok_inv in H. destruct H as (a & _ & H). apply bind_ok_inv in H. destruct H as (b & _ & H). apply ok_inj in H. subst p.
  unfold ch_x, ch_z, ch_y. cbn [bp_V bp_A bp_S bp_T1 bp_T2 bp_taux]. split; [|reflexivity]. apply Bool.negb_true_iff, Z.eqb_neq in Ez. exact Ez.
Qed.
(** A proof for one amount reveals its mask to anyone: the prover's randomness is a constant of the code and the number of proofs made before. *)
Theorem C65_hidden_refuted : forall E gs number amount mask alpha rho tau1 tau2 sL sR p,
  draws E number bp_prng = Ok (alpha, rho, (tau1, tau2)) ->
  prove_range_bp_batch E gs [amount] [mask] {| r_alpha := alpha; r_rho := rho; r_tau1 := tau1; r_tau2 := tau2; r_sL := sL; r_sR := sR |} = Ok p ->
  scalar mask -> recover_mask E number p = Ok mask.
Proof.
  intros E gs n a m al rho t1 t2 sL sR p D H S. unfold prove_range_bp_batch in H. apply bind_ok_inv in H. destruct H as (sv & _ & H). destruct (prove_taux _ _ _ _ _ _ H) as [NZ T].
  unfold recover_mask. rewrite D. cbn [bind]. f_equal. rewrite T. cbn [r_tau1 r_tau2] in *. clear H T D. set (x := ch_x E p). set (z := ch_z E p) in *.
  assert (ZZ : z * z * sc_inv (sc_mul z z) == 1).
  { assert (R : 0 <= z < l) by (unfold z, ch_z, hash_to_scalar; apply sc_rng). rewrite <- (c_mul z z) at 1. apply c_inv. unfold sc_mul. rewrite Zmod_mod. intros D. apply Z.mod_divide in D; [|discriminate].
    assert (D' : (l | z)) by (destruct (prime_mult l prime_l z z D); assumption). apply Z.divide_pos_le in D'; lia. }
  cbn [taux_loop]. rewrite (enc_sc_val _ (n_muladd _ _ _)).
  set (iv := sc_inv (sc_mul z z)) in *. assert (Q : sc_mul (sc_sub (sc_muladd (sc_mul z z) m (sc_muladd t2 (sc_mul x x) (sc_mul t1 x))) (sc_add (sc_mul t1 x) (sc_mul t2 (sc_mul x x)))) iv == m).
  { clearbody iv. etransitivity; [apply c_mul|]. rewrite c_sub, c_add, !c_muladd, (c_mul t2 (sc_mul x x)), (c_mul t1 x), (c_mul x x), (c_mul z z). transitivity (m * (z * z * iv)); [apply cg_eq; ring|]. rewrite ZZ. apply cg_eq. ring. }
  unfold cg in Q. rewrite !Z.mod_small in Q; [exact Q|exact S|apply n_mul].
Qed.
Print Assumptions C65_hidden_refuted.

(** with the mask known, the amount can be confirmed by trial: only the right one reproduces the published commitment *)
Theorem C65_amount_testable : forall E, ec_laws E -> Hb E <> pid E -> forall gs, generators E gs -> forall amount mask rd p guess,
  u64 amount -> u64 guess -> scalar mask -> random_ok 1 rd -> prove_range_bp_batch E gs [amount] [mask] rd = Ok p ->
  (Forall2 (commits_8 E) (bp_V p) [commit E mask guess] <-> guess = amount).
Proof.
  intros E L NH gs GG a m rd p g HA HG HM HR H.
  pose proof (C36_complete E L gs GG [a] [m] rd ltac:(cbn; lia) eq_refl (Forall_cons a HA (Forall_nil _)) (Forall_cons m HM (Forall_nil _)) HR) as C. rewrite H in C. destruct C as [_ C]. cbn [combine map fst snd] in C.
  inversion C as [|k c ? ? C1 C2 E1 E2]; subst. inversion C2; subst. split; [|intros ->; rewrite E1; exact C].
  intros F. inversion F as [|? ? ? ? F1 F2]; subst. destruct C1 as (V & D1 & Q1), F1 as (V' & D2 & Q2). assert (V' = V) by congruence. subst V'.
  assert (X : commit E m a = commit E m g) by congruence. destruct HA as [A1 A2], HG as [G1 G2], HM as [M1 M2].
  destruct (Z.eq_dec (a mod l) (g mod l)) as [Q|Q].
  - assert (B64 : 2 ^ 64 < l) by reflexivity. rewrite !Z.mod_small in Q by lia. symmetry. exact Q.
  - exfalso. apply NH. unfold commit in X. rewrite !(smul_zmul E L) in X by assumption. apply (cancel_weight E L a g (Hb E) (padd E (zmul E m (Gb E)) (pneg E (padd E (zmul E m (Gb E)) (zmul E a (Hb E))))) (pid E)); [exact (sub_H E L)|exact Q| |].
    + lin E L.
    + rewrite X. lin E L.
Qed.
Print Assumptions C65_amount_testable.

(** a case: the proof number 0 of the process (toy group) and its mask *)
Example C65_case : exists r p, draws toy1 0 bp_prng = Ok r /\
  prove_range_bp_batch toy1 (computed_gens toy1) [77] [78]
    {| r_alpha := fst (fst r); r_rho := snd (fst r); r_tau1 := fst (snd r); r_tau2 := snd (snd r); r_sL := r_sL (toy_rand 1); r_sR := r_sR (toy_rand 1) |} = Ok p /\
  recover_mask toy1 0 p = Ok 78.
Proof.
  destruct (draws toy1 0 bp_prng) as [[[al rho] [t1 t2]]|e] eqn:D; [|vm_compute in D; discriminate]. exists (al, rho, (t1, t2)).
  set (rd := {| r_alpha := al; r_rho := rho; r_tau1 := t1; r_tau2 := t2; r_sL := r_sL (toy_rand 1); r_sR := r_sR (toy_rand 1) |}).
  assert (RO : random_ok 1 rd).
  { destruct (toy_rand_ok 1 ltac:(lia)) as (_ & _ & _ & _ & R). unfold random_ok, rd. cbn [r_alpha r_rho r_tau1 r_tau2 r_sL r_sR].
    assert (S : forallb (fun v => (0 <=? v) && (v <? l)) [al; rho; t1; t2] = true).
    { apply (f_equal (fun x => match x with Ok (a, b, (c, d)) => forallb (fun v => (0 <=? v) && (v <? l)) [a; b; c; d] | Err _ => false end)) in D. cbv beta iota in D. rewrite <- D. vm_compute. reflexivity. }
    cbn [forallb] in S. rewrite Bool.andb_true_r in S. repeat rewrite Bool.andb_true_iff in S. rewrite !Z.leb_le, !Z.ltb_lt in S. unfold scalar. tauto. }
  pose proof (C36_complete toy1 toy1_laws (computed_gens toy1) (computed_generators _ toy1_laws) [77] [78] rd ltac:(cbn; lia) eq_refl) as C.
  destruct (prove_range_bp_batch toy1 (computed_gens toy1) [77] [78] rd) as [p|e] eqn:P.
  - exists p. split; [reflexivity|]. cbn [fst snd]. split; [exact P|]. apply (C65_hidden_refuted _ _ _ _ _ _ _ _ _ _ _ _ D P). split; [discriminate|reflexivity].
  - exfalso. destruct C as [s Hs].
    + repeat constructor; discriminate.
    + repeat constructor; discriminate.
    + exact RO.
    + revert Hs. unfold hash_to_scalar. cbn [hash toy1]. vm_compute. discriminate.
Qed.
