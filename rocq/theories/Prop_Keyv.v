(** C74: the vectors of keys behave as arrays; C75: the lazily evaluated vectors return the values they stand for. *)
From Verif Require Import Py PyLemmas Digits Ints_model Ec_model Ec_spec Bp_model Keyv_model Keyv_spec Keyv_proof Keyv_proof2.

(** ** C74 *)
(** Every history of accesses through the vector and windows on it, shrinkings and reallocations answers as the plain
    array of zero keys does, whether the memory is flat or in chunks. *)
Theorem C74_array : forall n ops, 0 <= n -> all_used_well (repeat zero_key (Z.to_nat n)) ops ->
  keyv_run (keyv_new n) ops = arr_run (repeat zero_key (Z.to_nat n)) ops.
Proof. intros n ops H U. apply run_agree; [apply new_holds; exact H|exact U]. Qed.
Print Assumptions C74_array.

(** the conditions on a history, computed (for the examples) *)
Definition keyb (b : list Z) : bool := Nat.eqb (length b) 32.
Definition used_wellb (n : Z) (o : kop) : bool :=
  match o with
  | KGet i | KTo i => - n <=? i
  | KSet i b | KRead i b => (- n <=? i) && keyb b
  | KResize m _ => (0 <=? m) && (m <=? n) && ((m <=? 32) || (m mod 32 =? 0))
  | KRealloc m => 0 <=? m
  | KViewGet s e i | KViewTo s e i => (0 <=? s) && (s <=? e) && (e <=? n) && (- (e - s) <=? i)
  | KViewRead s e i b => (0 <=? s) && (s <=? e) && (e <=? n) && (- (e - s) <=? i) && keyb b
  end.
Fixpoint all_used_wellb (a : arr) (ops : list kop) : bool :=
  match ops with [] => true | o :: ops => used_wellb (Z.of_nat (length a)) o && all_used_wellb (fst (arr_step a o)) ops end.
Lemma all_used_wellb_ok : forall ops a, all_used_wellb a ops = true -> all_used_well a ops.
Proof.
  assert (KB : forall b, keyb b = true -> key b) by (intros b H; apply Nat.eqb_eq in H; exact H).
  induction ops as [|o ops IH]; intros a H; [exact I|]. cbn [all_used_wellb all_used_well] in *. apply andb_prop in H. destruct H as [H1 H2]. split; [|apply IH; exact H2]. clear H2 IH.
  destruct o; cbn [used_wellb used_well] in *; repeat match goal with H : _ && _ = true |- _ => apply andb_prop in H; destruct H end; repeat split; try (apply KB; assumption); lia.
Qed.
Definition k_ (b : Z) : list Z := repeat b 32.
(** a vector of 96 keys in chunks, written at both ends of a chunk and through a window, shrunk to a multiple of 32 and then below *)
Definition history : list kop :=
  [KSet 31 (k_ 1); KRead 32 (k_ 2); KSet (-1) (k_ 3); KViewRead 30 34 3 (k_ 4); KViewTo 30 34 1; KGet 33; KGet 95; KGet 96;
   KResize 64 true; KGet 95; KTo (-31); KResize 32 false; KGet 31; KGet 32; KResize 32 false; KSet 0 (k_ 5); KGet (-32); KRealloc 3; KGet 0].
Example C74_case : all_used_well (repeat zero_key 96) history /\
  keyv_run (keyv_new 96) history = [Ok []; Ok []; Ok []; Ok []; Ok (k_ 1); Ok (k_ 4); Ok (k_ 3); Err IndexError;
    Ok []; Err IndexError; Ok (k_ 4); Ok []; Ok (k_ 1); Err IndexError; Ok []; Ok []; Ok (k_ 5); Ok []; Ok (k_ 0)].
Proof.
  split; [apply all_used_wellb_ok; vm_compute; reflexivity|vm_compute; reflexivity].
Qed.

(** In chunks, a vector can also grow by whole chunks: the old keys stay and the new ones are zero. *)
Theorem C74_grow : forall n ops m, 0 <= n -> all_used_well (repeat zero_key (Z.to_nat n)) ops ->
  let v := keyv_after (keyv_new n) ops in
  let a := fold_left (fun a o => fst (arr_step a o)) ops (repeat zero_key (Z.to_nat n)) in
  kv_chunked v = true -> zlen a <= m -> m mod 32 = 0 ->
  exists v', keyv_resize v m false false = (v', Ok tt) /\
    forall ops', all_used_well (a ++ repeat zero_key (Z.to_nat (m - zlen a))) ops' -> keyv_run v' ops' = arr_run (a ++ repeat zero_key (Z.to_nat (m - zlen a))) ops'.
Proof.
  intros n ops m H U v a HC HM H32. pose proof (after_holds ops (keyv_new n) _ (new_holds n H) U) as HV. fold v a in HV.
  destruct (grow_ok v a m HV HC HM H32) as (v' & E & HV'). exists v'. split; [exact E|]. intros ops' U'. apply run_agree; assumption.
Qed.
Print Assumptions C74_grow.
Example C74_grow_case : let v := keyv_after (keyv_new 64) [KSet 63 (k_ 7)] in
  kv_chunked v = true /\ keyv_run v [KResize 96 false; KGet 63; KGet 95] = [Ok []; Ok (k_ 7); Ok (k_ 0)].
Proof. split; vm_compute; reflexivity. Qed.
(** A flat vector that grows loses its keys. *)
Theorem C74_grow_refuted : keyv_run (keyv_new 2) [KSet 0 (k_ 7); KGet 0; KResize 3 false; KGet 0] = [Ok []; Ok (k_ 7); Ok []; Ok (k_ 0)].
Proof. vm_compute. reflexivity. Qed.
Print Assumptions C74_grow_refuted.
(** An index below minus the length is not refused: a window then gives out (and overwrites) keys outside of it. *)
Theorem C74_below_refuted : keyv_run (keyv_new 4) [KSet 1 (k_ 7); KViewTo 2 4 (-3); KViewRead 2 4 (-3) (k_ 8); KGet 1] = [Ok []; Ok (k_ 7); Ok []; Ok (k_ 8)].
Proof. vm_compute. reflexivity. Qed.
Print Assumptions C74_below_refuted.

(** Copying a part of one vector into another *)
Theorem C74_copy : forall n ops v m offset, 0 <= n -> all_used_well (repeat zero_key (Z.to_nat n)) ops ->
  let src := keyv_after (keyv_new n) ops in
  let a := fold_left (fun a o => fst (arr_step a o)) ops (repeat zero_key (Z.to_nat n)) in
  0 <= m -> 0 <= offset -> offset + m <= zlen a -> (32 < m /\ m mod 32 = 0) \/ kv_chunked src = false ->
  exists v', keyv_init_from v m src offset = (v', Ok tt) /\
    forall ops', all_used_well (window a offset (offset + m)) ops' -> keyv_run v' ops' = arr_run (window a offset (offset + m)) ops'.
Proof.
  intros n ops v m offset H U src a HM HO HB HC. pose proof (after_holds ops (keyv_new n) _ (new_holds n H) U) as HV. fold src a in HV.
  destruct (init_from_ok v m src a offset HV HM HO HB) as (v' & E & HV').
  { destruct HC as [[C1 C2]|HC]; [left|right; exact HC]. unfold kv_chunked, keyv_new, set_d, CHSIZE. cbn [kv_d]. replace ((m >? 32) && (m mod 32 =? 0)) with true by lia. reflexivity. }
  exists v'. split; [exact E|]. intros ops' U'. apply run_agree; [|exact U']. unfold window. replace (offset + m - offset) with m by lia. exact HV'.
Qed.
Print Assumptions C74_copy.
Example C74_copy_case : let src := keyv_after (keyv_new 40) [KSet 39 (k_ 7)] in
  kv_chunked src = false /\ keyv_run (fst (keyv_init_from (keyv_new 1) 3 src 37)) [KGet 0; KGet 2] = [Ok (k_ 0); Ok (k_ 7)].
Proof. split; vm_compute; reflexivity. Qed.
(** From chunks into a flat vector the copy is wrong: nothing arrives. *)
Theorem C74_copy_refuted : let src := keyv_after (keyv_new 64) [KSet 0 (k_ 7)] in
  snd (keyv_init_from (keyv_new 1) 2 src 0) = Ok tt /\ keyv_run src [KGet 0] = [Ok (k_ 7)] /\
  keyv_run (fst (keyv_init_from (keyv_new 1) 2 src 0)) [KGet 0] = [Ok (k_ 0)].
Proof. split; [|split]; vm_compute; reflexivity. Qed.
Print Assumptions C74_copy_refuted.
(** Saved and loaded, a vector of fewer than 2^60 keys is the same. *)
Theorem C74_saved : forall v, 0 <= kv_size v < 2 ^ 60 -> exists st, keyv_sdump v = Ok st /\ keyv_sload st = (kv_size v, kv_chunked v, kv_d v).
Proof. exact dump_load. Qed.
Print Assumptions C74_saved.
Example C74_saved_case : exists st, keyv_sdump (keyv_new 64) = Ok st /\ snd st = 64 + 2 ^ 60 /\ keyv_sload st = (64, true, kv_d (keyv_new 64)).
Proof. eexists. split; [vm_compute; reflexivity|]. split; vm_compute; reflexivity. Qed.

(** ** C75 *)
(** The vector of powers: every answer of a history without exceptions is the power asked for. *)
Theorem C75_powers : forall size x ops, scalar x -> pow_used_well x false ops ->
  Forall (fun r => is_ok r = true) (kpow_run (kpow_new size x) ops) ->
  kpow_run (kpow_new size x) ops = map (fun o => Ok (pow_answer size x o)) ops.
Proof.
  intros size x ops SX U F. apply (kpow_history size x SX ops false); [|exact U|exact F]. unfold pinv, kpow_new. cbn [kp_size kp_x kp_cur kp_last]. repeat split. apply Z.le_refl.
Qed.
Print Assumptions C75_powers.
(** A scan in order has no exceptions. *)
Theorem C75_powers_scan : forall x n, scalar x -> 
  kpow_run (kpow_new (Z.of_nat n) x) (map (fun i => PGet (Z.of_nat i)) (seq 0 n)) = map (fun i => Ok (Some (x ^ Z.of_nat i mod l))) (seq 0 n).
Proof.
  intros x n SX. assert (P0 : pinv (Z.of_nat n) x false (kpow_new (Z.of_nat n) x)) by (unfold pinv, kpow_new; cbn [kp_size kp_x kp_cur kp_last]; repeat split; apply Z.le_refl).
  transitivity (map (fun o => Ok (pow_answer (Z.of_nat n) x o)) (map (fun i => PGet (Z.of_nat i)) (seq 0 n))).
  - apply (kpow_history (Z.of_nat n) x SX _ false); [exact P0| |].
    + generalize false. generalize (seq 0 n). intros I0. induction I0 as [|i I0 IH]; intros b; [exact I|]. cbn [map pow_used_well]. apply IH.
    + destruct n as [|n]; [constructor|]. cbn [seq map kpow_run]. change (Z.of_nat 0) with 0.
      destruct (kpow_step (kpow_new (Z.of_nat (S n)) x) (PGet 0)) as [p r] eqn:E.
      assert (HR : r = Ok (Some 1) /\ kp_last p = 0).
      { cbn [kpow_step] in E. unfold kpow_get, kpow_new in E. cbn [kp_size kp_last kp_x kp_cur] in E. rewrite idxize_in in E by (clear; lia). change (0 <? 0) with false in E. cbv iota in E. change (0 =? 0) with true in E. cbn [bind] in E.
        split; [symmetry; exact (f_equal snd E)|]. replace p with (fst (p, r)) by reflexivity. rewrite <- E. reflexivity. }
      destruct HR as [-> HL]. constructor; [reflexivity|].
      destruct (kpow_step_ok (Z.of_nat (S n)) x false (PGet 0) [] _ p _ SX P0 I E) as (_ & HP & _).
      pose proof (kpow_scan_from (Z.of_nat (S n)) x SX n p 0 HP HL ltac:(clear; lia)) as F. rewrite <- seq_shift, map_map.
      assert (EQ : map (fun i => PGet (0 + 1 + Z.of_nat i)) (seq 0 n) = map (fun i => PGet (Z.of_nat (S i))) (seq 0 n)) by (apply map_ext; intros i; f_equal; clear; lia). rewrite EQ in F. exact F.
  - rewrite map_map. apply map_ext_in. intros i HI. cbn [pow_answer]. assert (NI : (Z.of_nat i <? 0) = false) by (clear; lia). rewrite NI. reflexivity.
Qed.
Print Assumptions C75_powers_scan.
(** a case with the uses of the prover: a scan of one half, the other half positioned by [set_state] and [rewind] *)
Example C75_powers_case : let ops := [PGet 0; PGet 1; PGet 1; PGet 2; PGet 2; PGet 3; PSetState 2 9; PRewind 2; PGet 4; PGet (-1); PGet 0; PGet 1; PGet 2] in
  pow_used_well 3 false ops /\
  kpow_run (kpow_new 6 3) ops = [Ok (Some 1); Ok (Some 3); Ok (Some 3); Ok (Some 9); Ok (Some 9); Ok (Some 27); Ok None; Ok None; Ok (Some 81); Ok (Some 243); Ok (Some 1); Ok (Some 3); Ok (Some 9)].
Proof. split; [|vm_compute; reflexivity]. cbn [pow_used_well]. repeat split; try discriminate; reflexivity. Qed.
(** After an access refused (and the exception caught) the values are wrong. *)
Theorem C75_after_error_refuted : kpow_run (kpow_new 64 3) [PGet 0; PGet 5; PGet 6] = [Ok (Some 1); Err IndexError; Ok (Some 3)] /\ 3 ^ 6 mod l <> 3.
Proof. split; vm_compute; [reflexivity|discriminate]. Qed.
Print Assumptions C75_after_error_refuted.
(** Moved before the first access, the vector holds zeros. *)
Theorem C75_rewind_first_refuted : kpow_run (kpow_new 64 3) [PRewind 5; PGet 5] = [Ok None; Ok (Some 0)].
Proof. vm_compute. reflexivity. Qed.
Print Assumptions C75_rewind_first_refuted.

(** The vector r0 of the prover *)
Theorem C75_r0 : forall size N aR y z is_, 0 < N -> Forall (fun v => is_ok v = true) (kr0_run (kr0_new size N aR y z) is_) ->
  kr0_run (kr0_new size N aR y z) is_ = map (fun i => Ok (r0_value N aR y z (if i <? 0 then i + size else i))) is_.
Proof. intros size N aR y z is_ HN F. apply kr0_history; [exact HN|apply kr0_new_inv; exact HN|exact F]. Qed.
Print Assumptions C75_r0.
Theorem C75_r0_scan : forall N aR y z n, 0 < N ->
  kr0_run (kr0_new (Z.of_nat n) N aR y z) (map Z.of_nat (seq 0 n)) = map (fun i => Ok (r0_value N aR y z (Z.of_nat i))) (seq 0 n).
Proof.
  intros N aR y z n HN. rewrite C75_r0; [|exact HN|].
  - rewrite map_map. apply map_ext. intros i. assert (NI : (Z.of_nat i <? 0) = false) by (clear; lia). rewrite NI. reflexivity.
  - destruct n as [|n]; [constructor|]. cbn [seq map kr0_run]. change (Z.of_nat 0) with 0. pose proof (kr0_new_inv (Z.of_nat (S n)) N aR y z HN) as R0.
    destruct (kr0_get (kr0_new (Z.of_nat (S n)) N aR y z) 0) as [r v] eqn:E.
    assert (HV : is_ok v = true /\ kr_last r = 0).
    { unfold kr0_get, kr0_new in E. cbn [kr_size kr_last] in E. rewrite idxize_in in E by (clear; lia). change (0 <? 0) with false in E. cbv iota in E. change (0 =? 0) with true in E. cbv zeta iota in E.
      assert (v = _) as -> by (symmetry; exact (f_equal snd E)). split; [reflexivity|]. replace r with (fst (r, snd (r, v))) by reflexivity. assert (r = _) as -> by (symmetry; exact (f_equal fst E)). reflexivity. }
    destruct HV as [HV HL]. destruct v as [v|e]; [|discriminate]. destruct (kr0_step _ N aR y z HN _ 0 r v R0 E) as [_ HR].
    constructor; [reflexivity|]. pose proof (kr0_scan_from (Z.of_nat (S n)) N aR y z HN n r 0 HR HL ltac:(clear; lia)) as F. rewrite <- seq_shift, map_map.
    assert (EQ : map (fun i => 0 + 1 + Z.of_nat i) (seq 0 n) = map (fun i => Z.of_nat (S i)) (seq 0 n)) by (apply map_ext; intros i; clear; lia). rewrite EQ in F. exact F.
Qed.
Print Assumptions C75_r0_scan.
Example C75_r0_case : kr0_run (kr0_new 6 2 (fun i => 10 + i) 3 5) [0; 1; 1; 2; 3; 3; 0] = map Ok [40; 98; 98; 278; 736; 736; 40].
Proof. vm_compute. reflexivity. Qed.
(** Saved and loaded in the middle, the vector answers the index it stopped at with a value that was never computed. *)
Theorem C75_r0_reload_refuted : let r := fst (kr0_get (fst (kr0_get (kr0_new 6 2 (fun i => 10 + i) 3 5) 0)) 1) in
  snd (kr0_get r 1) = Ok 98 /\ snd (kr0_get (kr0_reload r) 1) = Ok 0.
Proof. split; vm_compute; reflexivity. Qed.
Print Assumptions C75_r0_reload_refuted.

(** The sum of the first powers, but for one *)
Theorem C75_power_sum : forall x n, scalar x -> n <> 1%nat -> power_sum_code x n = sum_powers x n mod l.
Proof. exact power_sum_ok. Qed.
Print Assumptions C75_power_sum.
Example C75_power_sum_case : power_sum_code 3 5 = 121 /\ power_sum_code 3 0 = 0 /\ power_sum_code 3 2 = 4.
Proof. vm_compute. repeat split. Qed.
Theorem C75_power_sum_refuted : forall x, scalar x -> power_sum_code x 1 = (1 + x) mod l.
Proof. reflexivity. Qed.
Print Assumptions C75_power_sum_refuted.

(** The lists with which the prover of the range proofs is modelled are what scans of these vectors give. *)
Lemma powers_scan : forall n x k, scalar x -> 0 <= k -> powers n (x ^ k mod l) x = map (fun i => x ^ (k + Z.of_nat i) mod l) (seq 0 n).
Proof.
  induction n as [|n IH]; intros x k SX HK; [reflexivity|]. cbn [powers seq map]. change (Z.of_nat 0) with 0. rewrite Z.add_0_r. f_equal. rewrite mul_pow by exact HK. rewrite IH by (auto; clear - HK; lia).
  rewrite <- seq_shift, map_map. apply map_ext. intros i. f_equal. f_equal. clear; lia.
Qed.
Theorem C75_prover_powers : forall x n, scalar x ->
  kpow_run (kpow_new (Z.of_nat n) x) (map (fun i => PGet (Z.of_nat i)) (seq 0 n)) = map (fun v => Ok (Some v)) (powers n 1 x).
Proof.
  intros x n SX. rewrite C75_powers_scan by exact SX. pose proof (powers_scan n x 0 SX (Z.le_refl 0)) as P. rewrite Z.pow_0_r, (Z.mod_small 1) in P by (split; [discriminate|reflexivity]). rewrite P, map_map. reflexivity.
Qed.
Print Assumptions C75_prover_powers.
