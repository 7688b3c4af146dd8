(** The permutation: lane arithmetic against the bit definition. *)
From Verif Require Import Py PyLemmas Keccak_model Keccak_spec.

Definition lane_ok (v : Z) : Prop := 0 <= v < 2 ^ 64.
Definition wf (A : table) : Prop := length A = 5%nat /\ Forall (fun c => length c = 5%nat /\ Forall lane_ok c) A.
Definition abs (A : table) : bstate := fun x y z => Z.testbit (at_ A x y) z.
Definition beq (a b : bstate) : Prop :=
  forall x y z, (x < 5)%nat -> (y < 5)%nat -> 0 <= z < 64 -> a x y z = b x y z.

Lemma beq_refl a : beq a a. Proof. intros x y z _ _ _; reflexivity. Qed.
Lemma beq_trans a b c : beq a b -> beq b c -> beq a c.
Proof. intros H1 H2 x y z Hx Hy Hz. rewrite H1, H2 by assumption. reflexivity. Qed.

Lemma lane_bits v : 0 <= v -> (forall z, 64 <= z -> Z.testbit v z = false) -> lane_ok v.
Proof.
  intros H0 H. assert (E : v = v mod 2 ^ 64).
  { apply Z.bits_inj'. intros n Hn. destruct (Z_lt_ge_dec n 64).
    - rewrite Z.mod_pow2_bits_low by assumption. reflexivity.
    - rewrite Z.mod_pow2_bits_high by lia. apply H. lia. }
  unfold lane_ok. rewrite E. apply Z.mod_pos_bound. reflexivity.
Qed.
Lemma lane_high v z : lane_ok v -> 64 <= z -> Z.testbit v z = false.
Proof.
  intros [H0 H1] Hz. rewrite <- (Z.mod_small v (2 ^ 64)) by (split; assumption).
  apply Z.mod_pow2_bits_high. lia.
Qed.
Lemma lane0 : lane_ok 0. Proof. split; [lia|reflexivity]. Qed.
Lemma lane_xor a b : lane_ok a -> lane_ok b -> lane_ok (Z.lxor a b).
Proof.
  intros Ha Hb. apply lane_bits.
  - apply Z.lxor_nonneg. unfold lane_ok in *; tauto.
  - intros z Hz. rewrite Z.lxor_spec, !lane_high by assumption. reflexivity.
Qed.
Lemma lane_andn a b : lane_ok b -> lane_ok (Z.land (Z.lnot a) b).
Proof.
  intros Hb. apply lane_bits.
  - apply Z.land_nonneg. right. apply Hb.
  - intros z Hz. rewrite Z.land_spec, (lane_high b) by assumption. apply andb_false_r.
Qed.
Lemma rol_bits v k z : lane_ok v -> 0 <= k < 64 -> 0 <= z ->
  Z.testbit (rol v k 64) z = (z <? 64) && Z.testbit v ((z - k) mod 64).
Proof.
  intros Hv Hk Hz. unfold rol, Mask. rewrite Z.lor_spec, Z.shiftr_spec by assumption.
  replace (Z.shiftl 1 (64 - k) - 1) with (Z.ones (64 - k)) by reflexivity.
  destruct (Z.ltb_spec z 64) as [L|L]; cbn [andb].
  - destruct (Z_lt_ge_dec z k) as [G|G].
    + rewrite Z.shiftl_spec_low by assumption. cbn [orb].
      rewrite <- (Z.mod_unique_pos (z - k) 64 (-1) (z + (64 - k))); [reflexivity|lia|lia].
    + rewrite Z.shiftl_spec_high by lia. rewrite Z.land_spec, Z.ones_spec_low by lia.
      rewrite (lane_high v (z + (64 - k))) by (assumption || lia).
      rewrite Z.mod_small by lia. rewrite andb_true_r, orb_false_r. reflexivity.
  - rewrite Z.shiftl_spec_high by lia. rewrite Z.land_spec, Z.ones_spec_high by lia.
    rewrite (lane_high v (z + (64 - k))) by (assumption || lia). rewrite andb_false_r. reflexivity.
Qed.
Lemma lane_rol v k : lane_ok v -> 0 <= k < 64 -> lane_ok (rol v k 64).
Proof.
  intros Hv Hk. apply lane_bits.
  - unfold rol, Mask. apply Z.lor_nonneg. split.
    + apply Z.shiftl_nonneg, Z.land_nonneg. left. apply Hv.
    + apply Z.shiftr_nonneg, Hv.
  - intros z Hz. rewrite rol_bits by (assumption || lia).
    replace (z <? 64) with false by lia. reflexivity.
Qed.

(** a well-formed table is twenty-five lanes *)
Lemma wf_col (c : list Z) : length c = 5%nat -> exists a b d e f, c = [a; b; d; e; f].
Proof.
  destruct c as [|a [|b [|d [|e [|f [|g c]]]]]]; cbn; try discriminate.
  intros _. exists a, b, d, e, f. reflexivity.
Qed.
Ltac inv_forall :=
  repeat match goal with
    | H : Forall _ (_ :: _) |- _ => apply Forall_cons_iff in H; destruct H as [? H]
    | H : Forall _ [] |- _ => clear H
    end.
Ltac open_table A H :=
  let L := fresh "L" in let F := fresh "F" in
  destruct H as [L F];
  destruct A as [|c0 [|c1 [|c2 [|c3 [|c4 [|c5 A]]]]]]; cbn [length] in L; try discriminate L; clear L;
  inv_forall;
  repeat match goal with
    | X : length ?c = 5%nat /\ Forall lane_ok ?c |- _ =>
        let X1 := fresh "X" in let X2 := fresh "X" in
        destruct X as [X1 X2]; apply wf_col in X1; destruct X1 as (? & ? & ? & ? & ? & ->); inv_forall
    end.
Ltac lanes := repeat first [assumption | apply lane_xor | apply lane_andn | (apply lane_rol; [|lia]) | apply lane0].
Ltac wf_goal := split; [reflexivity|repeat constructor; repeat split; try (apply Z.lt_le_incl); lanes].

Lemma nat5 (P : nat -> Prop) : P 0%nat -> P 1%nat -> P 2%nat -> P 3%nat -> P 4%nat -> forall x, (x < 5)%nat -> P x.
Proof. intros ? ? ? ? ? x Hx. do 5 (destruct x as [|x]; [assumption|]). lia. Qed.

Lemma theta_wf A : wf A -> wf (theta A).
Proof.
  intros H. open_table A H. unfold theta, rangeW, at_, lanew.
  cbn [map nth tl hd fold_left Nat.add Nat.modulo Nat.divmod fst snd Nat.sub].
  split; [reflexivity|]. repeat (apply Forall_cons || apply Forall_nil); (split; [reflexivity|]);
  repeat (apply Forall_cons || apply Forall_nil); lanes.
Qed.
Lemma theta_bits A : wf A -> beq (abs (theta A)) (Theta (abs A)).
Proof.
  intros H. open_table A H. unfold theta, rangeW, at_, lanew.
  cbn [map nth tl hd fold_left Nat.add Nat.modulo Nat.divmod fst snd Nat.sub].
  intros i j z Hi Hj Hz. revert i Hi. apply nat5; revert j Hj; apply nat5;
    unfold abs, Theta, parity, at_;
    cbn [map nth tl hd fold_left Nat.add Nat.modulo Nat.divmod fst snd Nat.sub];
    rewrite !Z.lxor_spec, rol_bits by (lanes || lia); rewrite !Z.lxor_spec;
    replace (z <? 64) with true by lia; rewrite andb_true_l, !xorb_assoc; reflexivity.
Qed.

Lemma rho_pi_wf A : wf A -> wf (rho_pi A).
Proof.
  intros H. open_table A H. unfold rho_pi, rangeW, at_, lanew, set_at, zero_table, RotationConstants.
  cbn [map nth tl hd fold_left Nat.add Nat.mul Nat.modulo Nat.divmod fst snd Nat.sub upd repeat].
  split; [reflexivity|]. repeat (apply Forall_cons || apply Forall_nil); (split; [reflexivity|]);
  repeat (apply Forall_cons || apply Forall_nil); lanes.
Qed.
Lemma rho_pi_bits A : wf A -> beq (abs (rho_pi A)) (Pi (Rho (abs A))).
Proof.
  intros H. open_table A H. unfold rho_pi, rangeW, at_, lanew, set_at, zero_table, RotationConstants.
  cbn [map nth tl hd fold_left Nat.add Nat.mul Nat.modulo Nat.divmod fst snd Nat.sub upd repeat].
  intros i j z Hi Hj Hz. revert i Hi. apply nat5; revert j Hj; apply nat5;
    unfold abs, Pi, Rho, at_;
    cbn [map nth tl hd fold_left Nat.add Nat.mul Nat.modulo Nat.divmod fst snd Nat.sub];
    rewrite rol_bits by (lanes || lia);
    replace (z <? 64) with true by lia; rewrite andb_true_l;
    match goal with |- _ = Z.testbit _ ((z - ?w) mod 64) =>
      rewrite <- (Zminus_mod_idemp_r z w); let v := eval vm_compute in (w mod 64) in change (w mod 64) with v end;
    reflexivity.
Qed.
Lemma chi_wf A : wf A -> wf (chi A).
Proof.
  intros H. open_table A H. unfold chi, rangeW, at_.
  cbn [map nth tl hd fold_left Nat.add Nat.mul Nat.modulo Nat.divmod fst snd Nat.sub].
  split; [reflexivity|]. repeat (apply Forall_cons || apply Forall_nil); (split; [reflexivity|]);
  repeat (apply Forall_cons || apply Forall_nil); lanes.
Qed.
Lemma chi_bits A : wf A -> beq (abs (chi A)) (Chi (abs A)).
Proof.
  intros H. open_table A H. unfold chi, rangeW, at_.
  cbn [map nth tl hd fold_left Nat.add Nat.mul Nat.modulo Nat.divmod fst snd Nat.sub].
  intros i j z Hi Hj Hz. revert i Hi. apply nat5; revert j Hj; apply nat5;
    unfold abs, Chi, at_;
    cbn [map nth tl hd fold_left Nat.add Nat.mul Nat.modulo Nat.divmod fst snd Nat.sub];
    rewrite Z.lxor_spec, Z.land_spec, Z.lnot_spec by lia; reflexivity.
Qed.
Lemma iota_wf A RC : wf A -> lane_ok RC -> wf (iota A RC).
Proof.
  intros H HRC. open_table A H. unfold iota, at_, set_at. cbn [nth upd].
  split; [reflexivity|]. repeat (apply Forall_cons || apply Forall_nil); (split; [reflexivity|]);
  repeat (apply Forall_cons || apply Forall_nil); lanes.
Qed.
Lemma iota_bits A RC n : wf A -> (forall z, 0 <= z < 64 -> Z.testbit RC z = round_bit n z) ->
  beq (abs (iota A RC)) (Iota n (abs A)).
Proof.
  intros H HRC. open_table A H. unfold iota, at_, set_at. cbn [nth upd].
  intros i j z Hi Hj Hz. revert i Hi. apply nat5; revert j Hj; apply nat5;
    unfold abs, Iota, at_; cbn [nth Nat.eqb andb]; try reflexivity.
  rewrite Z.lxor_spec, HRC by assumption. reflexivity.
Qed.

(** the specification only looks at bits in range *)
Lemma mod5 x : (x mod 5 < 5)%nat. Proof. apply Nat.mod_upper_bound. discriminate. Qed.
Lemma mod64 z : 0 <= z mod 64 < 64. Proof. apply Z.mod_pos_bound. reflexivity. Qed.
Ltac inrange := first [assumption | apply mod5 | apply mod64 | lia].
Lemma Theta_ext a b : beq a b -> beq (Theta a) (Theta b).
Proof.
  intros H x y z Hx Hy Hz. unfold Theta, parity.
  rewrite !(H _ _ _) by inrange. reflexivity.
Qed.
Lemma Rho_ext a b : beq a b -> beq (Rho a) (Rho b).
Proof. intros H x y z Hx Hy Hz. unfold Rho. apply H; inrange. Qed.
Lemma Pi_ext a b : beq a b -> beq (Pi a) (Pi b).
Proof. intros H x y z Hx Hy Hz. unfold Pi. apply H; inrange. Qed.
Lemma Chi_ext a b : beq a b -> beq (Chi a) (Chi b).
Proof. intros H x y z Hx Hy Hz. unfold Chi. rewrite !(H _ _ _) by inrange. reflexivity. Qed.
Lemma Iota_ext n a b : beq a b -> beq (Iota n a) (Iota n b).
Proof. intros H x y z Hx Hy Hz. unfold Iota. rewrite !(H _ _ _) by inrange. reflexivity. Qed.
Lemma Round_ext n a b : beq a b -> beq (Round a n) (Round b n).
Proof. intros H. unfold Round. apply Iota_ext, Chi_ext, Pi_ext, Rho_ext, Theta_ext, H. Qed.

Lemma round_wf A RC : wf A -> lane_ok RC -> wf (round A RC).
Proof. intros H R. unfold round. apply iota_wf; [apply chi_wf, rho_pi_wf, theta_wf, H|exact R]. Qed.
Lemma round_bits A RC n : wf A -> (forall z, 0 <= z < 64 -> Z.testbit RC z = round_bit n z) ->
  beq (abs (round A RC)) (Round (abs A) n).
Proof.
  intros H R. unfold round, Round.
  eapply beq_trans; [apply (iota_bits _ _ n); [apply chi_wf, rho_pi_wf, theta_wf, H|exact R]|].
  apply Iota_ext. eapply beq_trans; [apply chi_bits, rho_pi_wf, theta_wf, H|].
  apply Chi_ext. eapply beq_trans; [apply rho_pi_bits, theta_wf, H|].
  apply Pi_ext, Rho_ext, theta_bits, H.
Qed.

(** the table of round constants is the LFSR's *)
Lemma rc_table n : (n < 24)%nat -> lane_ok (nth n RoundConstants 0) /\
  forall z, 0 <= z < 64 -> Z.testbit (nth n RoundConstants 0) z = round_bit n z.
Proof.
  intros Hn.
  assert (T : forallb (fun n => (0 <=? nth n RoundConstants 0) && (nth n RoundConstants 0 <? 2 ^ 64) &&
      forallb (fun k => Bool.eqb (Z.testbit (nth n RoundConstants 0) (Z.of_nat k)) (round_bit n (Z.of_nat k))) (seq 0 64))
      (seq 0 24) = true) by (vm_compute; reflexivity).
  rewrite forallb_forall in T. specialize (T n ltac:(apply in_seq; lia)).
  apply andb_true_iff in T. destruct T as [T1 T2].
  split.
  - apply andb_true_iff in T1. destruct T1 as [T1 T3]. apply Z.leb_le in T1. apply Z.ltb_lt in T3. split; assumption.
  - intros z Hz. rewrite forallb_forall in T2. specialize (T2 (Z.to_nat z) ltac:(apply in_seq; lia)).
    apply Bool.eqb_prop in T2. rewrite Z2Nat.id in T2 by lia. exact T2.
Qed.
Lemma rounds_ok n : (n <= 24)%nat -> forall A, wf A ->
  wf (fold_left round (skipn (24 - n) RoundConstants) A) /\
  forall a, beq (abs A) a ->
  beq (abs (fold_left round (skipn (24 - n) RoundConstants) A)) (fold_left Round (seq (24 - n) n) a).
Proof.
  induction n as [|n IH]; intros Hn A HA.
  - cbn. split; [exact HA|auto].
  - assert (E : skipn (24 - S n) RoundConstants = nth (24 - S n) RoundConstants 0 :: skipn (24 - n) RoundConstants).
    { replace (24 - n)%nat with (S (24 - S n)) by lia.
      assert (L : (24 - S n < length RoundConstants)%nat) by (change (length RoundConstants) with 24%nat; lia).
      revert L. generalize (24 - S n)%nat RoundConstants. clear.
      induction n as [|n IH]; intros [|x l]; cbn [length skipn nth]; intros L; try lia; [reflexivity|].
      rewrite IH by lia. reflexivity. }
    destruct (rc_table (24 - S n) ltac:(lia)) as [R1 R2].
    rewrite E. cbn [fold_left seq]. replace (S (24 - S n)) with (24 - n)%nat by lia.
    destruct (IH ltac:(lia) (round A (nth (24 - S n) RoundConstants 0)) (round_wf _ _ HA R1)) as [I1 I2].
    split; [exact I1|]. intros a Ha. apply I2.
    eapply beq_trans; [apply (round_bits _ _ (24 - S n)); assumption|]. apply Round_ext, Ha.
Qed.
Lemma keccak_f_wf A : wf A -> wf (keccak_f A).
Proof. intros H. apply (rounds_ok 24 (le_n _) A H). Qed.
Lemma keccak_f_bits A a : wf A -> beq (abs A) a -> beq (abs (keccak_f A)) (Keccak_p a).
Proof. intros H Ha. apply (rounds_ok 24 (le_n _) A H), Ha. Qed.
