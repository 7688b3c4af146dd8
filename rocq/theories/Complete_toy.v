(** The toy instance of the operations meets the hypotheses of the completeness theorem. *)
From Verif Require Import Py PyLemmas Addr_model Addr_spec Addr_proof Lists_model Lists_spec Signer_model Signer_spec Signer_base Agent_model Signer_toy Complete_spec.

Lemma land64 x : 0 <= Z.land x 18446744073709551615 < 2 ^ 64.
Proof. change 18446744073709551615 with (Z.ones 64). rewrite Z.land_ones by lia. apply Z.mod_pos_bound. reflexivity. Qed.
Lemma thash_fold m : forall a, 0 <= a < 2 ^ 64 -> 0 <= fold_left (fun a x => Z.land (a * 65599 + x + 12345) 18446744073709551615) m a < 2 ^ 64.
Proof. induction m as [|x m IH]; intros a H; [exact H|]. cbn [fold_left]. apply IH, land64. Qed.
Lemma thash_range m : 0 <= thash_int m < ell.
Proof. assert (0 <= thash_int m < 2 ^ 64) as H by (apply (thash_fold m 777); split; [discriminate|reflexivity]). split; [apply H|]. apply Z.lt_trans with (2 ^ 64); [apply H|reflexivity]. Qed.

Lemma enc32_len x : length (enc32 x) = 32%nat.
Proof. apply le_bytes_len. Qed.
Lemma concat_enc32 l : length (concat (map enc32 l)) = (32 * length l)%nat.
Proof. induction l as [|x l IH]; [reflexivity|]. cbn [map concat length]. rewrite app_length, enc32_len, IH. lia. Qed.
Lemma split32_enc n : forall l, (length l <= n)%nat -> Forall (fun x => 0 <= x < ell) l -> split32 n (concat (map enc32 l)) = l.
Proof.
  induction n as [|n IH]; intros [|x l] Hl H; try reflexivity; [cbn in Hl; lia|].
  inversion_clear H. cbn [map concat].
  assert (E : split32 (S n) (enc32 x ++ concat (map enc32 l)) = le_int (firstn 32 (enc32 x ++ concat (map enc32 l))) :: split32 n (skipn 32 (enc32 x ++ concat (map enc32 l)))).
  { pose proof (enc32_len x) as L. destruct (enc32 x); [discriminate|reflexivity]. }
  rewrite E, firstn_app, skipn_app, enc32_len, Nat.sub_diag, firstn_all2, skipn_all2 by (rewrite enc32_len; lia).
  rewrite firstn_O, skipn_O, app_nil_r, app_nil_l, le_int_enc32 by assumption. f_equal. apply IH; [cbn in Hl; lia|assumption].
Qed.

Lemma toy_prim : prim_laws toy_ops.
Proof.
  constructor.
  - exact toy_laws.
  - intros b. apply (Z.mod_pos_bound (le_int b) ell). reflexivity.
  - intros k. apply (thash_range ([7] ++ k)).
  - intros m. apply (enc32_len (thash_int m)).
  - intros x. apply (enc32_len x).
  - intros p P r H. change (length (map (fun '(a, b) => Z.lxor a b) (combine p (thash (enc32 (toy_kd P r))))) = 8%nat).
    rewrite map_length, combine_length, H. unfold thash. rewrite enc32_len. reflexivity.
  - intros am ms sd p Hl Hm Ha Hms Hp. change (Ok (am, ms) = Ok p) in Hp. apply Ok_inj in Hp. subst p.
    assert (Ha' : Forall (fun a => 0 <= a < ell) am).
    { eapply Forall_impl; [|exact Ha]. cbn beta. intros a [? ?]. split; [assumption|]. apply Z.lt_trans with (2 ^ 64); [assumption|reflexivity]. }
    exists ([zlen am] ++ concat (map enc32 am) ++ [zlen ms] ++ concat (map enc32 ms)), (am, ms).
    split.
    { unfold dump_rsig_bp. change (bp_parts toy_ops (am, ms)) with (@nil (list Z), map enc32 am, map enc32 ms, @nil (list Z)). cbv iota.
      unfold zlen. rewrite !map_length. replace (Z.of_nat (length am) <=? 127) with true by (symmetry; apply Z.leb_le; lia).
      cbn [guard bind concat app]. now rewrite app_nil_r. }
    split; [discriminate|]. split.
    { set (f := parse_bp toy_ops). unfold toy_ops in f. cbn [parse_bp] in f. subst f. cbn [app].
      assert (N : Z.to_nat (32 * zlen am) = length (concat (map enc32 am))) by (rewrite concat_enc32; unfold zlen; lia).
      rewrite N, firstn_app, skipn_app, Nat.sub_diag, firstn_all2, skipn_all2 by lia. rewrite firstn_O, skipn_O, app_nil_r, app_nil_l.
      rewrite !split32_enc; [reflexivity|lia|assumption|lia|assumption]. }
    split; [reflexivity|].
    change (Ok (zlist_eqb am am && zlist_eqb ms ms) = Ok true). now rewrite !zlist_eqb_refl.
Qed.

Lemma toy_dec y : 0 <= y < ell -> dec_pt toy_ops (enc32 y) = Ok y.
Proof.
  intros H. change ((if zlen (enc32 y) =? 32 then Ok (le_int (enc32 y)) else Err ValueError) = Ok y).
  unfold zlen. rewrite enc32_len. change (Z.of_nat 32 =? 32) with true. cbv iota. now rewrite le_int_enc32.
Qed.
Lemma le_bytes_ok n : forall x, bytes_ok (le_bytes n x).
Proof.
  induction n as [|n IH]; intros x; [constructor|]. cbn [le_bytes]. constructor; [|apply IH].
  change 255 with (Z.ones 8). unfold byte_ok. rewrite Z.land_ones by lia. change (2 ^ 8) with 256. pose proof (Z.mod_pos_bound x 256). lia.
Qed.
Lemma enc32_ok x : bytes_ok (enc32 x).
Proof. apply le_bytes_ok. Qed.
Lemma enc32_inj x y : 0 <= x < ell -> 0 <= y < ell -> enc32 x = enc32 y -> x = y.
Proof. intros Hx Hy E. apply (f_equal le_int) in E. now rewrite !le_int_enc32 in E. Qed.
Lemma enc32_nz x : 0 < x < ell -> enc32 x <> repeat 0 32.
Proof. intros H E. change (repeat 0 32) with (enc32 0) in E. apply enc32_inj in E; [lia|lia|]. split; [lia|reflexivity]. Qed.

Lemma ell_big : 2 ^ 64 < ell.
Proof. reflexivity. Qed.
Lemma toy_src_ok k a : 0 <= k -> 0 <= a -> src_ok (toy_src k a).
Proof.
  intros Hk Ha. unfold src_ok, toy_src. cbn [se_outputs se_real_output se_real_out_tx_key se_additional se_real_output_in_tx_index se_amount se_mask se_multisig se_subaddr_minor].
  split; [constructor; [|constructor; [|constructor]]; cbn [re_idx re_dest re_commitment]; (split; [lia|split; apply enc32_ok])|].
  split; [lia|]. split; [apply enc32_ok|]. split; [constructor|]. split; [exact Hk|]. split; [exact Ha|]. split; [apply enc32_ok|]. split; [reflexivity|exact I].
Qed.
Lemma toy_owned x k a : 0 <= k < 2 ^ 32 -> owned toy_ops toy_creds x (toy_src k a).
Proof.
  intros Hk. pose proof ell_big as EB. set (xi := (2002 + toy_dsc (toy_kd (50 + k) 1001) k) mod ell).
  assert (Hxi : 0 <= xi < ell) by (apply Z.mod_pos_bound; reflexivity).
  assert (H60 : 0 <= 60 + k < ell) by lia.
  exists {| re_idx := 10 + k; re_dest := enc32 xi; re_commitment := enc32 (((60 + k) + 5 * a) mod ell) |}, xi, (50 + k), [], xi, ((xi * 7) mod ell), (enc32 (60 + k)), (((60 + k) + 5 * a) mod ell).
  split; [reflexivity|]. split; [apply toy_dec; exact Hxi|]. split; [apply toy_dec; lia|]. split; [reflexivity|]. split.
  { change ((if xi =? xi then Ok (xi, (xi * 7) mod ell) else Err ValueError) = Ok (xi, (xi * 7) mod ell)). now rewrite Z.eqb_refl. }
  split; [exact Hxi|]. split; [apply Z.eqb_eq; symmetry; now apply Z.mod_small|]. split; [reflexivity|].
  split; [apply toy_dec; apply Z.mod_pos_bound; reflexivity|]. split.
  { apply Z.eqb_eq. change ((60 + k + 5 * a) mod ell = (le_int (enc32 (60 + k)) mod ell + 5 * a) mod ell). rewrite le_int_enc32 by exact H60.
    now rewrite (Z.mod_small (60 + k) ell) by exact H60. }
  intros msg alpha sd _. eexists. reflexivity.
Qed.
Lemma toy_payable am s v : 0 <= am < 2 ^ 64 -> 0 <= s < ell -> 0 < v < ell ->
  payable toy_ops (toy_dst am {| spend_public_key := enc32 s; view_public_key := enc32 v |}).
Proof.
  intros Ha Hs Hv. unfold payable, dst_ok, toy_dst, keys32. cbn [de_amount de_addr de_original spend_public_key view_public_key].
  split; [split; [lia|]; split; [apply enc32_ok|]; split; [apply enc32_ok|exact I]|]. split; [lia|]. split; [apply enc32_len|].
  split; [now apply enc32_nz|]. split; eexists; apply toy_dec; lia.
Qed.

Lemma toy_dst_sum m : forall l : list nat, length l = m -> zsum (map de_amount (map (fun i => toy_dst 10 (other_addr (Z.of_nat i))) l ++ [toy_dst 10 toy_addr])) = 10 * Z.of_nat m + 10.
Proof.
  induction m as [|m IH]; intros [|x l] H; try discriminate; [reflexivity|]. injection H as H. cbn [map app].
  change (10 + zsum (map de_amount (map (fun i => toy_dst 10 (other_addr (Z.of_nat i))) l ++ [toy_dst 10 toy_addr])) = 10 * Z.of_nat (S m) + 10).
  rewrite (IH l H). lia.
Qed.
Lemma toy_src_sum : forall l : list nat, zsum (map se_amount (map (fun i => toy_src (Z.of_nat i) 100) l)) = 100 * Z.of_nat (length l).
Proof.
  induction l as [|x l IH]; [reflexivity|]. cbn [map length].
  change (100 + zsum (map se_amount (map (fun i => toy_src (Z.of_nat i) 100) l)) = 100 * Z.of_nat (S (length l))). rewrite IH. lia.
Qed.

(** transactions of the toy wallet with any number of inputs and outputs *)
Lemma toy_well_formed k m cv hf : (1 <= k)%nat -> (2 <= m)%nat -> Z.of_nat k < 2 ^ 32 -> Z.of_nat m <= 10 * Z.of_nat k -> Z.of_nat m < 2 ^ 32 ->
  supported (toy_tx k m cv hf) -> well_formed toy_ops toy_creds (toy_tx k m cv hf).
Proof.
  intros Hk Hm Bk Hmk Bm Hs. pose proof ell_big as EB. set (x := toy_tx k m cv hf).
  assert (Ls : zlen (tc_sources x) = Z.of_nat k) by (unfold x, zlen, toy_tx; cbn [tc_sources]; rewrite map_length, seq_length; reflexivity).
  assert (Ld : zlen (tc_dsts x) = Z.of_nat m) by (unfold x, zlen, toy_tx; cbn [tc_dsts]; rewrite app_length, map_length, seq_length; cbn [length]; lia).
  unfold well_formed. rewrite Ls, Ld. split; [lia|]. split; [lia|]. split; [unfold x; cbn; lia|]. split; [reflexivity|]. split; [exact Hs|].
  assert (Hin : In (toy_dst 10 (other_addr 1)) (tc_dsts x)).
  { unfold x, toy_tx. cbn [tc_dsts]. apply in_or_app. left. apply in_map_iff. exists 1%nat. split; [reflexivity|]. apply in_seq. lia. }
  assert (Hlast : In (toy_dst 10 toy_addr) (tc_dsts x)).
  { unfold x, toy_tx. cbn [tc_dsts]. apply in_or_app. right. now left. }
  split; [|split; [|split; [|split]]].
  - unfold x, toy_tx. cbn [tc_sources]. apply Forall_forall. intros s Hin'. apply in_map_iff in Hin'. destruct Hin' as (i & <- & Hi). apply in_seq in Hi.
    split; [apply toy_src_ok; lia|apply toy_owned; lia].
  - apply Forall_app. split.
    + apply Forall_forall. intros e He. apply in_map_iff in He. destruct He as (i & <- & Hi). apply in_seq in Hi. apply toy_payable; lia.
    + constructor; [|constructor]. apply (toy_payable 10 2002 ((2002 * 1001) mod ell)); split; first [discriminate|reflexivity].
  - unfold change_ok. change (tc_change x) with (Some (toy_dst 10 toy_addr)). right. split.
    + exists 0. split; [reflexivity|]. reflexivity.
    + exists (toy_dst 10 toy_addr). split; [exact Hlast|reflexivity].
  - split; [|exact I]. exists (toy_dst 10 (other_addr 1)). split; [exact Hin|]. split; [discriminate|]. change (tc_change x) with (Some (toy_dst 10 toy_addr)). cbv iota.
    intros E. apply (f_equal spend_public_key) in E. cbn [de_addr toy_dst other_addr toy_addr spend_public_key] in E. apply enc32_inj in E; [discriminate| |]; lia.
  - unfold x, toy_tx. cbn [tc_dsts tc_sources]. rewrite (toy_dst_sum (m - 1)) by apply seq_length. rewrite toy_src_sum, seq_length. lia.
Qed.
(** reduced random scalars *)
Definition toy_tape_r (n : nat) : tape :=
  {| answer := true; rnd := fun i => (100000 + 1000 * Z.of_nat n + Z.of_nat i) mod ell; rndb := fun i => [Z.of_nat n; Z.of_nat i]; seed := Z.of_nat n |}.
Lemma toy_honest : honest_tapes toy_tape_r.
Proof. split; [reflexivity|]. intros n i. apply (Z.mod_pos_bound (100000 + 1000 * Z.of_nat n + Z.of_nat i) ell). reflexivity. Qed.

Lemma toy_no_give_up cr tp hs x : no_give_up toy_ops cr tp hs x.
Proof. intros j k am ms n sd _ _ _ _ _ _. exists (am, ms). reflexivity. Qed.

(** a finite check of [no_zero_mask] for destinations that are not marked as sub-addresses *)
Definition mask_at (s i : Z) : Z := thash_int ([7] ++ enc32 (toy_dsc s i)).
Definition secrets (x : construction) (r : Z) : list Z :=
  toy_kd (r mod ell) 1001 :: map (fun e => toy_kd (toy_kd (le_int (spend_public_key (de_addr e))) r) 1001) (tc_dsts x)
    ++ map (fun e => toy_kd (le_int (view_public_key (de_addr e))) r) (tc_dsts x).
Definition masks_check (x : construction) (r : Z) : bool :=
  forallb (fun e => match de_is_subaddress e with Some true => false | _ => true end) (tc_dsts x) &&
  forallb (fun s => forallb (fun i => negb (mask_at s i =? 0)) (zrange (zlen (tc_dsts x)))) (secrets x r).
Lemma toy_dec_inv b P : dec_pt toy_ops b = Ok P -> P = le_int b.
Proof. change (dec_pt toy_ops b) with (if zlen b =? 32 then Ok (le_int b) else Err ValueError). destruct (zlen b =? 32); [|discriminate]. intros E. now apply Ok_inj in E. Qed.
Lemma mask_at_eq s i : commitment_mask toy_ops (enc_int toy_ops (derivation_to_sc toy_ops s i)) = mask_at s i.
Proof. cbv [toy_ops commitment_mask enc_int derivation_to_sc mask_at]. reflexivity. Qed.
Lemma toy_no_zero tp x : masks_check x (rnd (tp 0%nat) 0) = true -> no_zero_mask toy_ops toy_creds tp x.
Proof.
  unfold masks_check. intros H _ e i s He Hi Hs. apply andb_prop in H. destruct H as [Hsub H]. rewrite forallb_forall in Hsub, H.
  rewrite mask_at_eq. assert (Hin : In s (secrets x (rnd (tp 0%nat) 0))).
  { unfold secrets. destruct Hs as [(P & -> & [->|(D & e' & He' & HD & ->)])|(A & n & Hn & HA & ->)].
    - left. reflexivity.
    - apply toy_dec_inv in HD. rewrite HD. right. apply in_or_app. left. apply in_map_iff. exists e'. split; [reflexivity|exact He'].
    - apply toy_dec_inv in HA. rewrite HA. right. apply in_or_app. right. apply in_map_iff. exists e. split; [|exact He].
      destruct Hn as [->|Hn]; [reflexivity|]. specialize (Hsub _ He). rewrite Hn in Hsub. discriminate. }
  specialize (H _ Hin). rewrite forallb_forall in H. specialize (H i). rewrite In_zrange in H. specialize (H Hi).
  apply Z.eqb_neq. destruct (mask_at s i =? 0); [discriminate|reflexivity].
Qed.
Lemma toy_20 : masks_check (toy_tx 2 20 1 10) (rnd (toy_tape_r 0) 0) = true.
Proof. vm_compute. reflexivity. Qed.
