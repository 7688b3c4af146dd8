(** C72: a wallet restored from its words, and the keys of a seed. *)
From Verif Require Import Py PyLemmas Digits B58Mnr_model Mnemonic_words Mnemonic_model Mnemonic_proof Ints_model Ints_proof2 Ec_model Ec_toy Mlsag_model
  Bip32_model Bip32_spec Bip32_base Bip32_proof Bip32_path Bip32_derive Prop_Bip32 Seed_model Seed_proof.

(** the keys that a 32-byte Monero seed stands for: the spend key is the seed modulo the group
    order, the view key is the hash of the spend key modulo the group order *)
Definition spend_of (m : list Z) : Z := le_val 256 m mod l.
Definition view_of (cn : list Z -> list Z) (m : list Z) : Z := le_val 256 (cn (le_digits 256 32 (spend_of m))) mod l.
Definition keys_of (O : bops) (cn : list Z -> list Z) (m : list Z) (d : derivation O) : Prop :=
  spend_sec d = spend_of m /\ view_sec d = view_of cn m /\
  spend_pub d = scalarmult_base (bE O) (spend_sec d) /\ view_pub d = scalarmult_base (bE O) (view_sec d).
Definition seed32 (m : list Z) : Prop := length m = 32%nat /\ bytes_ok m.

Theorem C72_keys_of_seed : forall O cn m, hash32 cn -> seed32 m ->
  exists d, from_monero_seed O cn m = Ok d /\ monero_master d = m /\ keys_of O cn m d.
Proof.
  intros O cn m H [L B]. destruct (set_ok O cn None m H B L) as (ws & _ & _ & _ & _ & E). eexists. split; [exact E|].
  split; [reflexivity|]. repeat split.
Qed.
Print Assumptions C72_keys_of_seed.

(** giving the words back, as a list of words or as a list with the whole line or any other
    grouping of the words into lines, restores the same seed and the same keys *)
Theorem C72_restore_partial : forall O cn m d, hash32 cn -> seed32 m -> from_monero_seed O cn m = Ok d ->
  from_monero_mnemonics O cn (IList [electrum_words d]) = Ok d /\
  forall groups, Forall (fun g => g <> []) groups -> electrum_words d = join_sp (concat groups) -> Forall (fun w => In w words) (concat groups) ->
    from_monero_mnemonics O cn (IList (map join_sp groups)) = Ok d.
Proof.
  intros O cn m d H [L B] E. destruct (set_ok O cn None m H B L) as (ws & W & N & F & D & S).
  unfold from_monero_seed in E. assert (EW : electrum_words d = join_sp ws).
  { cbv zeta in S. rewrite S in E. assert (X : forall a b : derivation O, Ok a = Ok b -> b = a) by congruence. apply X in E. subst d. reflexivity. }
  split.
  - rewrite EW. rewrite (restore_gen O cn m ws) by (try assumption; unfold clean_input; cbn [flat_map]; rewrite app_nil_r, split_join by assumption; apply clean_words, F). exact E.
  - intros groups G J FG. rewrite EW in J.
    assert (X : concat groups = ws).
    { rewrite <- (split_join ws N F), J. symmetry. apply split_join; [|exact FG].
      intros C. rewrite C in J. destruct ws as [|w1 ws]; [destruct (N eq_refl)|]. inversion F as [|? ? Hw _]; subst.
      destruct (word_letters w1 Hw) as [Nw _]. destruct w1; [destruct (Nw eq_refl)|]. destruct ws; discriminate J. }
    rewrite (restore_gen O cn m ws); [exact E|exact B|exact W|exact D|].
    unfold clean_input. rewrite <- X. rewrite X. clear J. subst ws. clear - G FG.
    assert (K : flat_map split_sp (map join_sp groups) = concat groups).
    { induction G as [|g gs Hg _ IH]; [reflexivity|]. cbn [map flat_map concat] in *. apply Forall_app in FG. destruct FG as [F1 F2].
      rewrite split_join by assumption. rewrite IH by exact F2. reflexivity. }
    rewrite K. apply clean_words, FG.
Qed.
Print Assumptions C72_restore_partial.

(** what the user is shown, one line of words, is not accepted as it stands *)
Theorem C72_restore_line_refuted : forall O cn line, from_monero_mnemonics O cn (IStr line) = Err ZeroDivision.
Proof. exact string_fails. Qed.
Print Assumptions C72_restore_line_refuted.

(** a mistaken last word (the checksum) is not noticed *)
Theorem C72_checksum_not_checked_refuted : forall O cn m ws w w', seed32 m -> mn_encode words m true = Ok (ws ++ [w]) ->
  In w' words -> from_monero_mnemonics O cn (IList (ws ++ [w'])) = from_monero_seed O cn m.
Proof.
  intros O cn m ws w w' [L B] E I'.
  destruct (seed_words m B) as (ws2 & E2 & N & F & D); [unfold zlen; rewrite L; reflexivity|destruct m; [discriminate L|discriminate]|].
  assert (X : ws2 = ws ++ [w]) by congruence. subst ws2.
  destruct (real_round_trip m B) as (ws3 & E3 & _ & Z3 & D3); [unfold zlen; rewrite L; reflexivity|].
  assert (ws3 = ws) by (pose proof (encode_split words m ws w E); congruence).
  subst ws3. unfold from_monero_mnemonics. apply Forall_app in F. destruct F as [F _].
  assert (FW : Forall (fun w => In w words) (ws ++ [w'])) by (apply Forall_app; split; [exact F|constructor; [exact I'|constructor]]).
  assert (C : clean_input (IList (ws ++ [w'])) = ws ++ [w']).
  { unfold clean_input. replace (flat_map split_sp (ws ++ [w'])) with (ws ++ [w']); [apply clean_words, FW|].
    clear - FW. induction FW as [|x l Hx _ IH]; [reflexivity|]. cbn [flat_map]. rewrite split_sp_one by (apply word_no_sp, Hx). cbn [app]. f_equal. exact IH. }
  rewrite C. rewrite real_ignores by (rewrite Z3, Z.mul_comm; apply Z.mod_mul; discriminate). rewrite D3. cbn [bind].
  rewrite unhexlify_hexlify by exact B. reflexivity.
Qed.
Print Assumptions C72_checksum_not_checked_refuted.

(** ** seeds of hardware wallets *)
(** BIP-0044 (Ledger): the Monero seed is the hash of the private key at the path *)
Theorem C72_bip44 : forall O cn seed path k c k' c', bops_ok O -> hash32 cn -> Forall wf_written path ->
  master (hmac512 O) seed = Some (k, c) -> derive (hmac512 O) (pnt O) (k, c) (map meaning path) = Some (k', c') ->
  exists d, from_master_seed O cn seed (Some (render path)) false = Ok d /\ monero_master d = cn (ser256 k') /\ keys_of O cn (cn (ser256 k')) d.
Proof.
  intros O cn seed path k c k' c' OK H Wf EM D.
  pose proof (C71_master O OK seed MoneroMainNet) as M. rewrite EM in M. destruct M as (w & EW & HH & _).
  pose proof (C71_path O OK seed MoneroMainNet w k c path EW HH Wf) as P. rewrite D in P. destruct P as (w' & EP & ((n & PK) & _) & _).
  unfold from_master_seed, set_seed. rewrite EW. cbn [bind]. rewrite EP. cbn [bind]. rewrite PK. cbn [bind priv_key].
  rewrite unhexlify_hexlify by apply bytes_be. cbn [bind]. fold (ser256 k'). destruct (H (ser256 k')) as [L B].
  destruct (set_ok O cn (Some (ser256 k')) (cn (ser256 k')) H B L) as (ws & _ & _ & _ & _ & E).
  eexists. split; [exact E|]. split; [reflexivity|]. repeat split.
Qed.
Print Assumptions C72_bip44.
(** SLIP-0010: the Monero seed is the private key at the path, reduced *)
Theorem C72_slip0010 : forall O cn seed path d, bops_ok O -> hash32 cn -> Forall wf_written path -> Forall hard path ->
  from_master_seed O cn seed (Some (render path)) true = Ok d ->
  let raw := fst (slip_derive (hmac512 O) (slip_master (hmac512 O) seed) (numbers path)) in
  monero_master d = le_digits 256 32 (le_val 256 raw mod l) /\ spend_sec d = le_val 256 raw mod l /\ keys_of O cn (monero_master d) d.
Proof.
  intros O cn seed path d OK H Wf Hh E raw. unfold from_master_seed, set_seed in E.
  apply bind_ok_inv in E. destruct E as (w & EW & E). apply bind_ok_inv in E. destruct E as (w' & EP & E).
  pose proof (ed_master O OK seed MoneroMainNet) as M. destruct (slip_master (hmac512 O) seed) as [r0 c0] eqn:Em. destruct M as [M1 M2].
  assert (DK : key_ok (parse256 r0) \/ ~ key_ok (parse256 r0)) by (unfold key_ok; lia).
  destruct DK as [K|K]; [|destruct (M2 K) as (e & M2'); congruence].
  destruct (M1 K) as (w0 & E0 & H0 & _). assert (w0 = w) by congruence. subst w0.
  rewrite path_walk in EP by exact Wf. pose proof (ed_walk O OK path Wf Hh w r0 c0 H0) as W. fold (numbers path) in W. subst raw.
  destruct (slip_derive (hmac512 O) (r0, c0) (numbers path)) as [r1 c1]. cbn [fst]. destruct W as [_ W]. specialize (W w' EP).
  destruct W as (_ & _ & _ & [Lr Br] & (q & Q1 & Q2) & _). rewrite Q1 in E. cbn [bind] in E. rewrite Q2, unhexlify_hexlify in E by exact Br. cbn [bind] in E.
  rewrite (decode32 r1 Br Lr) in E. cbn [bind] in E.
  assert (LP : 0 <= le_val 256 r1 mod l < l) by (apply Z.mod_pos_bound; reflexivity).
  set (s := le_val 256 r1 mod l) in *. clearbody s.
  destruct (scalar_round_trip s 0 [] LP eq_refl ltac:(constructor)) as (bs & Eb & Lb & Bb & Vb & _).
  rewrite Eb in E. cbn [bind] in E.
  replace (Ints_spec.le_int bs) with (le_val 256 bs) in Vb by (clear; induction bs as [|b bs IH]; [reflexivity|]; cbn [le_val Ints_spec.le_int fold_right]; rewrite IH; reflexivity).
  assert (bs = le_digits 256 32 s).
  { rewrite <- Lb, <- Vb. symmetry. apply le_digits_val; [lia|apply digits_ok_256, Bb]. }
  destruct (set_ok O cn (Some r1) bs H Bb Lb) as (ws & _ & _ & _ & _ & ES). cbv zeta in ES. rewrite ES in E.
  assert (X : forall a b : derivation O, Ok a = Ok b -> b = a) by congruence. apply X in E. subst d. cbn [monero_master spend_sec].
  split; [assumption|]. split; [|repeat split].
  rewrite Vb. apply Z.mod_small, LP.
Qed.
Print Assumptions C72_slip0010.
(** the paths used when none is given *)
Theorem C72_default_paths : forall O cn seed slip, exists path, Forall wf_written path /\ (slip = true -> Forall hard path) /\
  map meaning path = (if slip then [(44, true); (128, true); (0, true)] else [(44, true); (128, true); (0, true); (0, false); (0, false)]) /\
  from_master_seed O cn seed None slip = from_master_seed O cn seed (Some (render path)) slip.
Proof.
  intros O cn seed slip.
  set (h := [ {| w_digits := [52; 52]; w_mark := 39 |}; {| w_digits := [49; 50; 56]; w_mark := 39 |}; {| w_digits := [48]; w_mark := 39 |} ]).
  destruct slip.
  - exists h. split; [apply writtenb_ok; reflexivity|]. split; [intros _; repeat constructor; unfold hard; cbn [w_mark]; discriminate|]. split; reflexivity.
  - exists (h ++ [ {| w_digits := [48]; w_mark := 0 |}; {| w_digits := [48]; w_mark := 0 |} ]). split; [apply writtenb_ok; reflexivity|]. split; [discriminate|]. split; reflexivity.
Qed.
Print Assumptions C72_default_paths.

(** ** cases *)
Definition ex_m : list Z := map (fun i => i * 7 mod 256) (zrange 32).
Example C72_case_hash : hash32 toy_hash /\ seed32 ex_m.
Proof. split; [intros m; apply toy_hash_ok|]. split; [reflexivity|]. apply bytes_okb_spec. reflexivity. Qed.
Example C72_case_slip : exists d, from_master_seed toyB toy_hash ex_seed None true = Ok d.
Proof.
  assert (H : okT (from_master_seed toyB toy_hash ex_seed None true) (fun _ => true) = true) by (vm_compute; reflexivity).
  apply okT_spec in H. destruct H as (d & H & _). eauto.
Qed.
Example C72_case_words : exists d, from_monero_seed toyB toy_hash ex_m = Ok d /\ firstn 12 (electrum_words d) <> [] /\ spend_sec d <> view_sec d.
Proof.
  assert (H : okT (from_monero_seed toyB toy_hash ex_m) (fun d => (12 <=? zlen (electrum_words d)) && negb (spend_sec d =? view_sec d)) = true) by (vm_compute; reflexivity).
  apply okT_spec in H. destruct H as (d & H & B). exists d. split; [exact H|]. apply andb_true_iff in B. rewrite negb_true_iff in B. destruct B as [B1 B2].
  split; [|lia]. intros K. destruct (electrum_words d) as [|x t]; [discriminate B1|discriminate K].
Qed.
