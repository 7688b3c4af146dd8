(** A small concrete instance of the cryptographic operations, used to run the
    device and the agent inside Coq: it shows that the hypotheses of the theorems
    are satisfiable and gives the counterexamples.  Curve points are integers
    modulo the group order (not secure, but it satisfies the algebraic laws). *)
From Verif Require Import Py PyLemmas Addr_model Addr_proof Lists_model Signer_model Signer_spec Agent_model.

Fixpoint le_bytes (n : nat) (x : Z) : list Z :=
  match n with O => [] | S n => Z.land x 255 :: le_bytes n (Z.shiftr x 8) end.
Fixpoint le_int (l : list Z) : Z := match l with [] => 0 | b :: l => b + 256 * le_int l end.
Definition enc32 : Z -> list Z := le_bytes 32.
(** a toy hash *)
Definition thash_int (m : list Z) : Z := fold_left (fun a x => Z.land (a * 65599 + x + 12345) 18446744073709551615) m 777.
Definition thash (m : list Z) : list Z := enc32 (thash_int m).
Fixpoint split32 (fuel : nat) (l : list Z) : list Z :=
  match fuel, l with
  | S fuel, _ :: _ => le_int (firstn 32 l) :: split32 fuel (skipn 32 l)
  | _, _ => []
  end.
Definition toy_kd (P k : Z) : Z := (P * k) mod ell.
Definition toy_dsc (D i : Z) : Z := thash_int (enc32 D ++ enc32 i).
Definition toy_sub (v S a i : Z) : Z * Z :=
  let D := if (a =? 0) && (i =? 0) then S else (S + thash_int [v; a; i]) mod ell in
  (D, (D * v) mod ell).
Definition toy_ops : ops := {|
  pt := Z;
  dec_pt := fun b => if zlen b =? 32 then Ok (le_int b) else Err ValueError;
  enc_pt := enc32;
  smul := toy_kd;
  smul_base := fun k => k mod ell;
  gen_c := fun a x => (a + 5 * x) mod ell;
  point_eqb := Z.eqb;
  enc_int := enc32;
  dec_int := fun b => le_int b mod ell;
  cn_hash := thash;
  keccak2 := thash;
  hmac := fun k m => thash (k ++ [1] ++ m);
  hash_to_sc := thash_int;
  key_derivation := toy_kd;
  derivation_to_sc := toy_dsc;
  derive_pub := fun D i B => (B + toy_dsc D i) mod ell;
  commitment_mask := fun k => thash_int ([7] ++ k);
  sub_addr_keys := toy_sub;
  subs := unit;
  subs_empty := tt;
  compute_subs := fun _ _ _ _ => tt;
  key_image_helper := fun v s _ out tx _ i =>
    let x := (s + toy_dsc (toy_kd tx v) i) mod ell in
    if out =? x then Ok (x, (x * 7) mod ell) else Err ValueError;
  encrypt_pid := fun p P r => map (fun '(a, b) => Z.lxor a b) (combine p (thash (enc32 (toy_kd P r))));
  dump_tsx := fun d p => [td_fee d] ++ match p with Some l => l | None => [] end;
  aead_enc := fun k n p => thash (k ++ [2] ++ p) ++ p;
  aead_dec := fun k c => let p := skipn 32 c in
                         if zlist_eqb (firstn 32 c) (thash (k ++ [2] ++ p)) then Ok p else Err ValueError;
  bp := list Z * list Z;
  parse_bp := fun b => match b with
    | n :: t => let l := firstn (Z.to_nat (32 * n)) t in
                match skipn (Z.to_nat (32 * n)) t with
                | _ :: r => Ok (split32 16 l, split32 16 r)
                | [] => Err ValueError
                end
    | [] => Err ValueError end;
  prove_bp := fun am ms _ => Ok (am, ms);
  verify_bp := fun p am ms => Ok (zlist_eqb (fst p) am && zlist_eqb (snd p) ms);
  bp_parts := fun p => ([], map enc32 (fst p), map enc32 (snd p), []);
  mlsag_sign := fun m ring x mask alpha pc i sd => Ok (thash (m ++ enc32 x ++ enc32 alpha ++ enc32 pc))
|}.

(** a wallet *)
Definition toy_creds : creds toy_ops := {| view_priv := 1001; spend_priv := 2002; spend_pub := 2002 : pt toy_ops |}.
Definition toy_addr : pubaddr := {| spend_public_key := enc32 2002; view_public_key := enc32 ((2002 * 1001) mod ell) |}.
(** somebody else's address *)
Definition other_addr (k : Z) : pubaddr := {| spend_public_key := enc32 (30 + k); view_public_key := enc32 (40 + k) |}.
Definition toy_dst (a : Z) (ad : pubaddr) : dst_entry :=
  {| de_amount := a; de_addr := ad; de_is_subaddress := None; de_original := None; de_is_integrated := None |}.
(** an owned output as source: transaction key 50+k, amount [a], commitment mask 60+k, one decoy *)
Definition toy_src (k a : Z) : src_entry :=
  let x := (2002 + toy_dsc (toy_kd (50 + k) 1001) k) mod ell in
  {| se_outputs := [{| re_idx := 3 + k; re_dest := enc32 99; re_commitment := enc32 98 |};
                    {| re_idx := 10 + k; re_dest := enc32 x; re_commitment := enc32 (((60 + k) + 5 * a) mod ell) |}];
     se_real_output := 1; se_real_out_tx_key := enc32 (50 + k); se_additional := [];
     se_real_output_in_tx_index := k; se_amount := a; se_rct := Some true; se_mask := Some (enc32 (60 + k));
     se_multisig := None; se_subaddr_minor := None |}.
Definition toy_tape (n : nat) : tape :=
  {| answer := true; rnd := fun i => 100000 + 1000 * Z.of_nat n + Z.of_nat i; rndb := fun i => [Z.of_nat n; Z.of_nat i]; seed := Z.of_nat n |}.
(** a transaction with [k] inputs of amount 100 and [m] outputs of amount 10, the last one is the change *)
Definition toy_tx (k m : nat) (cv hf : Z) : construction :=
  let dsts := map (fun i => toy_dst 10 (other_addr (Z.of_nat i))) (seq 1 (m - 1)) ++ [toy_dst 10 toy_addr] in
  {| tc_payment_id := None; tc_unlock_time := 0; tc_dsts := dsts; tc_change := Some (toy_dst 10 toy_addr);
     tc_sources := map (fun i => toy_src (Z.of_nat i) 100) (seq 1 k); tc_account := Some 0; tc_minor := [0];
     tc_use_bulletproofs := true; tc_hf := hf; tc_client_version := cv |}.
Definition toy_run (x : construction) := sign_transaction_data toy_ops toy_creds toy_tape (fun n => Z.of_nat n) x None.
(** the events of the toy run; the first one is the init exchange *)
Definition toy_events (x : construction) : list event :=
  match toy_run x with Ok ((_, ev), _) => ev | Err _ => [] end.

(** * Sessions of the toy device *)
Definition device_events (msgs : list (tape * msg)) : list event := combine msgs (snd (run toy_ops toy_creds None msgs)).
Definition ev_t0 (ev : list event) : tape := match ev with (t, _, _) :: _ => t | [] => toy_tape 0 end.
Definition no_data : tsx_data :=
  {| td_payment_id := None; td_unlock_time := 0; td_outputs := []; td_change := None; td_num_inputs := 0; td_fee := 0; td_account := None;
     td_minor_indices := []; td_client_version := None; td_rsig_type := 0; td_grouping := []; td_bp_version := None |}.
Definition ev_d (ev : list event) : tsx_data := match ev with (_, MInit d, _) :: _ => d | _ => no_data end.
Definition ev_r0 (ev : list event) : resp := match ev with (_, _, r) :: _ => r | [] => RFailure end.
Definition ev_tr (ev : list event) : list event := tl ev.
Definition okb (r : resp) : bool := match r with RFailure => false | _ => true end.
Definition initb (m : msg) : bool := match m with MInit _ => true | _ => false end.
Definition session_check (ev : list event) : bool :=
  match ev with
  | (_, MInit _, r) :: tr => okb r && forallb (fun e => negb (initb (snd (fst e))) && okb (snd e)) tr
  | _ => false
  end.
Lemma run_len {C} (cr : creds C) msgs : forall st, length (snd (run C cr st msgs)) = length msgs.
Proof.
  induction msgs as [|[t m] msgs IH]; intros st; [reflexivity|]. cbn [run]. destruct (tsx_sign C cr st t m) as [s r]. specialize (IH s).
  destruct (run C cr s msgs) as [s' rs]. cbn in *. now rewrite IH.
Qed.
Lemma map_combine {A B} (l : list A) (m : list B) : length l = length m -> map fst (combine l m) = l /\ map snd (combine l m) = m.
Proof.
  revert m. induction l as [|a l IH]; intros [|b m] H; try discriminate; [auto|]. cbn. injection H as H. destruct (IH m H) as [-> ->]. auto.
Qed.
Lemma device_history msgs : history toy_ops toy_creds (device_events msgs).
Proof. unfold history, device_events. destruct (map_combine msgs (snd (run toy_ops toy_creds None msgs))) as [-> ->]; [now rewrite run_len|reflexivity]. Qed.
Lemma device_session msgs : let ev := device_events msgs in session_check ev = true ->
  session toy_ops toy_creds (ev_t0 ev) (ev_d ev) (ev_r0 ev) (ev_tr ev).
Proof.
  intros ev H. pose proof (device_history msgs) as Hh. fold ev in Hh. destruct ev as [|[[t m] r] tr]; [discriminate|]. destruct m; try discriminate. cbn [session_check] in H.
  apply andb_prop in H. destruct H as [H1 H2]. cbn [ev_t0 ev_d ev_r0 ev_tr tl]. unfold history in Hh. cbn [map fst snd] in Hh.
  unfold session. exists None, (fst (run toy_ops toy_creds None ((t, MInit d) :: map fst tr))). split; [|split].
  - rewrite <- Hh. apply surjective_pairing.
  - intros ->. discriminate.
  - rewrite forallb_forall in H2. apply Forall_forall. intros [[t' m'] r'] Hin. specialize (H2 _ Hin). cbn [fst snd] in *. apply andb_prop in H2. destruct H2 as [H2 H3].
    split; [intros X; destruct m'; try contradiction; discriminate|intros ->; discriminate].
Qed.
(** the events of a list of messages; [toy_msgs x] are the messages of the honest agent *)
Definition toy_msgs (x : construction) : list (tape * msg) := map fst (toy_events x).
Lemma le_bytes_len n x : length (le_bytes n x) = n.
Proof. revert x. induction n as [|n IH]; intros x; cbn [le_bytes length]; [reflexivity|]. now rewrite IH. Qed.
Lemma le_int_bytes n x : 0 <= x -> le_int (le_bytes n x) = x mod 256 ^ Z.of_nat n.
Proof.
  revert x. induction n as [|n IH]; intros x H; cbn [le_bytes le_int]; [now rewrite Z.mod_1_r|].
  rewrite IH by (apply Z.shiftr_nonneg; exact H). change 255 with (Z.ones 8). rewrite Z.land_ones, Z.shiftr_div_pow2 by lia. change (2 ^ 8) with 256.
  rewrite Nat2Z.inj_succ, Z.pow_succ_r, Z.rem_mul_r by lia. reflexivity.
Qed.
Lemma le_int_enc32 x : 0 <= x < ell -> le_int (enc32 x) = x.
Proof.
  intros H. unfold enc32. rewrite le_int_bytes by lia. apply Z.mod_small. split; [lia|]. apply Z.lt_trans with ell; [lia|]. reflexivity.
Qed.
Lemma toy_gen_range a x : 0 <= gen_c toy_ops a x < ell.
Proof. change (gen_c toy_ops a x) with ((a + 5 * x) mod ell). apply Z.mod_pos_bound. reflexivity. Qed.
Lemma toy_laws : codec_laws toy_ops.
Proof.
  constructor.
  - intros x H. change (le_int (enc32 x) mod ell = x). rewrite le_int_enc32 by exact H. now apply Z.mod_small.
  - intros a x. pose proof (toy_gen_range a x) as H. revert H. generalize (gen_c toy_ops a x). intros g H.
    change ((if zlen (enc32 g) =? 32 then Ok (le_int (enc32 g)) else Err ValueError) = Ok g).
    unfold zlen, enc32 at 1. rewrite le_bytes_len. change (Z.of_nat 32 =? 32) with true. cbv iota. now rewrite le_int_enc32.
  - intros P. apply (le_bytes_len 32).
  - intros k n p. change (let q := skipn 32 (thash (k ++ [2] ++ p) ++ p) in
      (if zlist_eqb (firstn 32 (thash (k ++ [2] ++ p) ++ p)) (thash (k ++ [2] ++ q)) then Ok q else Err ValueError) = Ok p).
    assert (L : length (thash (k ++ [2] ++ p)) = 32%nat) by apply (le_bytes_len 32). cbv zeta.
    rewrite firstn_app, skipn_app, L, Nat.sub_diag, firstn_all2, skipn_all2 by lia. change (firstn 0 p) with (@nil Z). change (skipn 0 p) with p.
    rewrite app_nil_r, app_nil_l. now rewrite zlist_eqb_refl.
Qed.

(** * Dishonest hosts *)
Definition honest (k m : nat) : list event := device_events (toy_msgs (toy_tx k m 1 10)).
(** announces the order 1, 1 and presents the second input wherever an input is expected *)
Definition twice (a : input_ack) (m : msg) : msg :=
  match m with
  | MPerm _ => MPerm [1; 1]
  | MVini _ _ _ => MVini (ia_src a) (ia_vini a) (ia_tag a)
  | MSign _ _ _ _ _ _ _ => MSign (ia_src a) (ia_vini a) (ia_tag a) (Some (ia_pseudo a)) (ia_pseudo_tag a) (Some (ia_alpha_ct a)) (ia_spend_ct a)
  | m => m
  end.
Definition twice_of (l : list input_ack) (msgs : list (tape * msg)) : list (tape * msg) :=
  match l with
  | [_; a] => map (fun '(t, m) => (t, twice a m)) msgs
  | _ => []
  end.
Definition twice_msgs : list (tape * msg) := twice_of (inputs (honest 2 2)) (toy_msgs (toy_tx 2 2 1 10)).
(** leaves out the messages with the range proofs *)
Definition noproof_msgs : list (tape * msg) :=
  filter (fun '(_, m) => match m with MSetOutput _ _ (Some _) _ => false | _ => true end) (toy_msgs (toy_tx 2 4 1 10)).
(** sends an offloaded-proof message right after the inputs *)
Definition early_msgs : list (tape * msg) :=
  firstn 3 (toy_msgs (toy_tx 2 4 1 10)) ++ [(toy_tape 0, MSetOutput None [] None true)].
Lemma checked_session msgs ev : ev = device_events msgs -> session_check ev = true ->
  session toy_ops toy_creds (ev_t0 ev) (ev_d ev) (ev_r0 ev) (ev_tr ev).
Proof. intros ->. apply device_session. Qed.
(** splitting off the last event *)
Definition ev_last (ev : list event) : event := last ev (toy_tape 0, MFinal, RFailure).
Lemma ev_split (ev : list event) : ev <> [] -> ev = removelast ev ++ [(fst (fst (ev_last ev)), snd (fst (ev_last ev)), snd (ev_last ev))].
Proof. intros H. unfold ev_last. rewrite <- !surjective_pairing. apply app_removelast_last. exact H. Qed.
Lemma ev_split_at (ev : list event) k e : nth_error ev k = Some e -> ev = firstn k ev ++ e :: skipn (S k) ev.
Proof. revert k. induction ev as [|x ev IH]; intros [|k] H; try discriminate; cbn in *; [now injection H as ->|]. f_equal. auto. Qed.
Definition ev_nth (k : nat) (ev : list event) : event := nth k ev (toy_tape 0, MFinal, RFailure).
Lemma ev_split_nth (ev : list event) k : (k < length ev)%nat -> ev = firstn k ev ++ (fst (fst (ev_nth k ev)), snd (fst (ev_nth k ev)), snd (ev_nth k ev)) :: skipn (S k) ev.
Proof. intros H. apply ev_split_at. unfold ev_nth. rewrite <- !surjective_pairing. now apply nth_error_nth'. Qed.
Lemma final_in ks : existsb (fun k => match k with KFinal => true | _ => false end) ks = true -> In KFinal ks.
Proof. rewrite existsb_exists. intros (k & H & E). destruct k; try discriminate. exact H. Qed.
Lemma list2 {A} (l : list A) d : length l = 2%nat -> l = [nth 0 l d; nth 1 l d].
Proof. destruct l as [|a [|b [|c l]]]; try discriminate. reflexivity. Qed.
