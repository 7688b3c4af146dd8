(** C14-C23 and C61: the signing protocol as seen by the host and the user. *)
From Coq Require Import Permutation.
From Verif Require Import Py PyLemmas Addr_model Lists_spec Lists_model Signer_model Signer_spec Signer_base Signer_inv2
  Signer_props Signer_props2 Signer_props3 Agent_model Signer_toy.

Strategy 1000 [device_events].
(** A complete session of the toy device with two inputs and four outputs, and one with two outputs. *)
Definition ev24 : list event := honest 2 4.
Definition ev22 : list event := honest 2 2.
(** what the examples below need to know about a session, in one value: the run is then evaluated once *)
Definition has_final (tr : list event) : bool := existsb (fun k => match k with KFinal => true | _ => false end) (kinds tr).
Definition dst_okb (e : dst_entry) : bool :=
  (0 <=? de_amount e) && forallb (fun x => (0 <=? x) && (x <? 256)) (spend_public_key (de_addr e) ++ view_public_key (de_addr e)) &&
  match de_original e with Some l => forallb (fun x => (0 <=? x) && (x <? 256)) l | None => true end.
Definition is_mallout (m : msg) : bool := match m with MAllOut => true | _ => false end.
Definition is_offloaded (r : resp) : bool := match r with ROffloaded => true | _ => false end.
Lemma is_mallout_ok m : is_mallout m = true -> m = MAllOut. Proof. destruct m; try discriminate; reflexivity. Qed.
Lemma is_offloaded_ok r : is_offloaded r = true -> r = ROffloaded. Proof. destruct r; try discriminate; reflexivity. Qed.
Definition facts (ev : list event) :=
  (session_check ev, has_final (ev_tr ev), perms (ev_tr ev), length (signs (ev_tr ev)), (in_amounts (ev_tr ev), out_amounts (ev_tr ev)),
   map (fun x => snd (fst (fst x))) (allouts (ev_tr ev)),
   match nth_error (outputs (ev_tr ev)) 2 with Some o => dst_okb (oa_dst o) | None => false end,
   forallb (fun a => (0 <=? rnd (ia_tape a) 0) && (rnd (ia_tape a) 0 <? ell)) (inputs (ev_tr ev)),
   (is_offloaded (snd (ev_nth 10 (ev_tr ev))), is_mallout (snd (fst (ev_nth 11 (ev_tr ev)))), kind_of (snd (ev_nth 11 (ev_tr ev))), length (ev_tr ev)),
   map (fun o => match oa_rsig o with Some _ => true | None => false end) (outputs (ev_tr ev)), length (rsigs (ev_tr ev))).
Lemma facts24 : facts ev24 = (true, true, [[0; 1]], 2%nat, ([100; 100], [10; 10; 10; 10]), [160], true, true, (true, true, [KAllOut], 15%nat), [false; false; false; false], 0%nat).
Proof. vm_compute. reflexivity. Qed.
Lemma facts22 : facts ev22 = (true, true, [[0; 1]], 2%nat, ([100; 100], [10; 10]), [180], false, true, (false, false, [KFinal], 12%nat), [false; true], 1%nat).
Proof. vm_compute. reflexivity. Qed.
Lemma facts_inv ev f1 f2 f3 f4 f5 f6 f7 f8 f9 f10 f11 f12 f13 f14 f15 : facts ev = (f1, f2, f3, f4, (f5, f6), f7, f8, f9, (f10, f11, f12, f13), f14, f15) ->
  session_check ev = f1 /\ has_final (ev_tr ev) = f2 /\ perms (ev_tr ev) = f3 /\ length (signs (ev_tr ev)) = f4 /\ in_amounts (ev_tr ev) = f5 /\ out_amounts (ev_tr ev) = f6 /\
  map (fun x => snd (fst (fst x))) (allouts (ev_tr ev)) = f7 /\
  match nth_error (outputs (ev_tr ev)) 2 with Some o => dst_okb (oa_dst o) | None => false end = f8 /\
  forallb (fun a => (0 <=? rnd (ia_tape a) 0) && (rnd (ia_tape a) 0 <? ell)) (inputs (ev_tr ev)) = f9 /\
  is_offloaded (snd (ev_nth 10 (ev_tr ev))) = f10 /\ is_mallout (snd (fst (ev_nth 11 (ev_tr ev)))) = f11 /\ kind_of (snd (ev_nth 11 (ev_tr ev))) = f12 /\ length (ev_tr ev) = f13 /\
  map (fun o => match oa_rsig o with Some _ => true | None => false end) (outputs (ev_tr ev)) = f14 /\ length (rsigs (ev_tr ev)) = f15.
Proof. unfold facts. intros H. injection H as H1 H2 H3 H4 H5 H6 H7 H8 H9 H10 H11 H12 H13 H14 H15. do 14 (split; [assumption|]). assumption. Qed.
Ltac open_facts H := destruct (facts_inv _ _ _ _ _ _ _ _ _ _ _ _ _ _ _ _ H) as (F1 & F2 & F3 & F4 & F5 & F6 & F7 & F8 & F9 & F10 & F11 & F12 & F13 & F14 & F15).
Lemma ev24_check : session_check ev24 = true. Proof. (open_facts facts24; exact F1). Qed.
Lemma ev22_check : session_check ev22 = true. Proof. (open_facts facts22; exact F1). Qed.
Lemma ev24_final : In KFinal (kinds (ev_tr ev24)). Proof. apply final_in. change (has_final (ev_tr ev24) = true). (open_facts facts24; exact F2). Qed.
Lemma in_allouts_fee (l : list (list Z * list Z * Z * Z * list Z)) f : map (fun x => snd (fst (fst x))) l = [f] -> exists ex ph ty fm, In (ex, ph, f, ty, fm) l.
Proof. destruct l as [|[[[[ex ph] fee] ty] fm] [|]]; try discriminate. intros [= <-]. exists ex, ph, ty, fm. left. reflexivity. Qed.
Notation S24 := (session toy_ops toy_creds (ev_t0 ev24) (ev_d ev24) (ev_r0 ev24) (ev_tr ev24)).
Notation S22 := (session toy_ops toy_creds (ev_t0 ev22) (ev_d ev22) (ev_r0 ev22) (ev_tr ev22)).
Lemma ev24_session : S24. Proof. exact (checked_session (toy_msgs (toy_tx 2 4 1 10)) ev24 eq_refl ev24_check). Qed.
Lemma ev22_session : S22. Proof. exact (checked_session (toy_msgs (toy_tx 2 2 1 10)) ev22 eq_refl ev22_check). Qed.

(** ** C14 *)
(** For a grouping of positive sizes every output lies in exactly one batch, the one the device computes,
    and the device takes it for the last one of the batch exactly when the batch is full. *)
Theorem C14_device_batches (grp : list Z) (i : Z) : Forall (fun g => 0 < g) grp -> 0 <= i < zsum grp ->
  exists k last, get_rsig_batch grp i = Ok (Z.of_nat k) /\ is_last_in_batch grp i (Z.of_nat k) = Ok last /\ (k < length grp)%nat /\
    zsum (firstn k grp) <= i < zsum (firstn (S k) grp) /\ (last = true <-> i + 1 = zsum (firstn (S k) grp)) /\
    forall k', (k' < length grp)%nat -> zsum (firstn k' grp) <= i < zsum (firstn (S k') grp) -> k' = k.
Proof. exact (batch_partition grp i). Qed.
(** In a session without offloading the device returns a range proof exactly with the outputs at which
    a running sum of the announced batch sizes is reached. *)
Theorem C14_proof_positions (C : ops) (cr : creds C) t0 d r0 tr i o :
  session C cr t0 d r0 tr -> td_rsig_type d <= 0 \/ zlen (td_outputs d) <= 2 ->
  Forall (fun g => 0 < g) (td_grouping d) -> nth_error (outputs tr) i = Some o ->
  (oa_rsig o <> None <-> exists k, (k <= length (td_grouping d))%nat /\ Z.of_nat i + 1 = zsum (firstn k (td_grouping d))).
Proof. exact (session_batches cr t0 d r0 tr i o). Qed.
(** After the last output no batch is open. *)
Theorem C14_closed_at_end (grp : list Z) : Forall (fun g => 0 < g) grp -> 0 < zsum grp ->
  exists k, get_rsig_batch grp (zsum grp - 1) = Ok k /\ is_last_in_batch grp (zsum grp - 1) k = Ok true.
Proof. exact (last_of_end grp). Qed.
Example C14_ex : map (fun i => get_rsig_batch [4; 2; 1] i) [0; 3; 4; 5; 6] = map Ok [0; 0; 1; 1; 2] /\
  is_last_in_batch [4; 2; 1] 5 1 = Ok true /\ is_last_in_batch [4; 2; 1] 4 1 = Ok false /\
  S22 /\ zlen (td_outputs (ev_d ev22)) = 2 /\ td_grouping (ev_d ev22) = [2] /\
  map (fun o => match oa_rsig o with Some _ => true | None => false end) (outputs (ev_tr ev22)) = [false; true].
Proof. split; [vm_compute; reflexivity|]. split; [vm_compute; reflexivity|]. split; [vm_compute; reflexivity|]. split; [exact ev22_session|]. split; [vm_compute; reflexivity|]. split; [vm_compute; reflexivity|]. (open_facts facts22; exact F14). Qed.

(** ** C15 *)
(** In every history of a device, a message that is not answered with an error belongs to a session opened by
    a confirmed init message, and the accepted messages of that session follow the protocol. *)
Theorem C15_order (C : ops) (cr : creds C) (H : list event) t m r :
  history C cr (H ++ [(t, m, r)]) -> ~ is_init m -> r <> RFailure ->
  exists H1 t0 d r0 tr, H = H1 ++ (t0, MInit d, r0) :: tr /\ session C cr t0 d r0 (tr ++ [(t, m, r)]) /\
    order_ok (Z.to_nat (td_num_inputs d)) (length (td_outputs d)) (KInit :: kinds (tr ++ [(t, m, r)])).
Proof.
  intros Hh Hm Hr. destruct (history_session _ _ _ _ _ Hh Hm Hr) as (H1 & t0 & d & r0 & tr & E & _ & Hs).
  exists H1, t0, d, r0, tr. split; [exact E|]. split; [exact Hs|]. exact (proj1 (session_order _ _ _ _ _ Hs)).
Qed.
(** A session that reached the final acknowledgement has run through the whole protocol. *)
Theorem C15_complete (C : ops) (cr : creds C) t0 d r0 tr : session C cr t0 d r0 tr -> In KFinal (kinds tr) ->
  KInit :: kinds tr = protocol (Z.to_nat (td_num_inputs d)) (Z.to_nat (td_num_inputs d)) (length (td_outputs d)).
Proof. intros H. exact (proj2 (session_order _ _ _ _ _ H)). Qed.
Example C15_ex : S24 /\ In KFinal (kinds (ev_tr ev24)) /\ (td_num_inputs (ev_d ev24), length (td_outputs (ev_d ev24))) = (2, 4%nat).
Proof. split; [exact ev24_session|]. split; [exact ev24_final|vm_compute; reflexivity]. Qed.
(** Not every message out of order is refused: with two or more inputs and an announced offloaded range proof
    the device acknowledges a set-output message without output right after the inputs. *)
Theorem C15_offloaded_refuted : exists (C : ops) (cr : creds C) t0 d r0 tr t m, session C cr t0 d r0 (tr ++ [(t, m, ROffloaded)]) /\
  kinds tr = [KInput; KInput] /\ td_num_inputs d = 2.
Proof.
  exists toy_ops, toy_creds. remember (device_events early_msgs) as ev eqn:Eev. 
  assert (F : (session_check ev, kinds (removelast (ev_tr ev)), td_num_inputs (ev_d ev), is_offloaded (snd (ev_last (ev_tr ev)))) = (true, [KInput; KInput], 2, true)) by (rewrite Eev; vm_compute; reflexivity).
  injection F as H HK HN HO. apply is_offloaded_ok in HO. pose proof (checked_session _ _ Eev H) as HS.
  exists (ev_t0 ev), (ev_d ev), (ev_r0 ev), (removelast (ev_tr ev)), (fst (fst (ev_last (ev_tr ev)))), (snd (fst (ev_last (ev_tr ev)))).
  split; [|split; [exact HK|exact HN]].
  rewrite <- HO, <- ev_split; [exact HS|]. intros X. rewrite X in HO. discriminate.
Qed.

(** ** C16 *)
(** After an error every further message up to the next init message is answered with an error. *)
Theorem C16_error_ends_session (C : ops) (cr : creds C) (H : list event) t m tr :
  history C cr (H ++ (t, m, RFailure) :: tr) -> Forall (fun e => ~ is_init (snd (fst e))) tr ->
  Forall (fun e => snd e = RFailure) tr.
Proof. exact (failure_ends cr H t m tr). Qed.
(** an interrupted session: permutation message of wrong length, then the rest of the honest messages *)
Example C16_ex : exists H t m tr, history toy_ops toy_creds (H ++ (t, m, RFailure) :: tr) /\
  Forall (fun e => ~ is_init (snd (fst e))) tr /\ length H = 3%nat /\ length tr = 13%nat.
Proof.
  pose (ms := toy_msgs (toy_tx 2 4 1 10)). pose (bad := firstn 3 ms ++ (toy_tape 0, MAllIn) :: skipn 3 ms).
  pose proof (device_history bad) as Hh. remember (device_events bad) as ev eqn:Eev.
  exists (firstn 3 ev), (fst (fst (ev_nth 3 ev))), (snd (fst (ev_nth 3 ev))), (skipn 4 ev).
  assert (F : (okb (snd (ev_nth 3 ev)), length ev, forallb (fun e => negb (initb (snd (fst e)))) (skipn 4 ev)) = (false, 17%nat, true)) by (rewrite Eev; vm_compute; reflexivity).
  injection F as E L N. assert (E' : snd (ev_nth 3 ev) = RFailure) by (destruct (snd (ev_nth 3 ev)); try discriminate E; reflexivity). clear E. rename E' into E.
  split; [rewrite <- E, <- (ev_split_nth ev 3) by lia; exact Hh|]. split; [|split; rewrite ?firstn_length, ?skipn_length, L; reflexivity].
  rewrite forallb_forall in N. apply Forall_forall. intros [[t m] r] Hin Hi. specialize (N _ Hin). destruct m; try contradiction. discriminate.
Qed.

(** ** C17 *)
(** A signature is only ever released in a session whose init message, with its destinations and fee, the user confirmed. *)
Theorem C17_confirmed (C : ops) (cr : creds C) (H : list event) t m sg po :
  history C cr (H ++ [(t, m, RSign sg po)]) ->
  exists H1 t0 d r0 tr, H = H1 ++ (t0, MInit d, r0) :: tr /\ answer t0 = true /\ session C cr t0 d r0 (tr ++ [(t, m, RSign sg po)]).
Proof.
  intros Hh. assert (~ is_init m) as Hm; [|apply (history_session _ _ _ _ _ Hh Hm); discriminate].
  exact (sign_not_init _ _ _ _ _ _ Hh).
Qed.
Example C17_ex : exists H t m sg po, history toy_ops toy_creds (H ++ [(t, m, RSign sg po)]) /\ length H = 13%nat.
Proof.
  pose (ms := firstn 14 (toy_msgs (toy_tx 2 4 1 10))). pose proof (device_history ms) as Hh. remember (device_events ms) as ev eqn:Eev.
  assert (F : (match snd (ev_last ev) with RSign _ _ => true | _ => false end, length (removelast ev)) = (true, 13%nat)) by (rewrite Eev; vm_compute; reflexivity).
  injection F as F1 F2. assert (E : exists sg po, snd (ev_last ev) = RSign sg po) by (destruct (snd (ev_last ev)); try discriminate F1; eauto).
  destruct E as (sg & po & E). exists (removelast ev), (fst (fst (ev_last ev))), (snd (fst (ev_last ev))), sg, po.
  split; [|exact F2]. rewrite <- E, <- ev_split; [exact Hh|]. intros X. rewrite X in E. discriminate.
Qed.

(** ** C18 *)
Theorem C18_balance (C : ops) (cr : creds C) t0 d r0 tr ex ph fee ty fm :
  session C cr t0 d r0 tr -> In (ex, ph, fee, ty, fm) (allouts tr) ->
  zsum (in_amounts tr) = zsum (out_amounts tr) + fee /\ fee = td_fee d /\ 0 <= fee /\
  Z.of_nat (length (inputs tr)) = td_num_inputs d /\ length (outputs tr) = length (td_outputs d).
Proof. exact (session_balance cr t0 d r0 tr ex ph fee ty fm). Qed.
Theorem C18_before_signing (C : ops) (cr : creds C) t0 d r0 tr : session C cr t0 d r0 tr -> signs tr <> [] -> allouts tr <> [].
Proof. intros H. apply session_sess in H. destruct H as (b & H). exact (signs_need_allout _ _ _ _ _ _ H). Qed.
Example C18_ex : S24 /\ length (signs (ev_tr ev24)) = 2%nat /\ (exists ex ph ty fm, In (ex, ph, 160, ty, fm) (allouts (ev_tr ev24))) /\
  in_amounts (ev_tr ev24) = [100; 100] /\ out_amounts (ev_tr ev24) = [10; 10; 10; 10].
Proof.
  split; [exact ev24_session|]. split; [(open_facts facts24; exact F4)|]. split; [apply in_allouts_fee; (open_facts facts24; exact F7)|]. split; open_facts facts24; [exact F5|exact F6].
Qed.

(** ** C19 *)
Theorem C19_outputs_are_confirmed (C : ops) (cr : creds C) t0 d r0 tr i o :
  session C cr t0 d r0 tr -> Forall dst_ok (td_outputs d) -> dst_ok (oa_dst o) -> nth_error (outputs tr) i = Some o ->
  exists c extra e, init_params C t0 cr d = Ok (c, extra) /\ nth_error (td_outputs d) i = Some e /\
    ((oa_dst o = e /\ pays C c (Z.of_nat i) e o) \/ forgery C c d tr).
Proof. exact (session_dest cr t0 d r0 tr i o). Qed.
Lemma dst_okb_ok e : dst_okb e = true -> dst_ok e.
Proof.
  unfold dst_okb, dst_ok, bytes_ok, byte_ok. rewrite forallb_app, !andb_true_iff, !forallb_forall, !Forall_forall. intros ((H1 & H2 & H3) & H4).
  split; [lia|]. split; [intros x Hx; specialize (H2 _ Hx); lia|]. split; [intros x Hx; specialize (H3 _ Hx); lia|].
  destruct (de_original e); [|exact I]. rewrite Forall_forall. rewrite forallb_forall in H4. intros x Hx. specialize (H4 _ Hx). lia.
Qed.
Example C19_ex : S24 /\ Forall dst_ok (td_outputs (ev_d ev24)) /\ exists o, nth_error (outputs (ev_tr ev24)) 2 = Some o /\ dst_ok (oa_dst o).
Proof.
  split; [exact ev24_session|]. split.
  - assert (H : forallb dst_okb (td_outputs (ev_d ev24)) = true) by (vm_compute; reflexivity). revert H. generalize (td_outputs (ev_d ev24)). intros l H. rewrite forallb_forall in H. apply Forall_forall. intros x Hx. apply dst_okb_ok. exact (H x Hx).
  - assert (H : match nth_error (outputs (ev_tr ev24)) 2 with Some o => dst_okb (oa_dst o) | None => false end = true) by (open_facts facts24; exact F8).
    revert H. generalize (nth_error (outputs (ev_tr ev24)) 2). intros [o|] H; [|discriminate]. exists o. split; [reflexivity|]. now apply dst_okb_ok.
Qed.

(** ** C20 *)
(** If the announced order is a permutation, the inputs hashed into the prefix and the inputs signed are, in one
    common order, the accounted inputs, each once - or a primitive was broken. *)
Theorem C20_inputs_once_partial (C : ops) (cr : creds C) t0 d r0 tr p :
  session C cr t0 d r0 tr -> In KFinal (kinds tr) -> perms tr = [p] -> Permutation p (zrange (td_num_inputs d)) ->
  exists c extra, init_params C t0 cr d = Ok (c, extra) /\
  ((exists ins, Permutation ins (inputs tr) /\ Forall2 (fun v a => same_input (fst (fst v)) (snd (fst v)) a) (vinis tr) ins /\
                Forall2 (fun s a => same_input (sa_src s) (sa_vini s) a) (signs tr) ins) \/ forgery C c d tr).
Proof. exact (session_inputs cr t0 d r0 tr p). Qed.
Lemma ev24_perm : exists p, perms (ev_tr ev24) = [p] /\ Permutation p (zrange (td_num_inputs (ev_d ev24))).
Proof.
  assert (H : perms (ev_tr ev24) = [[0; 1]]) by (open_facts facts24; exact F3).
  rewrite H. eexists. split; [reflexivity|]. assert (N : td_num_inputs (ev_d ev24) = 2) by (vm_compute; reflexivity). rewrite N. apply Permutation_refl.
Qed.
Example C20_ex : S24 /\ In KFinal (kinds (ev_tr ev24)) /\ exists p, perms (ev_tr ev24) = [p] /\ Permutation p (zrange (td_num_inputs (ev_d ev24))).
Proof. split; [exact ev24_session|]. split; [exact ev24_final|exact ev24_perm]. Qed.
Fixpoint zll_eqb (a b : list (list Z)) : bool :=
  match a, b with [], [] => true | x :: a, y :: b => zlist_eqb x y && zll_eqb a b | _, _ => false end.
Lemma zll_eqb_ok : forall a b, zll_eqb a b = true -> a = b.
Proof.
  induction a as [|x a IH]; intros [|y b] H; try reflexivity; try discriminate H. cbn [zll_eqb] in H. apply andb_prop in H. destruct H as [H1 H2].
  apply zlist_eqb_spec in H1. subst y. f_equal. exact (IH b H2).
Qed.
(** The device does not check the order: a session can finish with two different inputs accounted for and
    one of them, with the device's own tags, hashed and signed twice. *)
Theorem C20_double_signing_refuted : exists (C : ops) (cr : creds C) t0 d r0 tr a b,
  session C cr t0 d r0 tr /\ In KFinal (kinds tr) /\ inputs tr = [a; b] /\ ia_vini a <> ia_vini b /\
  map sa_vini (signs tr) = [ia_vini b; ia_vini b] /\ map (fun v => snd (fst v)) (vinis tr) = [ia_vini b; ia_vini b] /\
  map sa_tag (signs tr) = [ia_tag b; ia_tag b].
Proof.
  exists toy_ops, toy_creds. remember (device_events twice_msgs) as ev eqn:Eev.
  pose (dummy := {| ia_src := toy_src 0 0; ia_tape := toy_tape 0; ia_vini := []; ia_tag := []; ia_pseudo := []; ia_pseudo_tag := []; ia_alpha_ct := []; ia_spend_ct := [] |}).
  pose (a := nth 0 (inputs (ev_tr ev)) dummy). pose (b := nth 1 (inputs (ev_tr ev)) dummy).
  assert (F : (session_check ev, has_final (ev_tr ev), length (inputs (ev_tr ev)), zlist_eqb (ia_vini a) (ia_vini b),
    zll_eqb (map sa_vini (signs (ev_tr ev))) [ia_vini b; ia_vini b], zll_eqb (map (fun v => snd (fst v)) (vinis (ev_tr ev))) [ia_vini b; ia_vini b],
    zll_eqb (map sa_tag (signs (ev_tr ev))) [ia_tag b; ia_tag b]) = (true, true, 2%nat, false, true, true, true)) by (subst a b; rewrite Eev; vm_compute; reflexivity).
  injection F as H HF HL HV H1 H2 H3. pose proof (checked_session _ _ Eev H) as HS.
  exists (ev_t0 ev), (ev_d ev), (ev_r0 ev), (ev_tr ev), a, b. split; [exact HS|]. split; [exact (final_in _ HF)|]. split; [exact (list2 _ _ HL)|].
  split; [intros X; rewrite X, zlist_eqb_refl in HV; discriminate HV|]. split; [exact (zll_eqb_ok _ _ H1)|]. split; [exact (zll_eqb_ok _ _ H2)|exact (zll_eqb_ok _ _ H3)].
Qed.

(** ** C21 *)
(** Masks and amounts of the pseudo outputs and outputs. *)
Theorem C21_commitments_partial (C : ops) (cr : creds C) t0 d r0 tr p : codec_laws C ->
  session C cr t0 d r0 tr -> In KFinal (kinds tr) -> perms tr = [p] -> Permutation p (zrange (td_num_inputs d)) ->
  Forall (fun a => 0 <= rnd (ia_tape a) 0 < ell) (inputs tr) ->
  exists c extra, init_params C t0 cr d = Ok (c, extra) /\
  ((exists ins a m, Permutation ins (inputs tr) /\ Forall2 (fun s i => same_input (sa_src s) (sa_vini s) i) (signs tr) ins /\
      commitments_balance C tr (map (fun i => se_amount (ia_src i)) ins) a m) \/ forgery C c d tr).
Proof. exact (session_commitments cr t0 d r0 tr p). Qed.
(** The equation checked by a verifier: pseudo outputs sum up to the output commitments plus the fee. *)
Theorem C21_equation_partial (C : ops) (cr : creds C) t0 d r0 tr p (add : pt C -> pt C -> pt C) : codec_laws C ->
  (forall a b x y, gen_c C (a + b) (x + y) = add (gen_c C a x) (gen_c C b y)) -> (forall a x, gen_c C (a mod ell) x = gen_c C a x) ->
  session C cr t0 d r0 tr -> In KFinal (kinds tr) -> perms tr = [p] ->
  Permutation p (zrange (td_num_inputs d)) -> Forall (fun a => 0 <= rnd (ia_tape a) 0 < ell) (inputs tr) ->
  exists c extra, init_params C t0 cr d = Ok (c, extra) /\
  ((exists Ps Qs, map sa_pseudo_out (signs tr) = map (enc_pt C) Ps /\ map (fun o => skipn 32 (oa_out_pk o)) (outputs tr) = map (enc_pt C) Qs /\
      psum add (gen_c C 0 0) Ps = add (psum add (gen_c C 0 0) Qs) (gen_c C 0 (td_fee d))) \/ forgery C c d tr).
Proof. exact (session_equation cr t0 d r0 tr p add). Qed.
Example C21_ex : codec_laws toy_ops /\ (forall a b x y, gen_c toy_ops (a + b) (x + y) = (gen_c toy_ops a x + gen_c toy_ops b y) mod ell) /\
  (forall a x, gen_c toy_ops (a mod ell) x = gen_c toy_ops a x) /\ S24 /\ In KFinal (kinds (ev_tr ev24)) /\
  (exists p, perms (ev_tr ev24) = [p] /\ Permutation p (zrange (td_num_inputs (ev_d ev24)))) /\
  Forall (fun a => 0 <= rnd (ia_tape a) 0 < ell) (inputs (ev_tr ev24)).
Proof.
  split; [exact toy_laws|]. split.
  { intros a b x y. change ((a + b + 5 * (x + y)) mod ell = (((a + 5 * x) mod ell) + ((b + 5 * y) mod ell)) mod ell). rewrite <- Zplus_mod. f_equal. lia. }
  split. { intros a x. change ((a mod ell + 5 * x) mod ell = (a + 5 * x) mod ell). apply Zplus_mod_idemp_l. }
  split; [exact ev24_session|]. split; [exact ev24_final|]. split; [exact ev24_perm|].
  assert (H : forallb (fun a => (0 <=? rnd (ia_tape a) 0) && (rnd (ia_tape a) 0 <? ell)) (inputs (ev_tr ev24)) = true) by (open_facts facts24; exact F9).
  revert H. generalize (inputs (ev_tr ev24)). intros l H. rewrite forallb_forall in H. apply Forall_forall. intros a Ha. specialize (H _ Ha). lia.
Qed.

(** ** C22 *)
(** An output the device takes for the change, and does not show, goes to the wallet's own address for the account. *)
Theorem C22_change_is_own (C : ops) (cr : creds C) t0 d r0 tr o : session C cr t0 d r0 tr -> In o (td_outputs d) -> is_change d o ->
  exists a, td_account d = Some a /\
    de_addr o = {| spend_public_key := enc_pt C (fst (sub_addr_keys C (view_priv C cr) (spend_pub C cr) a 0));
                   view_public_key := enc_pt C (snd (sub_addr_keys C (view_priv C cr) (spend_pub C cr) a 0)) |}.
Proof. exact (session_change cr t0 d r0 tr o). Qed.
Example C22_ex : S24 /\ In (toy_dst 10 toy_addr) (td_outputs (ev_d ev24)) /\ is_change (ev_d ev24) (toy_dst 10 toy_addr).
Proof.
  split; [exact ev24_session|]. split; [vm_compute; auto 10|]. exists (toy_dst 10 toy_addr). split; [vm_compute; reflexivity|].
  split; [reflexivity|]. split; [reflexivity|discriminate].
Qed.

(** ** C23 *)
(** With a grouping into positive batches that covers the outputs, and if a required offloaded proof was sent as the
    last message before the outputs were closed, every output is covered by a proof made or verified by the device. *)
Theorem C23_range_proved_partial (C : ops) (cr : creds C) t0 d r0 tr1 t ex ph fee ty fm tr2 : codec_laws C ->
  session C cr t0 d r0 (tr1 ++ (t, MAllOut, RAllOut ex ph fee ty fm) :: tr2) ->
  Forall (fun g => 0 < g) (td_grouping d) -> zsum (td_grouping d) = zlen (td_outputs d) ->
  (exists c extra, init_params C t0 cr d = Ok (c, extra) /\
     (c_rsig_offload C c && is_det_mask C c = true -> exists tr0 t m, tr1 = tr0 ++ [(t, m, ROffloaded)])) ->
  exists B, all_proved C tr1 B.
Proof. exact (session_proved cr t0 d r0 tr1 t ex ph fee ty fm tr2). Qed.
Example C23_ex : S24 /\ td_grouping (ev_d ev24) = [4] /\ zlen (td_outputs (ev_d ev24)) = 4 /\
  exists tr0 t m t' r tr2, ev_tr ev24 = (tr0 ++ [(t, m, ROffloaded)]) ++ (t', MAllOut, r) :: tr2 /\ kind_of r = [KAllOut].
Proof.
  split; [exact ev24_session|]. split; [vm_compute; reflexivity|]. split; [vm_compute; reflexivity|].
  assert (E1 : snd (ev_nth 10 (ev_tr ev24)) = ROffloaded) by (apply is_offloaded_ok; (open_facts facts24; exact F10)).
  assert (E2 : snd (fst (ev_nth 11 (ev_tr ev24))) = MAllOut) by (apply is_mallout_ok; (open_facts facts24; exact F11)).
  assert (E3 : kind_of (snd (ev_nth 11 (ev_tr ev24))) = [KAllOut]) by (open_facts facts24; exact F12).
  assert (L : length (ev_tr ev24) = 15%nat) by (open_facts facts24; exact F13). revert E1 E2 E3 L. generalize (ev_tr ev24). intros l E1 E2 E3 L.
  exists (firstn 10 l), (fst (fst (ev_nth 10 l))), (snd (fst (ev_nth 10 l))), (fst (fst (ev_nth 11 l))), (snd (ev_nth 11 l)), (skipn 12 l).
  split; [|exact E3]. rewrite <- E1, <- E2, <- app_assoc. cbn [app].
  assert (X : skipn 11 l = (fst (fst (ev_nth 11 l)), snd (fst (ev_nth 11 l)), snd (ev_nth 11 l)) :: skipn 12 l).
  { apply (app_inv_head (firstn 11 l)). rewrite <- (ev_split_nth l 11) by lia. apply firstn_skipn. }
  rewrite <- X. apply (ev_split_nth l 10). lia.
Qed.
(** The device does not check that the proof of the last batch was sent: it can be made to sign a transaction for which
    no range proof was made or verified. *)
Theorem C23_skipped_proof_refuted : exists (C : ops) (cr : creds C) t0 d r0 tr, session C cr t0 d r0 tr /\
  Forall (fun g => 0 < g) (td_grouping d) /\ zsum (td_grouping d) = zlen (td_outputs d) /\
  length (outputs tr) = 4%nat /\ length (signs tr) = 2%nat /\ forall amounts masks p, ~ proof_for C tr amounts masks p.
Proof.
  exists toy_ops, toy_creds. remember (device_events noproof_msgs) as ev eqn:Eev.
  assert (F : (session_check ev, length (outputs (ev_tr ev)), length (signs (ev_tr ev)),
    forallb (fun e => match e with (_, MSetOutput _ _ (Some _) _, _) => false | (_, _, RSetOutput _ _ (Some _) _ _ _) => false | _ => true end) (ev_tr ev)) = (true, 4%nat, 2%nat, true))
    by (rewrite Eev; vm_compute; reflexivity).
  injection F as H HO HI N. pose proof (checked_session _ _ Eev H) as HS.
  exists (ev_t0 ev), (ev_d ev), (ev_r0 ev), (ev_tr ev). split; [exact HS|].
  split; [rewrite Eev; vm_compute; repeat constructor|]. split; [rewrite Eev; vm_compute; reflexivity|]. split; [exact HO|]. split; [exact HI|].
  revert N. generalize (ev_tr ev). intros l N. rewrite forallb_forall in N. intros amounts masks p (t & dst & tg & rsig & offl & r & Hin & Hc). specialize (N _ Hin). cbn in N.
  destruct rsig; [discriminate|]. destruct Hc as [(bytes & o & vt & mo & pk & ec & _ & _ & ->)|(bytes & X & _)]; discriminate.
Qed.

(** ** C61 *)
(** What is signed is the hash of exactly the transaction described by the session: its unlock time, the serialised inputs,
    the outputs, the extra field, type, fee, encrypted amounts, commitments and range proofs, all as in the messages and answers. *)
Theorem C61_signed_message (C : ops) (cr : creds C) t0 d r0 tr ex ph fee ty fm : codec_laws C ->
  session C cr t0 d r0 tr -> In (ex, ph, fee, ty, fm) (allouts tr) ->
  exists blob f B,
    prefix_blob (td_unlock_time d) (map (fun x => snd (fst x)) (vinis tr)) (map oa_tx_out (outputs tr)) ex = Ok blob /\ ph = cn_hash C blob /\
    fee = td_fee d /\ uvarint fee = Ok f /\
    fm = cn_hash C (ph ++ cn_hash C ([ty] ++ f ++ concat (map oa_ecdh (outputs tr)) ++ concat (map (fun o => skipn 32 (oa_out_pk o)) (outputs tr))) ++
                    cn_hash C (concat (map (fun x => bp_bytes C (snd x)) B))) /\
    Forall (fun x => proof_for C tr (fst (fst x)) (snd (fst x)) (snd x)) B /\
    (td_rsig_type d = 0 \/ zlen (td_outputs d) <= 2 -> Forall2 (fun x bs => dump_rsig_bp C (snd x) = Ok bs) B (rsigs tr)) /\
    forall s, In s (signs tr) -> exists x m a pc sd,
      mlsag_sign C fm (se_outputs (sa_src s)) x m a pc (se_real_output (sa_src s)) sd = Ok (sa_sig s) /\ sa_pseudo_out s = enc_pt C pc.
Proof. exact (session_message cr t0 d r0 tr ex ph fee ty fm). Qed.
Example C61_ex : codec_laws toy_ops /\ S22 /\ (exists ex ph fee ty fm, In (ex, ph, fee, ty, fm) (allouts (ev_tr ev22))) /\
  length (signs (ev_tr ev22)) = 2%nat /\ length (rsigs (ev_tr ev22)) = 1%nat.
Proof. split; [exact toy_laws|]. split; [exact ev22_session|]. split; [|split; open_facts facts22; [exact F4|exact F15]].
  destruct (in_allouts_fee (allouts (ev_tr ev22)) 180) as (ex & ph & ty & fm & H); [(open_facts facts22; exact F7)|]. exists ex, ph, 180, ty, fm. exact H.
Qed.

Print Assumptions C14_device_batches.
Print Assumptions C14_proof_positions.
Print Assumptions C15_order.
Print Assumptions C15_complete.
Print Assumptions C15_offloaded_refuted.
Print Assumptions C16_error_ends_session.
Print Assumptions C17_confirmed.
Print Assumptions C18_balance.
Print Assumptions C19_outputs_are_confirmed.
Print Assumptions C20_inputs_once_partial.
Print Assumptions C20_double_signing_refuted.
Print Assumptions C21_equation_partial.
Print Assumptions C22_change_is_own.
Print Assumptions C23_range_proved_partial.
Print Assumptions C23_skipped_proof_refuted.
Print Assumptions C61_signed_message.
