(** What the builder hands to the agent is a request the agent signs. *)
From Verif Require Import Py PyLemmas Digits Addr_model Lists_model Signer_model Signer_spec Agent_model Complete_spec Complete_proof1 Addr_spec Addr_proof Ints_model Protobuf_spec Ec_model Ec_spec Ec_proof Rsig_model Mlsag_model Mlsag_spec Sigs_spec Sigs_proof KeySep_proof Clsag_proof Mlsag_proof Wallet_model Wallet_spec Wallet_proof Real_model Request_spec Builder_model Builder_spec Builder_proof Builder_proof2.
Ltac Zify.zify_post_hook ::= idtac.

Section Proof.
Context (E : ecops) (L : ec_laws E).
Hypothesis Hlen : forall P, length (encp E P) = 32%nat.
Hypothesis HBy : forall P, bytes_ok (encp E P).
Hypothesis HH : hash_bytes E.
Hypothesis NG : Gb E <> pid E.
Context (a b account fee ring : Z) (n : network).
Hypothesis Ha : nz_scalar a.
Hypothesis Hb : nz_scalar b.
Hypothesis Hacc : u32 account.

(** inputs to (account, account), outputs with view keys that are not zero *)
Definition usual (c : call E) : Prop :=
  match c with
  | Input _ v major m _ _ => match major with Some M => M | None => account end = account /\ m = account
  | Output _ v dest M m pid => encp E (sub_C E (cr_view E dest) (cr_spend E dest) M m) <> repeat 0 32
  | Change _ _ => False
  end.
Definition in_ok (x : Z * Z * Z) : Prop := snd (fst x) = account /\ snd x = account.
Definition out_ok (x : Z * (Z * Z) * (Z * Z) * option (list Z)) : Prop :=
  let '(v, w, i, _) := x in 0 <= v < 2 ^ 64 /\ encp E (sub_C E (fst w) (snd w) (fst i) (snd i)) <> repeat 0 32.
Lemma plan_usual cs : forall p p', Forall (sensible E a b account ring) cs -> Forall usual cs -> fold_left (planned E a b account fee) cs (Some p) = Some p' ->
  Forall in_ok (pl_in p) -> Forall out_ok (pl_out p) ->
  Forall in_ok (pl_in p') /\ Forall out_ok (pl_out p') /\
  zlen (pl_in p') <= zlen (pl_in p) + zlen cs /\ zlen (pl_out p') <= zlen (pl_out p) + zlen cs /\
  (forall x, In x (pl_in p) -> In x (pl_in p')) /\ (forall x, In x (pl_out p) -> In x (pl_out p')) /\
  (forall v major m ad d, In (Input E v major m ad d) cs -> pl_in p' <> []) /\
  (forall v dest M m pid, In (Output E v dest M m pid) cs -> In (v, (cr_view E dest, cr_spend E dest), (M, m), pid) (pl_out p')).
Proof.
  induction cs as [|c cs IH]; intros p p' F U H I O.
  - cbn [fold_left] in H. assert (X : p = p') by congruence. subst p'. change (zlen (@nil (call E))) with 0. split; [exact I|]. split; [exact O|]. split; [lia|]. split; [lia|]. split; [auto|]. split; [auto|]. split; intros ? ? ? ? ? [].
  - inversion F as [|? ? Fc F']; subst. inversion U as [|? ? Uc U']; subst. cbn [fold_left] in H.
    destruct c as [v major m ad d|v dest M m pid|v]; cbn [planned usual sensible] in *; [| |destruct Uc].
    + destruct (IH _ p' F' U' H) as (A1 & A2 & A3 & A4 & A5 & A6 & A7 & A8); cbn [pl_in pl_out] in *.
      { apply Forall_app. split; [exact I|]. constructor; [exact Uc|constructor]. }
      { exact O. }
      rewrite zlen_app in A3. rewrite zlen_cons. change (zlen [(v, _, m)]) with 1 in A3.
      split; [exact A1|]. split; [exact A2|]. split; [clear - A3; lia|]. split; [clear - A4; lia|]. split; [intros x Hx; apply A5, in_or_app; left; exact Hx|]. split; [exact A6|].
      split. { intros v1 mj1 m1 ad1 d1 _ X. rewrite X in A5. apply (A5 (v, match major with Some M => M | None => account end, m)). apply in_or_app. right. left. reflexivity. }
      intros v1 d1 M1 m1 p1 [X|X]; [discriminate X|]. exact (A8 v1 d1 M1 m1 p1 X).
    + destruct (IH _ p' F' U' H) as (A1 & A2 & A3 & A4 & A5 & A6 & A7 & A8); cbn [pl_in pl_out] in *.
      { exact I. }
      { apply Forall_app. split; [exact O|]. constructor; [|constructor]. split; [apply Fc|exact Uc]. }
      rewrite zlen_app in A4. rewrite zlen_cons. change (zlen [(v, _, (M, m), pid)]) with 1 in A4.
      split; [exact A1|]. split; [exact A2|]. split; [clear - A3; lia|]. split; [clear - A4; lia|]. split; [exact A5|]. split; [intros x Hx; apply A6, in_or_app; left; exact Hx|].
      split. { intros v1 mj1 m1 ad1 d1 [X|X]; [discriminate X|]. exact (A7 v1 mj1 m1 ad1 d1 X). }
      intros v1 d1 M1 m1 p1 [X|X]; [|exact (A8 v1 d1 M1 m1 p1 X)]. apply A6, in_or_app. right. left. injection X as -> -> -> -> ->. reflexivity.
Qed.
Lemma pair_of {A B C} (R : A -> B * C -> Prop) xs : forall (ys : list B) (zs : list C) y, length ys = length zs -> Forall2 R xs (combine ys zs) -> In y ys ->
  exists x z, In x xs /\ In z zs /\ R x (y, z).
Proof.
  induction xs as [|x xs IH]; intros [|y0 ys] [|z0 zs] y Hl H Hy; try discriminate; cbn [combine] in H; inversion H; subst; [destruct Hy|].
  destruct Hy as [->|Hy]; [exists x, z0; split; [left; reflexivity|split; [left; reflexivity|assumption]]|].
  destruct (IH ys zs y) as (x' & z' & X1 & X2 & X3); [injection Hl as Hl; exact Hl|assumption|exact Hy|]. exists x', z'. split; [right; exact X1|split; [right; exact X2|exact X3]].
Qed.
Lemma pair_of' {A B C} (R : A -> B * C -> Prop) xs : forall (ys : list B) (zs : list C) x, length ys = length zs -> Forall2 R xs (combine ys zs) -> In x xs ->
  exists y z, In y ys /\ R x (y, z).
Proof.
  induction xs as [|x0 xs IH]; intros [|y0 ys] [|z0 zs] x Hl H Hx; try discriminate; cbn [combine] in H; inversion H; subst; try (destruct Hx; fail).
  destruct Hx as [->|Hx]; [exists y0, z0; split; [left; reflexivity|assumption]|].
  destruct (IH ys zs x) as (y' & z' & X1 & X2); [injection Hl as Hl; exact Hl|assumption|exact Hx|]. exists y', z'. split; [right; exact X1|exact X2].
Qed.
Lemma pair_nth {A B C} (R : A -> B * C -> Prop) xs : forall (ys : list B) (zs : list C) x k, length ys = length zs -> Forall2 R xs (combine ys zs) -> nth_error xs k = Some x ->
  exists y z, nth_error ys k = Some y /\ R x (y, z).
Proof.
  induction xs as [|x0 xs IH]; intros [|y0 ys] [|z0 zs] x k Hl H Hx; try discriminate; cbn [combine] in H; inversion H; subst; try (destruct k; discriminate).
  destruct k as [|k]; [exists y0, z0; cbn [nth_error] in *; split; [reflexivity|]; assert (X : x0 = x) by congruence; subst; assumption|].
  cbn [nth_error] in *. apply (IH ys zs); [injection Hl as Hl; exact Hl|assumption|exact Hx].
Qed.

Context (v : env E).
Definition device : Signer_model.creds (real_ops E v) := Signer_model.Build_creds (real_ops E v) a b (smul E (Gb E) b).
Lemma build_request calls bl hf client : 2 <= ring -> 0 <= fee -> 9 <= hf -> 1 <= client ->
  Forall (sensible E a b account ring) calls -> Forall usual calls -> zlen calls < 2 ^ 40 ->
  encp E (sub_C E a b account 0) <> repeat 0 32 ->
  (exists w major m ad d, In (Input E w major m ad d) calls) ->
  (exists w dest M m pid, In (Output E w dest M m pid) calls /\ w <> 0 /\ sub_D E (cr_view E dest) (cr_spend E dest) M m <> sub_D E a b account 0) ->
  run E (fresh E (wallet E a b) account fee ring (net_code n)) (calls ++ [Change E None]) = Ok bl ->
  zsum (map se_amount (bo_sources E bl)) < 2 ^ 64 ->
  exists x, build E bl hf client = Ok x /\ request E v device x /\ tc_sources x = bo_sources E bl /\ tc_dsts x = bo_outputs E bl /\ tc_client_version x = client /\
    zsum (map se_amount (bo_sources E bl)) - zsum (map de_amount (bo_outputs E bl)) = fee.
Proof.
  intros Hring Hfee Hhf Hcl F U Hlc Hzc (w0 & mj0 & m0 & ad0 & d0 & Hin0) (w1 & dest1 & M1 & m1 & pid1 & Hout1 & Hw1 & Hd1) Hrun Hsum.
  assert (FS : Forall (sensible E a b account ring) (calls ++ [Change E None])) by (apply Forall_app; split; [exact F|constructor; [exact I|constructor]]).
  pose proof (run_ok E L Hlen HBy HH NG a b account fee ring n Ha Hb Hacc _ _ _ (inv_fresh E a b account fee ring n) FS) as R. rewrite fold_left_app in R.
  destruct (fold_left (planned E a b account fee) calls (Some {| pl_in := []; pl_out := []; pl_change := None |})) as [p0|] eqn:E0.
  2: { cbn [fold_left planned] in R. rewrite Hrun in R. discriminate R. }
  destruct (plan_usual calls _ p0 F U E0 (Forall_nil _) (Forall_nil _)) as (A1 & A2 & A3 & A4 & _ & _ & A7 & A8). cbn [pl_in pl_out] in A3, A4. specialize (A7 w0 mj0 m0 ad0 d0 Hin0). specialize (A8 w1 dest1 M1 m1 pid1 Hout1).
  cbn [fold_left planned] in R. destruct (Z.ltb_spec (total_in p0 - total_out p0 - fee) 0) as [Hneg|Hpos]; [rewrite Hrun in R; discriminate R|].
  set (ch := total_in p0 - total_out p0 - fee) in *. set (p := {| pl_in := pl_in p0; pl_out := pl_out p0 ++ [(ch, (a, b), (account, 0), None)]; pl_change := Some (length (pl_out p0)) |}) in *.
  destruct R as (bl' & R1 & R2). rewrite Hrun in R1. assert (X : bl' = bl) by congruence. subst bl'. clear R1.
  pose proof (inv_totals E a b account fee ring n p bl R2) as [T1 T2]. rewrite zsum_map_ok in T1. rewrite zsum_map_ok in T2. change Lists_spec.zsum with zsum in T1, T2.
  destruct R2 as ((L1 & L2 & F1 & L3 & L4 & F2 & S1 & C1) & G1 & G2 & R1 & R2 & R3 & R4 & R5).
  assert (Ep : total_in p = total_in p0) by reflexivity.
  assert (Eo : total_out p = total_out p0 + ch) by (unfold total_out, p; cbn [pl_out]; rewrite map_app, zsum_app; cbn [map]; unfold zsum at 2; cbn [fold_right fst]; rewrite Z.add_0_r; reflexivity).
  rewrite T1 in Hsum |- *. rewrite T2. rewrite Ep in Hsum |- *. rewrite Eo.
  assert (Out0 : 0 <= total_out p0).
  { unfold total_out. clear - A2. induction A2 as [|[[[x w] i] pid] xs Hx _ IH]; [apply Z.le_refl|]. cbn [map fst]. unfold zsum in *. cbn [fold_right]. destruct Hx as [Hx _]. lia. }
  destruct (pair_nth _ _ _ _ (ch, (a, b), (account, 0), None) (length (pl_out p0)) (eq_trans L3 (eq_sym L4)) F2) as (ce & ct & N1 & N2).
  { cbn [pl_out p]. rewrite nth_error_app2, Nat.sub_diag by apply Nat.le_refl. reflexivity. }
  cbn [fst snd] in N2. destruct N2 as (N2 & N3 & N4 & _).
  set (x := {| tc_payment_id := Some []; tc_unlock_time := 0; tc_dsts := bo_outputs E bl; tc_change := Some ce; tc_sources := bo_sources E bl;
            tc_account := Some account; tc_minor := distinct (map (fun t => fst (tr_sub t)) (bo_transfers E bl));
            tc_use_bulletproofs := true; tc_hf := hf; tc_client_version := client |}).
  assert (Hx : build E bl hf client = Ok x).
  { unfold build. rewrite C1. cbn [pl_change p option_map]. rewrite (py_get_nonneg (bo_outputs E bl) (Z.of_nat (length (pl_out p0))) ce) by (apply Nat2Z.is_nonneg || (rewrite Nat2Z.id; exact N1)). cbn [bind]. rewrite R5. reflexivity. }
  exists x. split; [exact Hx|]. split; [|split; [reflexivity|split; [reflexivity|split; [reflexivity|unfold ch; clear; lia]]]].
  assert (Sub : forall s, In s (bo_sources E bl) -> exists y t, In y (pl_in p0) /\ In t (bo_transfers E bl) /\ received E a b ring (fst (fst y)) (snd (fst y)) (snd y) s t).
  { intros s Hs. destruct (pair_of _ _ _ _ s (eq_trans L1 (eq_sym L2)) F1 Hs) as (y & t & Y1 & Y2 & Y3). exists y, t. split; [exact Y1|split; [exact Y2|exact Y3]]. }
  assert (SubT : forall t, In t (bo_transfers E bl) -> tr_sub t = (account, account)).
  { intros t Ht. assert (FT : exists y s, In y (pl_in p0) /\ received E a b ring (fst (fst y)) (snd (fst y)) (snd y) s t).
    { clear - L1 L2 F1 Ht. cbn [pl_in p] in *. revert F1 L1 L2 Ht. generalize (bo_sources E bl) (bo_transfers E bl) (pl_in p0). intros ss ts ys. revert ss ts.
      induction ys as [|y ys IH]; intros [|s ss] [|t' ts] F1 L1 L2 Ht; try discriminate; cbn [combine] in F1; inversion F1; subst; [destruct Ht|].
      destruct Ht as [->|Ht]; [exists y, s; split; [left; reflexivity|assumption]|]. destruct (IH ss ts) as (y' & s' & B1 & B2); [assumption|injection L1 as L1; exact L1|injection L2 as L2; exact L2|exact Ht|]. exists y', s'. split; [right; exact B1|exact B2]. }
    destruct FT as (y & s & Y1 & (real & P & C & T & adds & R' & k & mk & Y)). rewrite Forall_forall in A1. destruct (A1 y Y1) as [Y2 Y3]. rewrite Y2, Y3 in Y. apply Y. }
  assert (NE : bo_transfers E bl <> []) by (intros X; rewrite X in L2; cbn [pl_in p] in L2; destruct (pl_in p0); [apply A7; reflexivity|discriminate L2]).
  assert (InM : In account (tc_minor x)).
  { cbn [tc_minor x]. apply nodup_In. destruct (bo_transfers E bl) as [|t ts]; [destruct (NE eq_refl)|]. left. rewrite (SubT t) by (left; reflexivity). reflexivity. }
  assert (UM : Forall u32 (tc_minor x)).
  { cbn [tc_minor x]. apply Forall_forall. intros z Hz. apply nodup_In in Hz. apply in_map_iff in Hz. destruct Hz as (t & <- & Ht). rewrite (SubT t Ht). exact Hacc. }
  assert (Cov : 0 <= total_in p0 - total_out p0 - fee) by exact Hpos.
  unfold request. cbn [device Signer_model.view_priv Signer_model.spend_priv Signer_model.spend_pub].
  split; [exact Ha|]. split; [exact Hb|]. split; [reflexivity|].
  assert (Zs : zlen (bo_sources E bl) = zlen (pl_in p0)) by (unfold zlen; f_equal; exact L1).
  assert (Zd : zlen (bo_outputs E bl) = zlen (pl_out p0) + 1) by (unfold zlen; rewrite L3; cbn [pl_out p]; rewrite app_length; cbn [length]; clear; lia).
  assert (P1 : 0 < zlen (pl_in p0)) by (destruct (pl_in p0) as [|y ys]; [destruct (A7 eq_refl)|]; rewrite zlen_cons; pose proof (zlen_nonneg ys) as Zn; clear - Zn; lia).
  pose proof (zlen_nonneg (pl_out p0)) as P2. change (zlen []) with 0 in A3, A4.
  split; [cbn [tc_sources x]; rewrite Zs; clear - P1 A3 Hlc; lia|]. split; [cbn [tc_dsts x]; rewrite Zd; clear - P2 A4 Hlc; lia|]. split; [apply Z.le_refl|]. split; [reflexivity|].
  split. { unfold supported. cbn [tc_hf tc_client_version x]. split; [exact Hhf|]. split; [clear - Hcl; lia|]. intros X. clear - X Hcl. lia. }
  split; [|split; [|split; [|split]]].
  - apply Forall_forall. intros s Hs. cbn [tc_sources x] in Hs. split; [rewrite Forall_forall in G1; exact (G1 s Hs)|].
    destruct (Sub s Hs) as (y & t & Y1 & _ & (real & P & C & T & adds & R' & k & mk & Y)). rewrite Forall_forall in A1. destruct (A1 y Y1) as [Y2 Y3]. rewrite Y2, Y3 in Y.
    destruct Y as (V1 & V2 & V3 & V4 & V5 & V6 & V7 & V8 & V9 & V10 & V11 & V12 & V13 & V14 & V15 & V16 & V17 & _).
    exists account, account, real, T, adds, R', (le_digits 256 32 mk). split; [reflexivity|]. split; [exact Hacc|]. split; [exact UM|]. split; [exact InM|].
    split; [unfold zlen in V1; clear - V1 Hring; lia|]. split; [exact V2|]. split; [exact V4|]. split; [exact V7|]. split; [exact V8|]. split; [exact V9|]. split; [rewrite V5, V10; apply (law_dec E L)|]. split; [exact V16|].
    rewrite V6, (law_dec E L), V17, V14. change (le_digits 256 32 mk) with (enc_sc mk). rewrite enc_sc_val by exact V15. rewrite (scalar_small mk V15). reflexivity.
  - apply Forall_forall. intros e He. cbn [tc_dsts x] in He. rewrite Forall_forall in G2. destruct (pair_of _ _ _ _ e (eq_trans L3 (eq_sym L4)) F2 He) as ([[[y w] i] pid] & t & Y1 & _ & (Y2 & Y3 & _)). cbn [fst] in Y2, Y3.
    assert (OK : 0 <= y < 2 ^ 64 /\ encp E (sub_C E (fst w) (snd w) (fst i) (snd i)) <> repeat 0 32).
    { cbn [pl_out p] in Y1. apply in_app_or in Y1. destruct Y1 as [Y1|[Y1|[]]]; [rewrite Forall_forall in A2; exact (A2 _ Y1)|]. injection Y1 as <- <- <- _. cbn [fst snd]. split; [|exact Hzc]. clear - Hpos Hsum Out0 Hfee. unfold ch in *. lia. }
    unfold payable. split; [exact (G2 e He)|]. rewrite Y2, Y3. cbn [spend_public_key view_public_key Signer_model.dec_pt real_ops].
    split; [apply OK|]. split; [apply Hlen|]. split; [apply OK|]. split; eexists; apply (law_dec E L).
  - cbn [tc_change x]. right. split.
    + exists account. split; [reflexivity|]. rewrite N3. unfold device. cbn [Signer_model.enc_pt real_ops Signer_model.sub_addr_keys Signer_model.view_priv Signer_model.spend_pub]. rewrite (sub_keys_ok E L a b account 0 (nz_scalar_scalar b Hb) Hacc) by (split; [apply Z.le_refl|reflexivity]). reflexivity.
    + exists ce. split; [cbn [tc_dsts x]; eapply nth_error_In; exact N1|reflexivity].
  - split; [|left; reflexivity]. assert (A8' : In (w1, (cr_view E dest1, cr_spend E dest1), (M1, m1), pid1) (pl_out p)) by (cbn [pl_out p]; apply in_or_app; left; exact A8).
    destruct (pair_of' _ _ _ _ _ (eq_trans L3 (eq_sym L4)) F2 A8') as (e & t & Y1 & Y2 & Y3 & _). cbn [fst snd] in Y2, Y3. exists e. split; [exact Y1|]. split; [rewrite Y2; exact Hw1|].
    cbn [tc_change x]. rewrite Y3, N3. intros X. apply (f_equal spend_public_key) in X. cbn [spend_public_key] in X. apply (encp_inj E L) in X. exact (Hd1 X).
  - cbn [tc_dsts tc_sources x]. rewrite T1, T2, Ep, Eo. unfold ch. clear - Hfee. lia.
Qed.
End Proof.
