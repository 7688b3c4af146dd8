From Verif Require Import Py PyLemmas Digits Ints_model Protobuf_spec Ec_model Ec_spec Ec_proof Sigs_model Sigs_spec Sigs_proof Mlsag_model Mlsag_spec Borromean_model Accept_spec.

Section A.
Context (E : ecops).
Local Notation hts := (hash_to_scalar E).

(** the verifier's fold over the columns is a chain *)
Fixpoint trace (f : nat -> Z -> Z) (n : nat) (c : Z) : Z := match n with O => c | S n => f n (trace f n c) end.
Lemma trace_shift f : forall n c, trace (fun i => f (S i)) n (f O c) = trace f (S n) c.
Proof. induction n as [|n IH]; intros c; [reflexivity|]. cbn [trace]. rewrite IH. reflexivity. Qed.
Lemma fold_trace {A} (g : Z -> A -> Z) (d : A) : forall xs c,
  fold_left g xs c = trace (fun i c => g c (nth i xs d)) (length xs) c.
Proof.
  induction xs as [|x xs IH]; intros c; [reflexivity|]. cbn [fold_left length].
  rewrite IH. exact (trace_shift (fun i c => g c (nth i (x :: xs) d)) (length xs) c).
Qed.
Lemma chain_trace f n c : (exists ch : nat -> Z, ch O = c /\ ch n mod l = c mod l /\ forall i, (i < n)%nat -> ch (S i) = f i (ch i)) <->
  trace f n c mod l = c mod l.
Proof.
  split.
  - intros (ch & H0 & Hn & Hs). assert (X : forall k, (k <= n)%nat -> trace f k c = ch k).
    { induction k as [|k IH]; intros Hk; [symmetry; exact H0|]. cbn [trace]. rewrite IH by lia. symmetry. apply Hs. lia. }
    rewrite X by lia. exact Hn.
  - intros H. exists (fun k => trace f k c). auto.
Qed.

Lemma round_bytes_spec c : forall col ss II, length ss = length col -> (length II <= length col)%nat ->
  round_bytes E c col ss II = mlsag_column E col ss II c.
Proof.
  unfold mlsag_column. induction col as [|P col IH]; intros [|s ss] II Hs Hi; try discriminate; cbn [length] in *.
  - reflexivity.
  - cbn [round_bytes seq map concat]. rewrite <- seq_shift, map_map.
    destruct II as [|Im II]; cbn [length] in *.
    + rewrite (IH ss []) by (cbn; lia). unfold mlsag_row at 2. cbn [nth nth_error].
      unfold add_keys2, point_add, scalarmult_base, scalarmult. rewrite <- !app_assoc. cbn [app]. do 3 f_equal.
      apply map_ext. intros j. unfold mlsag_row. cbn [nth nth_error]. destruct j; reflexivity.
    + rewrite (IH ss II) by lia. unfold mlsag_row at 2. cbn [nth nth_error].
      unfold add_keys2, add_keys3, point_add, scalarmult_base, scalarmult. rewrite <- !app_assoc. reflexivity.
Qed.

Lemma forallb_len {A} (n : nat) (xs : list (list A)) : forallb (fun c => (length c =? n)%nat) xs = true <-> Forall (fun c => length c = n) xs.
Proof.
  rewrite forallb_forall, Forall_forall. split; intros H x Hx; specialize (H x Hx); apply Nat.eqb_eq; exact H.
Qed.
Lemma trace_ext f g n c : (forall i c, (i < n)%nat -> f i c = g i c) -> trace f n c = trace g n c.
Proof. induction n as [|n IH]; intros H; [reflexivity|]. cbn [trace]. rewrite IH by auto. apply H. lia. Qed.

Lemma mlsag_iff message pk rv ds : ver_mlsag_ext E message pk rv ds = Ok true <-> mlsag_valid E message pk rv ds.
Proof.
  unfold ver_mlsag_ext, mlsag_valid.
  assert (A : forall r, ver_mlsag_assert E pk rv ds = Ok r <->
     r = (length (hd [] pk), length pk) /\ (2 <= length pk)%nat /\ (0 < length (hd [] pk))%nat /\ (ds <= length (hd [] pk))%nat /\
     Forall (fun col => length col = length (hd [] pk)) pk /\ length (mg_ss E rv) = length pk /\
     Forall (fun s => length s = length (hd [] pk)) (mg_ss E rv) /\ length (mg_II E rv) = ds).
  { intros r. unfold ver_mlsag_assert. split.
    - intros H. apply bind_ok_inv in H. destruct H as (? & H1 & H). apply guard_ok_inv in H1.
      apply negb_true_iff, Nat.ltb_ge in H1.
      destruct pk as [|pk0 pk']; [cbn in H1; lia|]. cbn [getn nth_error bind hd] in *.
      repeat (apply bind_ok_inv in H; let Hn := fresh "G" in destruct H as (? & Hn & H); apply guard_ok_inv in Hn).
      apply negb_true_iff in G, G4. apply Nat.eqb_neq in G. apply Nat.ltb_ge in G4. apply Nat.eqb_eq in G1, G2.
      apply forallb_len in G0, G3. assert (r = (length pk0, length (pk0 :: pk'))) by congruence. subst r.
      repeat split; auto; lia.
    - intros (-> & H1 & H2 & H3 & H4 & H5 & H6 & H7).
      destruct pk as [|pk0 pk']; [cbn in H1; lia|]. cbn [hd] in *.
      destruct (length (pk0 :: pk') <? 2)%nat eqn:B1; [apply Nat.ltb_lt in B1; lia|]. cbn [negb guard bind getn nth_error].
      destruct (length pk0 =? 0)%nat eqn:B2; [apply Nat.eqb_eq in B2; lia|]. cbn [negb guard bind].
      rewrite (proj2 (forallb_len _ _) H4). cbn [guard bind]. rewrite H7, Nat.eqb_refl. cbn [guard bind].
      rewrite H5, Nat.eqb_refl. cbn [guard bind]. rewrite (proj2 (forallb_len _ _) H6). cbn [guard bind].
      destruct (length pk0 <? ds)%nat eqn:B3; [apply Nat.ltb_lt in B3; lia|]. reflexivity. }
  assert (F : forall rows, Forall (fun col => length col = rows) pk -> length (mg_ss E rv) = length pk ->
     Forall (fun s => length s = rows) (mg_ss E rv) -> (length (mg_II E rv) <= rows)%nat ->
     fold_left (fun c ps => hts (message ++ round_bytes E c (fst ps) (snd ps) (mg_II E rv))) (combine pk (mg_ss E rv)) (mg_cc E rv) =
     trace (fun i c => hs E (message ++ mlsag_column E (nth i pk []) (nth i (mg_ss E rv) []) (mg_II E rv) c)) (length pk) (mg_cc E rv)).
  { intros rows H1 H2 H3 H4. rewrite (fold_trace _ ([], [])). rewrite combine_length, H2, Nat.min_id.
    apply trace_ext. intros i c Hi. rewrite combine_nth by (symmetry; exact H2). cbn [fst snd].
    rewrite Forall_forall in H1, H3. pose proof (H1 (nth i pk []) (nth_In _ _ Hi)) as X.
    pose proof (H3 (nth i (mg_ss E rv) []) (nth_In _ _ (eq_ind_r (fun n => (i < n)%nat) Hi H2))) as Y.
    rewrite round_bytes_spec by lia. reflexivity. }
  split.
  - intros H. apply bind_ok_inv in H. destruct H as (r & H1 & H). apply A in H1. destruct H1 as (-> & H1 & H2 & H3 & H4 & H5 & H6 & H7).
    exists (length (hd [] pk)). do 7 (split; [assumption|]). apply (proj2 (chain_trace (fun i c => hs E (message ++ mlsag_column E (nth i pk []) (nth i (mg_ss E rv) []) (mg_II E rv) c)) _ _)). rewrite <- (F _ H4 H5 H6) by lia.
    assert (X : negb (sc_isnonzero (sc_sub (fold_left (fun c ps => hts (message ++ round_bytes E c (fst ps) (snd ps) (mg_II E rv))) (combine pk (mg_ss E rv)) (mg_cc E rv)) (mg_cc E rv))) = true) by congruence.
    unfold sc_isnonzero in X. rewrite negb_involutive in X. apply Z.eqb_eq in X. apply sub_mod_zero, X.
  - intros (rows & H1 & H2 & H3 & H4 & H5 & H6 & H7 & H8). apply (proj1 (chain_trace (fun i c => hs E (message ++ mlsag_column E (nth i pk []) (nth i (mg_ss E rv) []) (mg_II E rv) c)) _ _)) in H8.
    assert (R : rows = length (hd [] pk)). { destruct pk as [|c0 pk']; [cbn in H1; lia|]. inversion H4; subst; reflexivity. }
    subst rows. rewrite (proj2 (A (length (hd [] pk), length pk))) by (repeat split; assumption). cbn [bind].
    rewrite (F _ H4 H5 H6) by lia. f_equal. unfold sc_isnonzero. rewrite negb_involutive. apply Z.eqb_eq. apply sub_mod_zero, H8.
Qed.

(** two messages of the same length accepted with one signature *)
Lemma trace_split f g n c : trace f n c mod l = trace g n c mod l -> (0 < n)%nat ->
  (forall i c, scalar (f i c)) -> (forall i c, scalar (g i c)) -> exists i a b, (i < n)%nat /\ f i a = g i b.
Proof.
  intros H Hn Sf Sg. destruct n as [|n]; [lia|]. cbn [trace] in H.
  exists n, (trace f n c), (trace g n c). split; [lia|].
  rewrite !scalar_small in H by (apply Sf || apply Sg). exact H.
Qed.
Lemma app_neq_l {A} (a b x y : list A) : length a = length b -> a <> b -> a ++ x <> b ++ y.
Proof.
  intros Hl N H. apply N. assert (X : firstn (length a) (a ++ x) = firstn (length a) (b ++ y)) by (rewrite H; reflexivity).
  rewrite firstn_app, Nat.sub_diag, firstn_all in X. rewrite Hl, firstn_app, Nat.sub_diag, firstn_all in X.
  cbn [firstn] in X. rewrite !app_nil_r in X. exact X.
Qed.
Lemma mlsag_binds m m' pk rv ds : length m = length m' -> m <> m' ->
  mlsag_valid E m pk rv ds -> mlsag_valid E m' pk rv ds -> collision E.
Proof.
  intros Hl N (rows & H1 & _ & _ & _ & _ & _ & _ & H) (_ & _ & _ & _ & _ & _ & _ & _ & H').
  apply (proj1 (chain_trace (fun i c => hs E (m ++ mlsag_column E (nth i pk []) (nth i (mg_ss E rv) []) (mg_II E rv) c)) _ _)) in H.
  apply (proj1 (chain_trace (fun i c => hs E (m' ++ mlsag_column E (nth i pk []) (nth i (mg_ss E rv) []) (mg_II E rv) c)) _ _)) in H'. rewrite <- H' in H. apply trace_split in H; [|lia|intros; apply mod_scalar..].
  destruct H as (i & a & b & _ & H). eexists _, _. split; [|exact H]. apply app_neq_l; assumption.
Qed.

(** ** CLSAG *)
Lemma clsag_loop prefix mu_P mu_C I D8 Cout : forall pubs ss c r,
  clsag_ver_loop E prefix mu_P mu_C I D8 Cout pubs ss c = Ok r <->
  (length pubs <= length ss)%nat /\ exists Ps Cs,
    Forall2 (fun p P => decp E (ct_dest p) = Ok P) pubs Ps /\ Forall2 (fun p C => decp E (ct_comm p) = Ok C) pubs Cs /\
    r = trace (fun i c => hts (prefix ++
      encp E (padd E (padd E (smul E (Gb E) (nth i ss 0)) (smul E (nth i Ps (pid E)) ((mu_P * c) mod l))) (smul E (padd E (nth i Cs (pid E)) (pneg E Cout)) ((mu_C * c) mod l))) ++
      encp E (padd E (padd E (smul E (Hp E (nth i (map ct_dest pubs) [])) (nth i ss 0)) (smul E I ((mu_P * c) mod l))) (smul E D8 ((mu_C * c) mod l))))) (length pubs) c.
Proof.
  induction pubs as [|p pubs IH]; intros ss c r; cbn [clsag_ver_loop].
  - split.
    + intros H. split; [cbn; lia|]. exists [], []. split; [constructor|]. split; [constructor|]. cbn [length trace]. congruence.
    + intros (_ & Ps & Cs & _ & _ & ->). reflexivity.
  - destruct ss as [|s ss].
    { split; [discriminate|]. intros (H & _). cbn in H. lia. }
    unfold clsag_step. split.
    + intros H. apply bind_ok_inv in H. destruct H as (c' & Hc & H).
      apply bind_ok_inv in Hc. destruct Hc as (P & HP & Hc). apply bind_ok_inv in Hc. destruct Hc as (C & HC & Hc).
      apply IH in H. destruct H as (Hl & Ps & Cs & F1 & F2 & ->). split; [cbn; lia|].
      exists (P :: Ps), (C :: Cs). split; [constructor; assumption|]. split; [constructor; assumption|].
      cbn [length map]. rewrite <- trace_shift. cbn [nth].
      match type of Hc with Ok ?x = Ok _ => replace c' with x by congruence end. reflexivity.
    + intros (Hl & Ps & Cs & F1 & F2 & ->). inversion F1 as [|? P ? Ps' HP F1']; subst. inversion F2 as [|? C ? Cs' HC F2']; subst.
      rewrite HP, HC. cbn [bind]. apply IH. split; [cbn in Hl; lia|]. exists Ps', Cs'. split; [exact F1'|]. split; [exact F2'|].
      cbn [length map]. rewrite <- trace_shift. cbn [nth]. reflexivity.
Qed.
Lemma clsag_iff message ss c1 I D pubs offset :
  verify_clsag E message ss c1 I D pubs offset = Ok tt <-> clsag_valid E message ss c1 I D pubs offset.
Proof.
  unfold verify_clsag, clsag_valid. cbv zeta.
  set (mP := clsag_agg E HASH_KEY_CLSAG_AGG_0 _ _ _ _ _). set (mC := clsag_agg E HASH_KEY_CLSAG_AGG_1 _ _ _ _ _).
  assert (EP : hs E (CLSAG_agg_0 ++ (concat (map ct_dest pubs) ++ concat (map ct_comm pubs)) ++ encp E I ++ encp E D ++ encp E offset) = mP).
  { unfold mP, clsag_agg, hts, hs. rewrite <- app_assoc. reflexivity. }
  assert (EC : hs E (CLSAG_agg_1 ++ (concat (map ct_dest pubs) ++ concat (map ct_comm pubs)) ++ encp E I ++ encp E D ++ encp E offset) = mC).
  { unfold mC, clsag_agg, hts, hs. rewrite <- app_assoc. reflexivity. }
  rewrite EP, EC. clearbody mP mC. clear EP EC.
  set (f := fun (Ps Cs : list (pt E)) i c => hts (clsag_round_prefix (map ct_dest pubs) (map ct_comm pubs) (encp E offset) message ++
      encp E (padd E (padd E (smul E (Gb E) (nth i ss 0)) (smul E (nth i Ps (pid E)) ((mP * c) mod l))) (smul E (padd E (nth i Cs (pid E)) (pneg E offset)) ((mC * c) mod l))) ++
      encp E (padd E (padd E (smul E (Hp E (nth i (map ct_dest pubs) [])) (nth i ss 0)) (smul E I ((mP * c) mod l))) (smul E (point_mul8 E D) ((mC * c) mod l))))).
  assert (X : forall Ps Cs, (exists ch : nat -> Z, ch O = c1 /\ ch (length pubs) mod l = c1 mod l /\ forall i, (i < length pubs)%nat ->
      ch (S i) = hs E (CLSAG_round ++ (concat (map ct_dest pubs) ++ concat (map ct_comm pubs)) ++ encp E offset ++ message ++
        encp E (clsag_L E mP mC (nth i Ps (pid E)) (nth i Cs (pid E)) offset (nth i ss 0) (ch i)) ++
        encp E (clsag_R E mP mC (Hp E (nth i (map ct_dest pubs) [])) I D (nth i ss 0) (ch i)))) <->
      trace (f Ps Cs) (length pubs) c1 mod l = c1 mod l).
  { intros Ps Cs. rewrite <- (chain_trace (f Ps Cs)).
    assert (Y : forall i c, hs E (CLSAG_round ++ (concat (map ct_dest pubs) ++ concat (map ct_comm pubs)) ++ encp E offset ++ message ++
        encp E (clsag_L E mP mC (nth i Ps (pid E)) (nth i Cs (pid E)) offset (nth i ss 0) c) ++
        encp E (clsag_R E mP mC (Hp E (nth i (map ct_dest pubs) [])) I D (nth i ss 0) c)) = f Ps Cs i c).
    { intros i c. unfold f, hts, hs, clsag_round_prefix, clsag_L, clsag_R, point_mul8. rewrite <- !app_assoc. reflexivity. }
    split; intros (ch & H0 & Hn & Hs); exists ch; (split; [exact H0|]); (split; [exact Hn|]); intros i Hi; rewrite (Hs i Hi); [|symmetry]; apply Y. }
  split.
  - intros H. apply bind_ok_inv in H. destruct H as (c & H1 & H). apply guard_ok_inv in H. apply Z.eqb_eq in H. apply sub_mod_zero in H.
    apply clsag_loop in H1. destruct H1 as (Hl & Ps & Cs & F1 & F2 & ->). split; [exact Hl|].
    assert (Y : exists ch : nat -> Z, ch O = c1 /\ ch (length pubs) mod l = c1 mod l /\ forall i, (i < length pubs)%nat ->
      ch (S i) = hs E (CLSAG_round ++ (concat (map ct_dest pubs) ++ concat (map ct_comm pubs)) ++ encp E offset ++ message ++
        encp E (clsag_L E mP mC (nth i Ps (pid E)) (nth i Cs (pid E)) offset (nth i ss 0) (ch i)) ++
        encp E (clsag_R E mP mC (Hp E (nth i (map ct_dest pubs) [])) I D (nth i ss 0) (ch i)))) by (apply X; exact H).
    destruct Y as (ch & Y). exists Ps, Cs, ch. auto.
  - intros (Hl & Ps & Cs & ch & F1 & F2 & Hc).
    assert (Y : trace (f Ps Cs) (length pubs) c1 mod l = c1 mod l) by (apply X; exists ch; exact Hc).
    assert (Z1 : clsag_ver_loop E (clsag_round_prefix (map ct_dest pubs) (map ct_comm pubs) (encp E offset) message) mP mC I (point_mul8 E D) offset pubs ss c1 = Ok (trace (f Ps Cs) (length pubs) c1)).
    { apply clsag_loop. split; [exact Hl|]. exists Ps, Cs. auto. }
    rewrite Z1. cbn [bind]. unfold sc_sub. rewrite (proj2 (sub_mod_zero _ _) Y). reflexivity.
Qed.
Lemma clsag_binds m m' ss c1 I D pubs offset : length m = length m' -> m <> m' -> pubs <> [] ->
  clsag_valid E m ss c1 I D pubs offset -> clsag_valid E m' ss c1 I D pubs offset -> collision E.
Proof.
  intros Hl N Np (_ & Ps & Cs & ch & F1 & F2 & H) (_ & Ps' & Cs' & ch' & F1' & F2' & H'). cbv zeta in H, H'.
  assert (Ln : (0 < length pubs)%nat) by (destruct pubs; [congruence|cbn; lia]).
  destruct H as (_ & Hn & Hs), H' as (_ & Hn' & Hs'). rewrite <- Hn' in Hn.
  destruct (length pubs) as [|n] eqn:En; [lia|]. rewrite (Hs n), (Hs' n) in Hn by lia.
  rewrite !scalar_small in Hn by apply mod_scalar. eexists _, _. split; [|exact Hn].
  intros X. do 3 apply app_inv_head in X. revert X. apply app_neq_l; assumption.
Qed.
End A.
