From Verif Require Import Py PyLemmas Digits Ints_model Ec_model Ec_spec Ec_proof Sigs_model Sigs_spec Sigs_proof Mlsag_model Mlsag_spec Borromean_model Accept_spec Accept_proof.

Lemma mapM_F2 {A B} (f : A -> res B) : forall xs ys, mapM f xs = Ok ys <-> Forall2 (fun x y => f x = Ok y) xs ys.
Proof.
  induction xs as [|x xs IH]; intros ys; cbn [mapM].
  - split; [intros H; assert (ys = []) as -> by congruence; constructor|intros H; inversion H; reflexivity].
  - split.
    + intros H. apply bind_ok_inv in H. destruct H as (y & H1 & H). apply bind_ok_inv in H. destruct H as (yt & H2 & H).
      assert (ys = y :: yt) as -> by congruence. constructor; [exact H1|]. apply IH, H2.
    + intros H. inversion H as [|? y ? yt H1 H2]; subst. rewrite H1. cbn [bind]. apply IH in H2. rewrite H2. reflexivity.
Qed.
Lemma F2_len {A B} (R : A -> B -> Prop) xs ys : Forall2 R xs ys -> length xs = length ys.
Proof. induction 1; cbn [length]; congruence. Qed.
Lemma F2_iff {A B} (R S : A -> B -> Prop) : (forall x y, R x y <-> S x y) -> forall xs ys, Forall2 R xs ys <-> Forall2 S xs ys.
Proof. intros H xs ys. split; intros F; induction F; constructor; auto; apply H; assumption. Qed.

Section A.
Context (E : ecops).
Lemma simple_iff message mg pubs pseudo : ver_rct_mg_simple E message mg pubs pseudo = Ok true <-> simple_valid E message pubs pseudo mg.
Proof.
  unfold ver_rct_mg_simple, simple_valid, simple_matrix.
  assert (K : forall M, mapM (fun p => let* d := decp E (ct_dest p) in let* c := decp E (ct_comm p) in Ok [d; point_sub E c pseudo]) pubs = Ok M <->
    Forall2 (fun p col => exists P C, decp E (ct_dest p) = Ok P /\ decp E (ct_comm p) = Ok C /\ col = [P; padd E C (pneg E pseudo)]) pubs M).
  { intros M. rewrite mapM_F2. apply F2_iff. intros p col. split.
    - intros H. apply bind_ok_inv in H. destruct H as (P & H1 & H). apply bind_ok_inv in H. destruct H as (C & H2 & H).
      exists P, C. repeat split; auto. unfold point_sub in H. congruence.
    - intros (P & C & H1 & H2 & ->). rewrite H1. cbn [bind]. rewrite H2. reflexivity. }
  split.
  - intros H. apply bind_ok_inv in H. destruct H as (? & _ & H). apply bind_ok_inv in H. destruct H as (M & HM & H).
    exists M. split; [apply K, HM|]. apply mlsag_iff, H.
  - intros (M & HM & H). assert (N : (2 <= length M)%nat) by (destruct H as (rows & H & _); exact H).
    apply mlsag_iff in H. pose proof (F2_len _ _ _ HM) as EL.
    destruct (Nat.eqb_spec (length pubs) 0) as [X|X]; [lia|]. cbn [negb guard bind]. apply K in HM. rewrite HM. exact H.
Qed.
Context (L : ec_laws E).
Lemma col_fold : forall keys ds sum r, foldM (fun (s : list (pt E) * pt E) p =>
      let* d := decp E (ct_dest p) in let* c := decp E (ct_comm p) in Ok (fst s ++ [d], point_add E (snd s) c)) keys (ds, sum) = Ok r <->
  exists Ps Cs, Forall2 (fun p P => decp E (ct_dest p) = Ok P) keys Ps /\ Forall2 (fun p C => decp E (ct_comm p) = Ok C) keys Cs /\
    r = (ds ++ Ps, padd E sum (psum E Cs)).
Proof.
  induction keys as [|k keys IH]; intros ds sum r; cbn [foldM].
  - split.
    + intros H. exists [], []. repeat split; try constructor. cbn [psum fold_right]. rewrite app_nil_r, (id_r E L). congruence.
    + intros (Ps & Cs & H1 & H2 & ->). inversion H1. inversion H2. cbn [psum fold_right]. rewrite app_nil_r, (id_r E L). reflexivity.
  - split.
    + intros H. apply bind_ok_inv in H. destruct H as (s & H1 & H). apply bind_ok_inv in H1. destruct H1 as (P & HP & H1).
      apply bind_ok_inv in H1. destruct H1 as (C & HC & H1). cbn [fst snd] in H1. assert (s = (ds ++ [P], padd E sum C)) as -> by (unfold point_add in H1; congruence).
      apply IH in H. destruct H as (Ps & Cs & F1 & F2 & ->). exists (P :: Ps), (C :: Cs). repeat split; try (constructor; assumption).
      cbn [psum fold_right]. rewrite <- app_assoc, <- (law_assoc E L). reflexivity.
    + intros (Ps & Cs & F1 & F2 & ->). inversion F1 as [|? P ? Ps' H1 F1']; subst. inversion F2 as [|? C ? Cs' H2 F2']; subst.
      rewrite H1. cbn [bind]. rewrite H2. cbn [bind fst snd]. apply IH. exists Ps', Cs'. repeat split; auto.
      cbn [psum fold_right]. unfold point_add. rewrite <- app_assoc, <- (law_assoc E L). reflexivity.
Qed.
Lemma out_fold : forall outs sum r, foldM (fun s o => let* m := decp E o in Ok (point_sub E s m)) outs sum = Ok r <->
  exists Os, Forall2 (fun o O => decp E o = Ok O) outs Os /\ r = padd E sum (pneg E (psum E Os)).
Proof.
  induction outs as [|o outs IH]; intros sum r; cbn [foldM].
  - split.
    + intros H. exists []. split; [constructor|]. assert (r = sum) as -> by congruence. cbn [psum fold_right]. lin E L.
    + intros (Os & H1 & ->). inversion H1. cbn [psum fold_right]. f_equal. lin E L.
  - split.
    + intros H. apply bind_ok_inv in H. destruct H as (s & H1 & H). apply bind_ok_inv in H1. destruct H1 as (Om & HO & H1).
      apply IH in H. destruct H as (Os & F & ->). exists (Om :: Os). split; [constructor; assumption|]. unfold point_sub in H1.
      assert (s = padd E sum (pneg E Om)) as -> by congruence. cbn [psum fold_right]. fold (psum E Os). lin E L.
    + intros (Os & F & ->). inversion F as [|? Om ? Os' H1 F']; subst. rewrite H1. cbn [bind]. apply IH. exists Os'. split; [exact F'|].
      unfold point_sub. cbn [psum fold_right]. fold (psum E Os'). lin E L.
Qed.
Lemma full_column_iff keys outs fee col : full_column E keys outs fee = Ok col <->
  exists Os Ps Cs, Forall2 (fun o O => decp E o = Ok O) outs Os /\
    Forall2 (fun p P => decp E (ct_dest p) = Ok P) keys Ps /\ Forall2 (fun p C => decp E (ct_comm p) = Ok C) keys Cs /\
    col = Ps ++ [padd E (psum E Cs) (pneg E (padd E (psum E Os) fee))].
Proof.
  unfold full_column. split.
  - intros H. apply bind_ok_inv in H. destruct H as ((ds, sum) & H1 & H). apply col_fold in H1. destruct H1 as (Ps & Cs & F1 & F2 & Q).
    cbn [app] in Q. assert (ds = Ps /\ sum = padd E (pid E) (psum E Cs)) as [-> ->] by (split; congruence).
    apply bind_ok_inv in H. destruct H as (s2 & H2 & H). apply out_fold in H2. destruct H2 as (Os & F3 & ->).
    exists Os, Ps, Cs. repeat split; auto. unfold point_sub in H.
    match type of H with Ok ?a = Ok ?b => assert (X : b = a) by congruence end. rewrite X. do 2 f_equal. lin E L.
  - intros (Os & Ps & Cs & F3 & F1 & F2 & ->).
    assert (H1 := proj2 (col_fold keys [] (pid E) _) (ex_intro _ Ps (ex_intro _ Cs (conj F1 (conj F2 eq_refl))))). rewrite H1. cbn [bind].
    assert (H2 := proj2 (out_fold outs (padd E (pid E) (psum E Cs)) _) (ex_intro _ Os (conj F3 eq_refl))). rewrite H2. cbn [bind app].
    f_equal. do 2 f_equal. unfold point_sub. lin E L.
Qed.
Lemma F2_fun {A B} (f : A -> res B) xs ys zs : Forall2 (fun x y => f x = Ok y) xs ys -> Forall2 (fun x y => f x = Ok y) xs zs -> ys = zs.
Proof. intros H H'. apply mapM_F2 in H, H'. congruence. Qed.
Lemma full_iff message mg pubs outs fee : ver_rct_mg E mg pubs outs fee message = Ok true <-> full_valid E message pubs outs fee mg.
Proof.
  unfold ver_rct_mg, full_valid, full_assert. split.
  - intros H. apply bind_ok_inv in H. destruct H as (rows & H1 & H). apply bind_ok_inv in H. destruct H as (M & HM & H).
    apply bind_ok_inv in H1. destruct H1 as (? & _ & H1). apply bind_ok_inv in H1. destruct H1 as (p0 & H0 & H1).
    apply bind_ok_inv in H1. destruct H1 as (? & G1 & H1). apply guard_ok_inv in G1. apply bind_ok_inv in H1. destruct H1 as (? & _ & H1).
    destruct pubs as [|q pubs]; [discriminate H0|]. assert (p0 = q) as -> by (unfold getn in H0; cbn in H0; congruence).
    cbn [hd]. assert (rows = length q) as -> by congruence. apply mlsag_iff in H. apply mapM_F2 in HM.
    assert (Hd : exists Os, Forall2 (fun o O => decp E o = Ok O) outs Os).
    { inversion HM as [|? ? ? ? X]; subst. apply full_column_iff in X. destruct X as (Os & _ & _ & X & _). exists Os. exact X. }
    destruct Hd as (Os & FO). exists Os, M. split; [exact FO|]. split.
    { intros ->. discriminate G1. }
    split; [|exact H]. revert HM. clear -L FO. intros HM. induction HM as [|k col ks M X HM IH]; constructor; [|exact IH].
    apply full_column_iff in X. destruct X as (Os' & Ps & Cs & F3 & F1 & F2 & ->). rewrite (F2_fun _ _ _ _ FO F3).
    exists Ps, Cs. repeat split; assumption.
  - intros (Os & M & FO & Hh & HM & H). assert (V := H). apply mlsag_iff in H. pose proof (F2_len _ _ _ HM) as EL.
    destruct pubs as [|q pubs]; [destruct Hh; reflexivity|]. cbn [hd] in *. cbn [length Nat.eqb negb guard bind].
    assert (G0 : getn (q :: pubs) 0 = Ok q) by reflexivity. rewrite G0. cbn [bind].
    destruct (Nat.eqb_spec (length q) 0) as [X|X]; [destruct q; [congruence|discriminate X]|]. cbn [negb guard bind].
    assert (FA : forallb (fun c => (length c =? length q)%nat) (q :: pubs) = true).
    { destruct V as (rows & _ & _ & _ & V & _). apply forallb_forall. intros k Hk. apply Nat.eqb_eq.
      assert (LL : forall k col, (exists Ps Cs, Forall2 (fun p P => decp E (ct_dest p) = Ok P) k Ps /\ Forall2 (fun p C => decp E (ct_comm p) = Ok C) k Cs /\
         col = Ps ++ [padd E (psum E Cs) (pneg E (padd E (psum E Os) fee))]) -> length col = S (length k)).
      { intros k0 col (Ps & Cs & F1 & _ & ->). rewrite app_length. apply F2_len in F1. cbn [length]. lia. }
      assert (R : forall k, In k (q :: pubs) -> S (length k) = rows).
      { revert HM V. clear -LL. generalize (q :: pubs) as pp. intros pp HM V. induction HM as [|k col ks M0 X HM IH]; [intros k []|].
        inversion V as [|? ? V1 V2]; subst. intros k0 [->|Hk]; [rewrite <- (LL _ _ X); reflexivity|]. apply IH; assumption. }
      pose proof (R k Hk). pose proof (R q (or_introl eq_refl)). lia. }
    rewrite FA. cbn [guard bind].
    assert (HM' : mapM (fun col => full_column E col outs fee) (q :: pubs) = Ok M).
    { apply mapM_F2. revert HM. clear -L FO. intros HM. induction HM as [|k col ks M X HM IH]; constructor; [|exact IH].
      destruct X as (Ps & Cs & F1 & F2 & ->). apply full_column_iff. exists Os, Ps, Cs. repeat split; assumption. }
    rewrite HM'. exact H.
Qed.
End A.
