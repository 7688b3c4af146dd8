From Verif Require Import Py PyLemmas Digits Ints_model Protobuf_spec Ec_model Ec_spec Ec_proof Sigs_spec Sigs_proof Mlsag_model Mlsag_spec Mlsag_proof Mlsag_proof2.

Lemma mapM_ok {A B} (f : A -> res B) (h : A -> B) l : (forall x, In x l -> f x = Ok (h x)) -> mapM f l = Ok (map h l).
Proof.
  induction l as [|x l IH]; intros H; cbn; [reflexivity|]. rewrite H by (left; reflexivity). cbn [bind].
  rewrite IH by (intros; apply H; right; assumption). reflexivity.
Qed.

Lemma map_fst_combine {A B} (a : list A) (b : list B) : length a = length b -> map fst (combine a b) = a.
Proof. revert b. induction a as [|x a IH]; intros [|y b] H; try discriminate; cbn; [reflexivity|]. rewrite IH by (cbn in H; lia). reflexivity. Qed.
Lemma map_snd_combine {A B} (a : list A) (b : list B) : length a = length b -> map snd (combine a b) = b.
Proof. revert b. induction a as [|x a IH]; intros [|y b] H; try discriminate; cbn; [reflexivity|]. rewrite IH by (cbn in H; lia). reflexivity. Qed.

Section M.
Context (E : ecops) (L : ec_laws E).

(** both encoded points of a ring member decode *)
Definition decodes (p : ctkey) : Prop := exists d c, decp E (ct_dest p) = Ok d /\ decp E (ct_comm p) = Ok c.
Definition dpt (b : list Z) : pt E := match decp E b with Ok P => P | Err _ => pid E end.
Lemma dpt_ok b P : decp E b = Ok P -> dpt b = P.
Proof. unfold dpt. intros ->. reflexivity. Qed.

Lemma commit_zmul mask amount : 0 <= mask -> 0 <= amount ->
  commit E mask amount = padd E (zmul E mask (Gb E)) (zmul E amount (Hb E)).
Proof. intros. unfold commit. rewrite !(smul_zmul E L) by assumption. reflexivity. Qed.

Lemma simple_matrix_ok pubs cout : Forall decodes pubs ->
  simple_matrix E pubs cout = Ok (map (fun p => [dpt (ct_dest p); point_sub E (dpt (ct_comm p)) cout]) pubs).
Proof.
  intros F. apply mapM_ok. intros p Hp. rewrite Forall_forall in F. destruct (F p Hp) as (d & c & Hd & Hc).
  unfold dpt. rewrite Hd, Hc. reflexivity.
Qed.

Lemma zero_commit_diff m a amount : scalar m -> scalar a -> 0 <= amount ->
  point_sub E (commit E m amount) (commit E a amount) = smul E (Gb E) (sc_sub m a).
Proof.
  intros Hm Ha Hx. unfold sc_sub. rewrite (smul_mod E L) by apply (sub_G E L).
  rewrite !commit_zmul by (apply Hm || apply Ha || apply Hx). unfold point_sub. lin E L.
Qed.

Lemma mg_simple_complete message pubs x mask a amount kl ms index al rnd p :
  (2 <= length pubs)%nat -> Forall decodes pubs -> nth_error pubs index = Some p ->
  scalar x -> scalar mask -> scalar a -> 0 <= amount ->
  decp E (ct_dest p) = Ok (smul E (Gb E) x) -> decp E (ct_comm p) = Ok (commit E mask amount) ->
  length al = 2%nat -> Forall scalar al -> (forall i, length (rnd i) = 2%nat) ->
  multisig_ok E kl ms 1 [smul E (Gb E) x; smul E (Gb E) (sc_sub mask a)] [x; sc_sub mask a] ->
  let cout := commit E a amount in
  exists rv c,
    prove_rct_mg_simple E message pubs {| sk_dest := x; sk_mask := mask |} a cout kl ms index al rnd = Ok (rv, c) /\
    mg_II E rv = [smul E (Hp E (encp E (smul E (Gb E) x))) x] /\
    ver_rct_mg_simple E message rv pubs cout = Ok true.
Proof.
  intros Hn F Hp Sx Sm Sa Ha Dd Dc Hal Sal Hr Ms cout.
  unfold prove_rct_mg_simple, ver_rct_mg_simple.
  rewrite (proj2 (Nat.eqb_neq (length pubs) 0)) by lia. cbn [negb guard bind sk_dest sk_mask].
  rewrite simple_matrix_ok by exact F. cbn [bind].
  set (M := map _ pubs).
  assert (Lm : length M = length pubs) by apply map_length.
  assert (Hi : (index < length pubs)%nat) by (apply nth_error_Some; congruence).
  assert (Ni : nth index M [] = [smul E (Gb E) x; smul E (Gb E) (sc_sub mask a)]).
  { apply nth_error_nth. unfold M. rewrite (map_nth_error _ _ _ Hp), (dpt_ok _ _ Dd), (dpt_ok _ _ Dc).
    unfold cout. rewrite zero_commit_diff by assumption. reflexivity. }
  destruct (mlsag_complete E L message M [x; sc_sub mask a] kl ms index 1 2 al rnd) as (rv & c & H1 & _ & _ & H2 & H3).
  { constructor; try lia.
    - apply Forall_forall. intros col Hc. apply in_map_iff in Hc. destruct Hc as (q & <- & _). reflexivity.
    - rewrite Ni. constructor; [auto|]. constructor; [|constructor]. split; [apply mod_scalar|reflexivity].
    - auto.
    - exact Hr.
    - rewrite Ni. exact Ms. }
  exists rv, c. split; [exact H1|]. split; [|exact H3].
  rewrite H2, Ni. reflexivity.
Qed.

(** ** Full variant *)
Definition psum (ps : list (pt E)) (s : pt E) : pt E := fold_left (padd E) ps s.
Definition pminus (ps : list (pt E)) (s : pt E) : pt E := fold_left (fun s p => point_sub E s p) ps s.
Lemma full_column_ok col out_pk fee : Forall decodes col -> Forall (fun o => exists m, decp E o = Ok m) out_pk ->
  full_column E col out_pk fee =
  Ok (map (fun p => dpt (ct_dest p)) col ++
      [point_sub E (pminus (map dpt out_pk) (psum (map (fun p => dpt (ct_comm p)) col) (pid E))) fee]).
Proof.
  intros F1 F2. unfold full_column.
  assert (H1 : forall col s0 p0, Forall decodes col ->
    foldM (fun (s : list (pt E) * pt E) p => let* d := decp E (ct_dest p) in let* c := decp E (ct_comm p) in
      Ok (fst s ++ [d], point_add E (snd s) c)) col (s0, p0) =
    Ok (s0 ++ map (fun p => dpt (ct_dest p)) col, psum (map (fun p => dpt (ct_comm p)) col) p0)).
  { clear. induction col as [|p col IH]; intros s0 p0 F; cbn [foldM map]; [rewrite app_nil_r; reflexivity|].
    inversion F as [|? ? (d & c & Hd & Hc) F']; subst. rewrite Hd, Hc. cbn [bind fst snd]. rewrite IH by exact F'.
    rewrite (dpt_ok _ _ Hd), (dpt_ok _ _ Hc), <- app_assoc. reflexivity. }
  rewrite H1 by exact F1. cbn [bind app].
  assert (H2 : forall out_pk s, Forall (fun o => exists m, decp E o = Ok m) out_pk ->
    foldM (fun s o => let* m := decp E o in Ok (point_sub E s m)) out_pk s = Ok (pminus (map dpt out_pk) s)).
  { clear. induction out_pk as [|o out_pk IH]; intros s F; cbn [foldM map]; [reflexivity|].
    inversion F as [|? ? (m & Hm) F']; subst. rewrite Hm. cbn [bind]. rewrite IH by exact F'. rewrite (dpt_ok _ _ Hm). reflexivity. }
  rewrite H2 by exact F2. reflexivity.
Qed.

(** a list of commitments to the given (mask, amount) pairs *)
Definition commits (bs : list (list Z)) (ma : list (Z * Z)) : Prop :=
  Forall2 (fun b ma => decp E b = Ok (commit E (fst ma) (snd ma)) /\ scalar (fst ma) /\ 0 <= snd ma) bs ma.
Lemma psum_commits bs ma : commits bs ma -> forall s,
  psum (map dpt bs) s = padd E s (padd E (zmul E (zsum (map fst ma)) (Gb E)) (zmul E (zsum (map snd ma)) (Hb E))).
Proof.
  induction 1 as [|b [m a] bs ma (Hd & Sm & Ha) H IH]; intros s; cbn [map psum fold_left zsum fold_right].
  - rewrite !zmul_0. lin E L.
  - change (fold_left (padd E) (map dpt bs) ?x) with (psum (map dpt bs) x). rewrite IH, (dpt_ok _ _ Hd).
    cbn [fst snd] in *. rewrite commit_zmul by (apply Sm || apply Ha).
    change (fold_right Z.add 0) with zsum. lin E L.
Qed.
Lemma pminus_commits bs ma : commits bs ma -> forall s,
  pminus (map dpt bs) s = padd E s (pneg E (padd E (zmul E (zsum (map fst ma)) (Gb E)) (zmul E (zsum (map snd ma)) (Hb E)))).
Proof.
  induction 1 as [|b [m a] bs ma (Hd & Sm & Ha) H IH]; intros s; cbn [map pminus fold_left zsum fold_right].
  - rewrite !zmul_0. lin E L.
  - change (fold_left _ (map dpt bs) ?x) with (pminus (map dpt bs) x). rewrite IH, (dpt_ok _ _ Hd).
    cbn [fst snd] in *. rewrite commit_zmul by (apply Sm || apply Ha). unfold point_sub.
    change (fold_right Z.add 0) with zsum. lin E L.
Qed.

Lemma fold_add ks : forall s, fold_left (fun s k => sc_add s (sk_mask k)) ks s mod l = (s + zsum (map sk_mask ks)) mod l.
Proof.
  induction ks as [|k ks IH]; intros s; cbn [fold_left map zsum fold_right]; [rewrite Z.add_0_r; reflexivity|].
  rewrite IH. unfold sc_add. rewrite Zplus_mod_idemp_l. change (fold_right Z.add 0) with zsum. f_equal. lia.
Qed.
Lemma fold_sub ks : forall s, fold_left sc_sub ks s mod l = (s - zsum ks) mod l.
Proof.
  induction ks as [|k ks IH]; intros s; cbn [fold_left zsum fold_right]; [rewrite Z.sub_0_r; reflexivity|].
  rewrite IH. unfold sc_sub. rewrite Zminus_mod_idemp_l. change (fold_right Z.add 0) with zsum. f_equal. lia.
Qed.
Lemma fold_sub_scalar ks : forall s, scalar s -> scalar (fold_left sc_sub ks s).
Proof. induction ks as [|k ks IH]; intros s Hs; cbn [fold_left]; [exact Hs|]. apply IH, mod_scalar. Qed.
Lemma fold_add_scalar ks : forall s, scalar s -> scalar (fold_left (fun s k => sc_add s (sk_mask k)) ks s).
Proof. induction ks as [|k ks IH]; intros s Hs; cbn [fold_left]; [exact Hs|]. apply IH, mod_scalar. Qed.

Lemma mg_full_complete message pubs in_sk in_amounts out_sk out_amounts out_pk fee kl ms index al rnd col rows :
  (2 <= length pubs)%nat -> (0 < rows)%nat -> Forall (fun c => length c = rows /\ Forall decodes c) pubs ->
  nth_error pubs index = Some col ->
  Forall2 (fun p k => scalar (sk_dest k) /\ decp E (ct_dest p) = Ok (smul E (Gb E) (sk_dest k))) col in_sk ->
  length in_amounts = length in_sk -> length out_amounts = length out_sk ->
  commits (map ct_comm col) (combine (map sk_mask in_sk) in_amounts) ->
  commits out_pk (combine out_sk out_amounts) ->
  zsum in_amounts mod l = (zsum out_amounts + fee) mod l -> 0 <= fee ->
  length al = S rows -> Forall scalar al -> (forall i, length (rnd i) = S rows) ->
  kl = None -> ms = false ->
  let fee_key := smul E (Hb E) fee in
  exists rv c,
    prove_rct_mg E message pubs in_sk out_sk out_pk kl ms index fee_key al rnd = Ok (rv, c) /\
    mg_II E rv = map (fun k => smul E (Hp E (encp E (smul E (Gb E) (sk_dest k)))) (sk_dest k)) in_sk /\
    ver_rct_mg E rv pubs out_pk fee_key message = Ok true.
Proof.
  intros Hn Hr F Hcol Kc La1 La2 Cin Cout Bal Hfee Hal Sal Hrnd Hkl Hms fee_key.
  assert (Hi : (index < length pubs)%nat) by (apply nth_error_Some; congruence).
  assert (Rect : Forall (fun c => length c = rows) pubs) by (eapply Forall_impl; [|exact F]; cbn; tauto).
  assert (Fcol : length col = rows /\ Forall decodes col).
  { rewrite Forall_forall in F. apply F. eapply nth_error_In, Hcol. }
  destruct Fcol as [Lcol Dcol].
  pose proof (F2_length _ _ _ Kc) as Lsk.
  assert (Lout : length out_sk = length out_pk).
  { apply F2_length in Cout. rewrite combine_length in Cout. lia. }
  assert (As : full_assert pubs = Ok rows).
  { unfold full_assert. rewrite (proj2 (Nat.eqb_neq (length pubs) 0)) by lia. cbn [negb guard bind].
    rewrite (getn_nth pubs 0 []) by lia. cbn [bind].
    assert (L0 : length (nth 0 pubs []) = rows) by (rewrite Forall_forall in Rect; apply Rect, nth_In; lia).
    rewrite L0, (proj2 (Nat.eqb_neq rows 0)) by lia. cbn [negb guard bind]. rewrite (forallb_len _ _ Rect). reflexivity. }
  assert (Dout : Forall (fun o => exists m, decp E o = Ok m) out_pk).
  { clear - Cout. induction Cout as [|b ma bs mas (H & _) _ IH]; constructor; eauto. }
  unfold prove_rct_mg, ver_rct_mg. rewrite As. cbn [bind].
  rewrite (proj2 (Nat.eqb_eq (length in_sk) rows)) by lia. rewrite (proj2 (Nat.eqb_eq (length out_sk) (length out_pk))) by lia.
  cbn [guard bind].
  set (mk := fun col => map (fun p => dpt (ct_dest p)) col ++
      [point_sub E (pminus (map dpt out_pk) (psum (map (fun p => dpt (ct_comm p)) col) (pid E))) fee_key]).
  rewrite (mapM_ok _ mk).
  2:{ intros c Hc. rewrite Forall_forall in F. destruct (F c Hc) as [_ Dc]. apply full_column_ok; assumption. }
  cbn [bind].
  set (M := map mk pubs).
  set (last := fold_left sc_sub out_sk (fold_left (fun s k => sc_add s (sk_mask k)) in_sk 0)).
  assert (Slast : scalar last) by (apply fold_sub_scalar, fold_add_scalar; unfold scalar; split; [lia|reflexivity]).
  assert (Elast : last mod l = (zsum (map sk_mask in_sk) - zsum out_sk) mod l).
  { unfold last. rewrite fold_sub, Zminus_mod, fold_add, <- Zminus_mod. reflexivity. }
  assert (Ni : nth index M [] = map (fun k => smul E (Gb E) (sk_dest k)) in_sk ++ [smul E (Gb E) last]).
  { apply nth_error_nth. unfold M. rewrite (map_nth_error _ _ _ Hcol). unfold mk. do 2 f_equal.
    - clear - Kc. induction Kc as [|p k col ks (_ & H) _ IH]; cbn [map]; [reflexivity|]. rewrite (dpt_ok _ _ H), IH. reflexivity.
    - f_equal. rewrite <- (map_map ct_comm dpt col). rewrite (psum_commits _ _ Cin), (pminus_commits _ _ Cout).
      assert (C1 : map fst (combine (map sk_mask in_sk) in_amounts) = map sk_mask in_sk).
      { apply map_fst_combine. rewrite map_length. lia. }
      assert (C2 : map snd (combine (map sk_mask in_sk) in_amounts) = in_amounts).
      { apply map_snd_combine. rewrite map_length. lia. }
      rewrite C1, C2, map_fst_combine, map_snd_combine by lia.
      unfold point_sub, fee_key. rewrite (smul_zmul E L (Hb E) fee Hfee), (smul_zmul E L (Gb E) last) by apply Slast.
      rewrite (zmul_congr E L last _ (Gb E) (sub_G E L) Elast).
      assert (HB : zmul E (zsum in_amounts) (Hb E) = zmul E (zsum out_amounts + fee) (Hb E)).
      { apply (zmul_congr E L); [apply (sub_H E L)|exact Bal]. }
      rewrite HB. lin E L. }
  assert (Keys : column_keys E (nth index M []) (map sk_dest in_sk ++ [last])).
  { rewrite Ni. apply Forall2_app; [|constructor; auto]. clear - Kc.
    induction Kc as [|p k col ks (H & _) _ IH]; cbn [map]; constructor; auto. }
  destruct (mlsag_complete E L message M (map sk_dest in_sk ++ [last]) kl ms index rows (S rows) al rnd) as (rv & c & H1 & _ & _ & H2 & H3).
  { constructor; try lia; unfold M; rewrite ?map_length; try lia.
    - apply Forall_forall. intros c Hc. apply in_map_iff in Hc. destruct Hc as (q & <- & Hq). unfold mk.
      rewrite app_length, map_length. cbn [length]. rewrite Forall_forall in Rect. rewrite (Rect q Hq). lia.
    - exact Keys.
    - auto.
    - exact Hrnd.
    - subst kl. exact Hms. }
  exists rv, c. split; [exact H1|]. split; [|exact H3].
  rewrite H2, Ni. unfold key_images.
  assert (Lr : length in_sk = rows) by lia. clear - Lr.
  rewrite <- Lr. clear Lr rows. clearbody last.
  induction in_sk as [|k ks IH]; cbn [map app length combine firstn]; [reflexivity|]. f_equal. exact IH.
Qed.
End M.
