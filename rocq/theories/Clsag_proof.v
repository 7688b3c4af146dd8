From Verif Require Import Py PyLemmas Digits Ints_model Protobuf_spec Ec_model Ec_spec Ec_proof Sigs_spec Sigs_proof Mlsag_model Mlsag_spec Mlsag_proof Mlsag_proof2 Mlsag_proof3.

Lemma inv_eight_ok : (8 * inv_eight) mod l = 1.
Proof. vm_compute. reflexivity. Qed.
Lemma inv_eight_scalar : scalar inv_eight.
Proof. apply mod_scalar. Qed.
Lemma enc_sc_val v : scalar v -> le_val 256 (enc_sc v) = v.
Proof.
  intros Hv. unfold enc_sc. rewrite le_val_digits by reflexivity. apply Z.mod_small.
  change (256 ^ Z.of_nat 32) with (2 ^ 256). assert (l < 2 ^ 256) by reflexivity. unfold scalar in Hv. lia.
Qed.

Section C.
Context (E : ecops) (L : ec_laws E).

Lemma D8_ok B z : 0 <= z -> point_mul8 E (smul E (Hp E B) (sc_mul z inv_eight)) = smul E (Hp E B) z.
Proof.
  intros Hz. unfold point_mul8, sc_mul. rewrite (smul_mod E L) by apply (sub_Hp E L).
  rewrite !(smul_zmul E L) by lia. rewrite <- (zmul_mul E L).
  apply (zmul_congr E L); [apply (sub_Hp E L)|].
  replace (8 * (z * inv_eight)) with (z * (8 * inv_eight)) by ring.
  rewrite Zmult_mod, inv_eight_ok, Z.mul_1_r, Z.mod_mod by discriminate. reflexivity.
Qed.

(** the response closes the ring at the secret index *)
Lemma clsag_close prefix mu_P mu_C Cout B P C p z c a :
  scalar mu_P -> scalar mu_C -> scalar p -> scalar z -> scalar c -> scalar a ->
  decp E P = Ok (smul E (Gb E) p) -> decp E C = Ok B -> point_sub E B Cout = smul E (Gb E) z ->
  clsag_step E prefix mu_P mu_C (smul E (Hp E P) p) (smul E (Hp E P) z) Cout P C
    (sc_mulsub c (sc_muladd mu_C z (sc_mul mu_P p)) a) c =
  Ok (hash_to_scalar E (prefix ++ encp E (smul E (Gb E) a) ++ encp E (smul E (Hp E P) a))).
Proof.
  intros Smp Smc Sp Sz Sc Sa DP DC HB. unfold clsag_step. rewrite DP, DC. cbn [bind]. rewrite HB.
  assert (Es : sc_mulsub c (sc_muladd mu_C z (sc_mul mu_P p)) a = (a - c * (mu_P * p + mu_C * z)) mod l).
  { rewrite sc_mulsub_val, sc_muladd_val. unfold sc_mul. rewrite Zplus_mod_idemp_l.
    rewrite Zminus_mod, Zmult_mod_idemp_r, <- Zminus_mod. reflexivity. }
  rewrite Es. do 4 f_equal.
  - f_equal. unfold point_add, add_keys2, point_add, scalarmult_base, scalarmult, sc_mul.
    rewrite !(fun k => smul_mod E L k (Gb E) (sub_G E L)).
    rewrite !(smul_zmul E L) by (apply Sp || apply Sz || apply Sa || apply (mod_scalar (mu_P * c)) || apply (mod_scalar (mu_C * c))).
    rewrite <- !(zmul_mul E L).
    rewrite (zmul_congr E L ((mu_P * c) mod l * p) (mu_P * c * p) (Gb E) (sub_G E L)) by apply Zmult_mod_idemp_l.
    rewrite (zmul_congr E L ((mu_C * c) mod l * z) (mu_C * c * z) (Gb E) (sub_G E L)) by apply Zmult_mod_idemp_l.
    lin E L.
  - f_equal. unfold point_add, add_keys3, point_add, scalarmult, sc_mul.
    rewrite !(fun k => smul_mod E L k (Hp E P) (sub_Hp E L P)).
    rewrite !(smul_zmul E L) by (apply Sp || apply Sz || apply Sa || apply (mod_scalar (mu_P * c)) || apply (mod_scalar (mu_C * c))).
    rewrite <- !(zmul_mul E L).
    rewrite (zmul_congr E L ((mu_P * c) mod l * p) (mu_P * c * p) _ (sub_Hp E L P)) by apply Zmult_mod_idemp_l.
    rewrite (zmul_congr E L ((mu_C * c) mod l * z) (mu_C * c * z) _ (sub_Hp E L P)) by apply Zmult_mod_idemp_l.
    lin E L.
Qed.

Lemma ver_loop_walk prefix mu_P mu_C sI D8 Cout (f : nat -> Z -> Z) : forall pubs ss c k,
  length ss = length pubs ->
  (forall j p s c, nth_error pubs j = Some p -> nth_error ss j = Some s ->
     clsag_step E prefix mu_P mu_C sI D8 Cout (ct_dest p) (ct_comm p) s c = Ok (f (k + j)%nat c)) ->
  clsag_ver_loop E prefix mu_P mu_C sI D8 Cout pubs ss c = Ok (walk f k (length pubs) c).
Proof.
  induction pubs as [|p pubs IH]; intros [|s ss] c k Hl H; try discriminate; [reflexivity|].
  cbn [clsag_ver_loop]. rewrite (H O p s c eq_refl eq_refl). cbn [bind]. rewrite Nat.add_0_r.
  change (walk f k (length (p :: pubs)) c) with (walk f (S k) (length pubs) (f k c)).
  apply IH; [cbn in Hl; lia|]. intros j q t c' Hq Ht. replace (S k + j)%nat with (k + S j)%nat by lia.
  apply (H (S j)); assumption.
Qed.

(** the parts of the buffer: responses, c1, D *)
Definition sig_ss (n : nat) (buff : list (list Z)) : list Z := map (le_val 256) (firstn n (skipn 1 buff)).
Definition sig_c1 (n : nat) (buff : list (list Z)) : Z := le_val 256 (nth (S n) buff []).
Definition sig_D (n : nat) (buff : list (list Z)) : list Z := nth (S (S n)) buff [].

Lemma clsag_complete message pubs p mask a amount index nonce rnd pk :
  Forall (decodes E) pubs -> nth_error pubs index = Some pk ->
  scalar p -> scalar mask -> scalar a -> 0 <= amount -> scalar nonce -> (forall i, scalar (rnd i)) ->
  decp E (ct_dest pk) = Ok (smul E (Gb E) p) -> decp E (ct_comm pk) = Ok (commit E mask amount) ->
  let cout := commit E a amount in
  let n := length pubs in
  exists buff sD,
    generate_clsag_simple E message pubs {| sk_dest := p; sk_mask := mask |} a cout index [] nonce rnd = Ok buff /\
    length buff = (n + 3)%nat /\ hd [] buff = varint (Z.of_nat n) /\
    decp E (sig_D n buff) = Ok sD /\
    verify_clsag E message (sig_ss n buff) (sig_c1 n buff) (smul E (Hp E (ct_dest pk)) p) sD pubs cout = Ok tt.
Proof.
  intros F Hpk Sp Sm Sa Ha Sn Sr DP DC cout n.
  assert (Hi : (index < n)%nat) by (apply nth_error_Some; congruence).
  unfold generate_clsag_simple. fold n. rewrite (proj2 (Nat.eqb_neq n 0)) by lia. cbn [negb guard bind sk_dest sk_mask].
  set (z := sc_sub mask a). assert (Sz : scalar z) by apply mod_scalar.
  unfold generate_clsag. rewrite map_length. fold n.
  unfold getn at 1. rewrite (map_nth_error _ _ _ Hpk). cbn [bind].
  set (Pb := ct_dest pk) in *.
  set (sI := scalarmult E (Hp E Pb) p). set (D := scalarmult E (Hp E Pb) z).
  set (sDp := scalarmult E (Hp E Pb) (sc_mul z inv_eight)).
  set (Ps := map ct_dest pubs). set (Cs := map ct_comm pubs).
  set (mu_P := clsag_agg E HASH_KEY_CLSAG_AGG_0 Ps Cs (encp E sI) (encp E sDp) (encp E cout)).
  set (mu_C := clsag_agg E HASH_KEY_CLSAG_AGG_1 Ps Cs (encp E sI) (encp E sDp) (encp E cout)).
  set (prefix := clsag_round_prefix Ps Cs (encp E cout) message).
  assert (Smp : scalar mu_P) by apply hts_scalar. assert (Smc : scalar mu_C) by apply hts_scalar.
  set (c0 := hash_to_scalar E (prefix ++ encp E (scalarmult_base E nonce) ++ encp E (scalarmult E (Hp E Pb) nonce))).
  assert (Sc0 : scalar c0) by apply hts_scalar.
  set (g := fun i c => let* Pi := getn Ps i in let* Ci := getn Cs i in clsag_step E prefix mu_P mu_C sI D cout Pi Ci (rnd i) c).
  set (stepf := fun (p : ctkey) (s c : Z) => match clsag_step E prefix mu_P mu_C sI D cout (ct_dest p) (ct_comm p) s c with Ok v => v | Err _ => 0 end).
  set (d0 := {| ct_dest := []; ct_comm := [] |}).
  set (gf := fun i c => stepf (nth i pubs d0) (rnd i) c).
  assert (Stp : forall q s c, In q pubs -> clsag_step E prefix mu_P mu_C sI D cout (ct_dest q) (ct_comm q) s c = Ok (stepf q s c) /\ scalar (stepf q s c)).
  { intros q s c Hq. rewrite Forall_forall in F. destruct (F q Hq) as (d & cm & Hd & Hc).
    unfold stepf, clsag_step. rewrite Hd, Hc. cbn [bind]. split; [reflexivity|apply hts_scalar]. }
  assert (Hg : forall i c, (i < n)%nat -> i <> index -> g i c = Ok (gf i c)).
  { intros i c H _. unfold g, gf, getn, Ps, Cs.
    rewrite !(map_nth_error _ i pubs (nth_error_nth' pubs d0 H)). cbn [bind]. apply Stp, nth_In, H. }
  assert (Hd0 : (if ((index + 1) mod n =? 0)%nat then Some c0 else Some 0) = (if ((index + 1) mod n =? 0)%nat then Some c0 else Some 0)) by reflexivity.
  rewrite (ring_loop_all g gf (fun i => enc_sc (rnd i)) n index Hg Hi c0 (Some 0) (repeat (repeat 0 32) n)). cbn [bind]. clear Hd0.
  set (cc := walk gf (index + 1) (n - (index + 1)) c0).
  set (ci := walk gf 0 index cc).
  rewrite (rows_final g gf (fun i => enc_sc (rnd i)) n index Hg Hi) by apply repeat_length.
  set (t := sc_mulsub ci (sc_muladd mu_C z (sc_mul mu_P p)) nonce).
  assert (St : scalar t) by apply mod_scalar.
  set (rows := final_rows (fun i => enc_sc (rnd i)) n index (enc_sc t)).
  assert (Lrows : length rows = n) by (unfold rows, final_rows; rewrite map_length, seq_length; reflexivity).
  assert (Sgf : forall i c, (i < n)%nat -> scalar (gf i c)).
  { intros i c H. apply Stp, nth_In, H. }
  assert (Sw : forall d a c, (a + d <= n)%nat -> scalar c -> scalar (walk gf a d c)).
  { induction d as [|d IH]; intros x c Hx Sc; [exact Sc|]. change (scalar (walk gf (S x) d (gf x c))). apply IH; [lia|]. apply Sgf. lia. }
  assert (Scc : scalar cc) by (apply Sw; [lia|exact Sc0]).
  assert (Sci : scalar ci) by (apply Sw; [lia|exact Scc]).
  eexists _, sDp. split; [cbn [app]; reflexivity|].
  assert (Es : forall (x : list Z) y w, firstn n (skipn 1 (x :: rows ++ [y; w])) = rows).
  { intros x y w. cbn [skipn]. rewrite <- Lrows. rewrite firstn_app, Nat.sub_diag, firstn_all. cbn [firstn]. apply app_nil_r. }
  assert (E1 : forall (x : list Z) y w, nth (S n) (x :: rows ++ [y; w]) [] = y).
  { intros x y w. cbn [nth]. rewrite app_nth2 by lia. rewrite Lrows, Nat.sub_diag. reflexivity. }
  assert (E2 : forall (x : list Z) y w, nth (S (S n)) (x :: rows ++ [y; w]) [] = w).
  { intros x y w. cbn [nth]. rewrite app_nth2 by lia. rewrite Lrows. replace (S n - n)%nat with 1%nat by lia. reflexivity. }
  split; [cbn [length]; rewrite app_length, Lrows; cbn [length]; lia|]. split; [reflexivity|].
  unfold sig_D, sig_ss, sig_c1. rewrite Es, E1, E2. split; [apply (law_dec E L)|].
  rewrite enc_sc_val by exact Scc.
  unfold verify_clsag. fold Ps Cs. change (smul E (Hp E Pb) p) with sI. fold mu_P mu_C. fold prefix.
  assert (D8 : point_mul8 E sDp = D) by (apply D8_ok, Sz).
  rewrite D8.
  set (ss := map (le_val 256) rows).
  assert (Nss : forall j, (j < n)%nat -> nth_error ss j = Some (if (j =? index)%nat then t else rnd j)).
  { intros j Hj. unfold ss, rows, final_rows. rewrite map_map.
    rewrite (map_nth_error _ j (seq 0 n) (d := j)).
    2:{ rewrite (nth_error_nth' _ O) by (rewrite seq_length; lia). rewrite seq_nth by lia. reflexivity. }
    destruct (j =? index)%nat; rewrite enc_sc_val; auto. }
  set (f := fun j c => stepf (nth j pubs d0) (if (j =? index)%nat then t else rnd j) c).
  rewrite (ver_loop_walk prefix mu_P mu_C sI D cout f pubs ss cc 0).
  2:{ unfold ss. rewrite map_length. exact Lrows. }
  2:{ intros j q s c Hq Hs. cbn [plus]. unfold f.
      assert (Hj : (j < n)%nat) by (apply nth_error_Some; congruence).
      rewrite (Nss j Hj) in Hs. assert (Es' : s = if (j =? index)%nat then t else rnd j) by congruence. rewrite Es'.
      rewrite (nth_error_nth _ _ d0 Hq). apply Stp. eapply nth_error_In, Hq. }
  cbn [bind]. fold n.
  assert (Ecc : cc = walk f (index + 1) (n - (index + 1)) c0).
  { apply walk_ext. intros j c Hj. unfold f. rewrite (proj2 (Nat.eqb_neq j index)) by lia. reflexivity. }
  assert (Eci : ci = walk f 0 index cc).
  { apply walk_ext. intros j c Hj. unfold f. rewrite (proj2 (Nat.eqb_neq j index)) by lia. reflexivity. }
  assert (Cl : walk f 0 n cc = cc).
  { pose proof (ring_close f n index c0 Hi) as RC. cbv zeta in RC. rewrite <- Ecc in RC. apply RC.
    rewrite <- Eci. unfold f. rewrite Nat.eqb_refl, (nth_error_nth _ _ d0 Hpk). unfold stepf, t, sI, D, scalarmult.
    rewrite (clsag_close prefix mu_P mu_C cout (commit E mask amount) _ _ p z ci nonce); try assumption; [reflexivity|].
    apply zero_commit_diff; assumption. }
  rewrite Cl. unfold sc_sub. rewrite Z.sub_diag. reflexivity.
Qed.
End C.
