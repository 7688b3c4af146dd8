(** The transaction builder makes sources the wallet can spend. *)
From Verif Require Import Py PyLemmas Digits Addr_model Lists_model Signer_model Signer_spec Agent_model Complete_spec Addr_spec Addr_proof Ints_model Protobuf_spec Ec_model Ec_spec Ec_proof Rsig_model Mlsag_model Mlsag_spec Sigs_spec Sigs_proof KeySep_proof Clsag_proof Mlsag_proof Wallet_model Wallet_spec Wallet_proof Accept_proof3 Request_spec Builder_model Builder_spec.
Ltac Zify.zify_post_hook ::= idtac.

Section Proof.
Context (E : ecops) (L : ec_laws E).
Local Notation G := (Gb E).

Lemma random_scalar_ok bits : scalar (random_scalar bits).
Proof. unfold random_scalar, dec_sc. apply mod_scalar. Qed.

Lemma otk_eq a b R i M m : 0 <= a -> one_time_key E a b R i M m = otk E (zmul E (8 * a) R) i (sub_D E a b M m).
Proof.
  intros Ha. assert (X : smul E (smul E R a) 8 = zmul E (8 * a) R).
  { rewrite !(smul_zmul E L) by (exact Ha || discriminate). symmetry. apply (zmul_mul E L). }
  unfold one_time_key, otk, derive_public_key, derivation_to_scalar, point_add, scalarmult_base. rewrite X. reflexivity.
Qed.
Lemma found_some view spend d P i M m recv adds der : table_sound E view spend d -> table_has E view spend d M m -> 0 <= i ->
  P = otk E der i (sub_D E view spend M m) -> (der = recv \/ nth_error adds (Z.to_nat i) = Some der) ->
  exists M' m' der', is_out_to_acc_precomp E d P recv adds i = Ok (Some ((M', m'), der')).
Proof.
  intros Sd Hd Hi EP Hder. destruct (found E L view spend d P der i M m Sd Hd EP) as (M' & m' & Eg & _).
  unfold is_out_to_acc_precomp. destruct (sa_get (encp E (derive_subaddress_public_key E P recv i)) d) as [[M2 m2]|] eqn:E2; [eauto|].
  destruct Hder as [->|Hn]; [congruence|]. destruct adds as [|a0 adds]; [destruct (Z.to_nat i); discriminate|].
  assert (Hlt : (Z.to_nat i < length (a0 :: adds))%nat) by (apply nth_error_Some; congruence).
  rewrite (proj2 (Z.ltb_lt _ _)) by (unfold zlen; lia). cbn [guard bind]. rewrite (py_get_nonneg _ i _ Hi Hn). cbn [bind]. rewrite Eg. eauto.
Qed.
(** the helper finds the one secret of the output *)
Lemma helper_finds a b d P i M m T adds R x : Gb E <> pid E -> nz_scalar a -> nz_scalar b -> table_sound E a b d -> table_has E a b d M m -> 0 <= i ->
  P = one_time_key E a b R i M m -> (R = T \/ nth_error adds (Z.to_nat i) = Some R) -> scalar x -> smul E G x = P ->
  generate_key_image_helper E (wallet E a b) d P T adds i = Ok (x, smul E (Hp E (encp E P)) x, zmul E (8 * a) T).
Proof.
  intros NG Ha Hb Sd Hd Hi EP HR Sx Ex. unfold generate_key_image_helper. cbn [wallet cr_view].
  rewrite (derivation_ok E L T a Ha). cbn [bind]. rewrite (mapM_deriv E L a Ha adds). cbn [bind].
  rewrite otk_eq in EP by (apply Z.lt_le_incl, Ha).
  destruct (found_some a b d P i M m (zmul E (8 * a) T) (map (zmul E (8 * a)) adds) _ Sd Hd Hi EP) as (M' & m' & der' & H).
  { destruct HR as [->|HR]; [left; reflexivity|right]. apply map_nth_error, HR. }
  rewrite H. cbn [bind]. destruct (recognised_spendable E L a b d P _ _ i M' m' der' Hb Sd H) as (EP' & HM & Hm).
  destruct (helper_ok E L a b der' i M' m' Hb HM Hm) as (x' & H1 & Sx' & Ex'). rewrite <- EP' in H1, Ex'. fold (wallet E a b). rewrite H1. cbn [bind].
  rewrite (base_inj E L x x' NG Sx Sx'); [reflexivity|]. rewrite Ex, Ex'. reflexivity.
Qed.

Lemma not_main M m : negb (M =? 0) || negb (m =? 0) = negb ((M =? 0) && (m =? 0)).
Proof. rewrite negb_andb. reflexivity. Qed.
(** 192-193: the secret key of the sub-address *)
Lemma kssub_ok a b M m : scalar b -> u32 M -> u32 m ->
  exists k, get_subaddress_secret_key E a M m = Ok k /\ (if negb (M =? 0) || negb (m =? 0) then sc_add k b else b) = sub_secret E a b M m.
Proof.
  intros Sb HM Hm. rewrite not_main. destruct ((M =? 0) && (m =? 0)) eqn:Z0.
  - exists a. split; [unfold get_subaddress_secret_key; rewrite Z0; reflexivity|]. unfold sub_secret, sub_scalar. rewrite Z0, Z.add_0_r. symmetry. apply scalar_small, Sb.
  - exists (sub_scalar E a M m). split; [apply (sub_key_ok E a M m HM Hm Z0)|]. cbn [negb]. unfold sc_add, sub_secret. f_equal. apply Z.add_comm.
Qed.
(** the derivation of the sender is the one of the wallet *)
Definition own_key (a b M m r : Z) : pt E := if negb (M =? 0) || negb (m =? 0) then scalarmult E (sub_D E a b M m) r else scalarmult_base E r.
Lemma own_derivation a b M m r : nz_scalar a -> nz_scalar r -> zmul E (8 * r) (sub_C E a b M m) = zmul E (8 * a) (own_key a b M m r).
Proof.
  intros [A1 A2] [R1 R2]. unfold own_key, sub_C, scalarmult, scalarmult_base. rewrite not_main. destruct ((M =? 0) && (m =? 0)); cbn [negb];
  rewrite !(smul_zmul E L) by lia; rewrite <- !(zmul_mul E L); f_equal; ring.
Qed.
Lemma otk_secret a b M m der i : smul E G (sc_add (sub_secret E a b M m) (derivation_to_scalar E der i)) = otk E der i (sub_D E a b M m).
Proof.
  unfold sc_add, otk, derive_public_key, point_add, scalarmult_base, sub_D. rewrite (smul_mod E L _ _ (sub_G E L)).
  assert (S1 : scalar (sub_secret E a b M m)) by apply mod_scalar. assert (S2 : scalar (derivation_to_scalar E der i)) by apply hts_scalar.
  rewrite !(smul_zmul E L) by (apply S1 || apply S2). apply (zmul_add E L).
Qed.

(** ** lists *)
Lemma set_ok {A} (xs : list A) i v : 0 <= i < zlen xs -> py_set xs i v = Ok (upd xs (Z.to_nat i) v) /\ nth_error (upd xs (Z.to_nat i) v) (Z.to_nat i) = Some v.
Proof.
  intros H. unfold py_set. rewrite py_idx_nonneg by exact H. split; [reflexivity|]. apply nth_error_upd_same. unfold zlen in H. lia.
Qed.
Lemma nth_numbered {A B} (f : nat * A -> B) (xs : list A) : forall s n x, nth_error xs n = Some x -> nth_error (map f (combine (seq s (length xs)) xs)) n = Some (f ((s + n)%nat, x)).
Proof.
  induction xs as [|y xs IH]; intros s [|n] x H; try discriminate; cbn [length seq combine map nth_error] in *.
  - assert (X : y = x) by congruence. subst y. rewrite Nat.add_0_r. reflexivity.
  - rewrite (IH (S s) n x H), Nat.add_succ_comm. reflexivity.
Qed.
Lemma numbered_forall {A B} (f : nat * A -> B) (Q : B -> Prop) (xs : list A) : (forall n x, In x xs -> Q (f (n, x))) -> forall s, Forall Q (map f (combine (seq s (length xs)) xs)).
Proof.
  induction xs as [|y xs IH]; intros H s; cbn [length seq combine map]; constructor; [apply H; left; reflexivity|]. apply IH. intros n x Hx. apply H. right. exact Hx.
Qed.
Lemma numbered_length {A B} (f : nat * A -> B) (xs : list A) s : length (map f (combine (seq s (length xs)) xs)) = length xs.
Proof. rewrite map_length, combine_length, seq_length. apply Nat.min_id. Qed.
Lemma dec_all adds : mapM (decp E) (map (encp E) adds) = Ok adds.
Proof. induction adds as [|p adds IH]; [reflexivity|]. cbn [map mapM]. rewrite (law_dec E L). cbn [bind]. rewrite IH. reflexivity. Qed.
Lemma insert_nth {A} (xs : list A) n x : (n <= length xs)%nat -> nth_error (firstn n xs ++ x :: skipn n xs) n = Some x.
Proof. intros H. rewrite nth_error_app2; rewrite firstn_length_le by exact H; [rewrite Nat.sub_diag; reflexivity|apply Nat.le_refl]. Qed.
Lemma insert_length {A} (xs : list A) n x : length (firstn n xs ++ x :: skipn n xs) = S (length xs).
Proof. rewrite app_length. cbn [length]. rewrite Nat.add_succ_r, <- app_length, firstn_skipn. reflexivity. Qed.
Lemma insert_in {A} (xs : list A) n x y : In y (firstn n xs ++ x :: skipn n xs) -> y = x \/ In y xs.
Proof.
  intros H. apply in_app_or in H. destruct H as [H|[H|H]]; [right|left; symmetry; exact H|right]; rewrite <- (firstn_skipn n xs); apply in_or_app; [left|right]; exact H.
Qed.

(** ** one input *)
Definition add_input (bl : bld E) (s : src_entry) (t : transfer) : bld E :=
  {| bo_keys := bo_keys E bl; bo_ring := bo_ring E bl; bo_net := bo_net E bl; bo_fee := bo_fee E bl; bo_account := bo_account E bl;
     bo_transfers := bo_transfers E bl ++ [t]; bo_selected := bo_selected E bl ++ [zlen (bo_transfers E bl)]; bo_sources := bo_sources E bl ++ [s];
     bo_outputs := bo_outputs E bl; bo_text := bo_text E bl; bo_change := bo_change E bl |}.
Lemma sc_bytes z : bytes_ok (enc_sc z).
Proof.
  apply Forall_forall. intros x Hx. pose proof (le_digits_ok 256 32 z eq_refl) as D. unfold digits_ok in D. rewrite Forall_forall in D. exact (D x Hx).
Qed.
Definition of_bytes : Prop := forall P, bytes_ok (encp E P).
Lemma gen_input_ok a b bl value major m additionals d : Gb E <> pid E -> of_bytes ->
  let M := match major with Some M => M | None => bo_account E bl end in
  nz_scalar a -> nz_scalar b -> bo_keys E bl = wallet E a b -> u32 M -> u32 m -> sub_secret E a b M m <> 0 -> 0 <= value < 2 ^ 64 ->
  draws_ok (bo_ring E bl) d ->
  exists s t, gen_input E bl value major m additionals d = Ok (add_input bl s t) /\ received E a b (bo_ring E bl) value M m s t /\ src_ok s.
Proof.
  intros NG HBy M Ha Hb HK HM Hm Hns Hv (D1 & D2 & D3 & D4 & D5).
  pose proof (nz_scalar_scalar b Hb) as Sb. pose proof (nz_scalar_scalar a Ha) as Sa.
  set (r := random_scalar (dr_r d)) in *. assert (Hr : nz_scalar r) by (pose proof (random_scalar_ok (dr_r d)) as [X1 X2]; fold r in X1, X2; split; [clear - X1 D5; lia|exact X2]).
  set (mk := random_scalar (dr_mask d)). assert (Sm : scalar mk) by apply random_scalar_ok.
  set (ks := sub_secret E a b M m) in *. assert (Hks : nz_scalar ks) by (pose proof (mod_scalar (b + sub_scalar E a M m)) as [X1 X2]; change (0 <= ks) in X1; change (ks < l) in X2; split; [clear - X1 Hns; lia|exact X2]).
  destruct (kssub_ok a b M m Sb HM Hm) as (k0 & HK0 & HK1). fold ks in HK1.
  set (i := dr_oidx d) in *. set (own := own_key a b M m r). set (der := zmul E (8 * a) own).
  set (kout := sc_add ks (derivation_to_scalar E der i)). set (P := otk E der i (sub_D E a b M m)).
  assert (EP : smul E G kout = P) by apply otk_secret. assert (Sk : scalar kout) by apply mod_scalar.
  set (T := if additionals then scalarmult_base E r else own).
  set (C := add_keys2 E mk value (Ec_model.Hb E)). assert (EC : C = Mlsag_spec.commit E mk value) by exact (proj2 (gen_c_commit E mk value Sm Hv)).
  set (decoys := map (fun j => (encp E (random_pub E (fst (dr_ring d j))), encp E (random_pub E (snd (dr_ring d j))))) (seq 0 (Z.to_nat (bo_ring E bl - 1)))).
  assert (LD : length decoys = Z.to_nat (bo_ring E bl - 1)) by (unfold decoys; rewrite map_length, seq_length; reflexivity).
  set (n := Z.to_nat (dr_index d)). assert (Hn : (n <= length decoys)%nat) by (rewrite LD; unfold n; clear - D3; lia).
  set (ring := firstn n decoys ++ (encp E P, encp E C) :: skipn n decoys).
  set (mkout := fun ix : nat * (list Z * list Z) => {| re_idx := dr_glob d (fst ix); re_dest := fst (snd ix); re_commitment := snd (snd ix) |}).
  set (outputs := map mkout (combine (seq 0 (length ring)) ring)).
  set (real := {| re_idx := dr_glob d n; re_dest := encp E P; re_commitment := encp E C |}).
  assert (Nr : nth_error outputs n = Some real) by (apply (nth_numbered mkout ring 0 n (encp E P, encp E C)), insert_nth, Hn).
  assert (Ring : forall x, In x ring -> exists P Q, x = (encp E P, encp E Q)).
  { intros x Hx. apply insert_in in Hx. destruct Hx as [->|Hx]; [eauto|]. unfold decoys in Hx. apply in_map_iff in Hx. destruct Hx as (j & <- & _). eauto. }
  assert (LO : zlen outputs = Z.max 1 (bo_ring E bl)).
  { unfold outputs, zlen. rewrite numbered_length. unfold ring. rewrite insert_length, LD. clear. lia. }
  set (adds := if additionals then upd (map (fun j => random_pub E (dr_adds d j)) (seq 0 (Z.to_nat (dr_cnt d)))) (Z.to_nat i) own else []).
  assert (Hi : 0 <= i) by apply D1.
  assert (HA : (if additionals then py_set (map (fun j => random_pub E (dr_adds d j)) (seq 0 (Z.to_nat (dr_cnt d)))) i own else Ok []) = Ok adds /\ (own = T \/ nth_error adds (Z.to_nat i) = Some own)).
  { unfold adds, T. destruct additionals; [|split; [reflexivity|left; reflexivity]].
    destruct (set_ok (map (fun j => random_pub E (dr_adds d j)) (seq 0 (Z.to_nat (dr_cnt d)))) i own) as [X Y]; [unfold zlen; rewrite map_length, seq_length; clear - D1 D2; lia|].
    split; [exact X|right; exact Y]. }
  destruct HA as [HA HA'].
  set (vout := upd (map (fun j => encp E (random_pub E (dr_vout d j))) (seq 0 (Z.to_nat (dr_cnt d)))) (Z.to_nat i) (encp E P)).
  destruct (set_ok (map (fun j => encp E (random_pub E (dr_vout d j))) (seq 0 (Z.to_nat (dr_cnt d)))) i (encp E P)) as [HV HV'].
  { unfold zlen; rewrite map_length, seq_length. clear - D1 D2; lia. }
  fold vout in HV, HV'.
  set (src := {| se_outputs := outputs; se_real_output := dr_index d; se_real_out_tx_key := encp E T; se_additional := map (encp E) adds;
    se_real_output_in_tx_index := i; se_amount := value; se_rct := Some true; se_mask := Some (enc_sc mk); se_multisig := None; se_subaddr_minor := None |}).
  destruct (compute_ok E L a b M Sb HM [m] []) as (tb & HT & TS & TH & _); [constructor; [exact Hm|constructor]|intros k M' m' X; discriminate X|].
  assert (OT : P = one_time_key E a b own i M m) by (rewrite otk_eq by (apply Z.lt_le_incl, Ha); reflexivity).
  assert (HC : check_input E (wallet E a b) tb src = Ok (kout, smul E (Hp E (encp E P)) kout, zmul E (8 * a) T)).
  { unfold check_input. cbn [se_outputs se_real_output se_real_out_tx_key se_additional se_real_output_in_tx_index src].
    rewrite (py_get_nonneg outputs (dr_index d) real (proj1 D3) Nr). cbn [bind]. rewrite (law_dec E L). cbn [bind]. rewrite dec_all. cbn [bind re_dest real]. rewrite (law_dec E L). cbn [bind].
    apply (helper_finds a b tb P i M m T adds own kout NG Ha Hb TS); try assumption. apply TH. left. reflexivity. }
  set (td := {| tr_index := i; tr_global := dr_glob d n; tr_mask := enc_sc mk; tr_amount := value; tr_sub := (M, m); tr_vout := vout; tr_image := encp E (smul E (Hp E (encp E P)) kout) |}).
  exists src, td. split; [|split].
  - unfold gen_input. fold M. rewrite HK. cbn [wallet cr_view cr_spend cr_spend_pub]. rewrite HK0. cbn [bind]. rewrite HK1. rewrite (sub_keys_ok E L a b M m Sb HM Hm). cbn [bind].
    rewrite (proj2 (law_eqb E L (sub_D E a b M m) (scalarmult_base E ks)) eq_refl). cbn [guard bind]. fold r.
    rewrite (derivation_ok E L _ r Hr). cbn [bind]. rewrite (own_derivation a b M m r Ha Hr). fold own der.
    fold i. unfold derive_secret_key. rewrite (nz_check ks Hks). cbn [guard bind]. fold kout.
    change (derive_public_key E der i (sub_D E a b M m)) with P.
    rewrite (proj2 (law_eqb E L P (scalarmult_base E kout)) (eq_sym EP)). cbn [guard bind].
    change (if negb (M =? 0) || negb (m =? 0) then scalarmult E (sub_D E a b M m) r else scalarmult_base E r) with own. fold T.
    unfold sc_init. rewrite (proj2 (Z.leb_gt (2 ^ 64) value) (proj2 Hv)). cbn [bind]. rewrite (Z.mod_small value l) by (apply small_scalar, Hv). fold mk C decoys n ring.
    rewrite HA. cbn [bind]. change (map _ (combine (seq 0 (length ring)) ring)) with outputs. fold src.
    rewrite (py_get_nonneg outputs (dr_index d) real (proj1 D3) Nr). cbn [bind]. rewrite HV. cbn [bind]. rewrite HT. cbn [bind].
    fold (wallet E a b). rewrite HC. cbn [bind]. rewrite Z.eqb_refl. cbn [guard bind re_dest real]. rewrite (law_dec E L). cbn [bind].
    rewrite (proj2 (law_eqb E L P (scalarmult_base E kout)) (eq_sym EP)). cbn [guard bind]. rewrite <- HK. reflexivity.
  - exists real, P, C, T, adds, own, kout, mk. cbn [se_outputs se_real_output se_real_out_tx_key se_additional se_real_output_in_tx_index se_amount se_mask se_rct src re_dest re_commitment re_idx real tr_image tr_amount tr_sub tr_mask tr_global tr_index tr_vout td].
    split; [exact LO|]. split. { apply numbered_forall. intros k x Hx. destruct (Ring x Hx) as (P1 & Q1 & ->). exists P1, Q1. cbn [mkout re_dest re_commitment fst snd]. split; apply (law_dec E L). }
    split; [apply D3|]. split; [exact Nr|]. split; [reflexivity|]. split; [reflexivity|]. split; [apply (law_dec E L)|]. split; [apply dec_all|]. split; [exact HA'|]. split; [exact OT|].
    split; [exact Sk|]. split; [symmetry; exact EP|]. split; [reflexivity|]. split; [reflexivity|]. split; [exact Sm|]. split; [reflexivity|]. split; [exact EC|]. split; [reflexivity|].
    split; [reflexivity|]. split; [reflexivity|]. split; [reflexivity|]. split; [reflexivity|]. split; [reflexivity|]. split; [exact Hi|exact HV'].
  - unfold src_ok. cbn [se_outputs se_real_output se_real_out_tx_key se_additional se_real_output_in_tx_index se_amount se_mask se_multisig se_subaddr_minor src].
    split. { apply numbered_forall. intros k x Hx. destruct (Ring x Hx) as (P1 & Q1 & ->). cbn [mkout re_idx re_dest re_commitment fst snd]. split; [apply D4|split; apply HBy]. }
    split; [apply D3|]. split; [apply HBy|]. split; [apply Forall_forall; intros q Hq; apply in_map_iff in Hq; destruct Hq as (z & <- & _); apply HBy|].
    split; [exact Hi|]. split; [apply Hv|]. split; [apply sc_bytes|]. split; [reflexivity|exact I].
Qed.
End Proof.
