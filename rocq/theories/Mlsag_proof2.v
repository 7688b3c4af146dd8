From Verif Require Import Py PyLemmas Digits Ints_model Protobuf_spec Ec_model Ec_spec Ec_proof Sigs_spec Sigs_proof Mlsag_model Mlsag_spec Mlsag_proof.

Section M.
Context (E : ecops) (L : ec_laws E).

Definition resp (c : Z) (xx alpha : list Z) : list Z := map (fun xa => sc_mulsub c (fst xa) (snd xa)) (combine xx alpha).

(** s G + c (x G) = a G and the same over Hp, for s = a - c x *)
Lemma close_G c x a : scalar c -> scalar x -> scalar a ->
  add_keys2 E (sc_mulsub c x a) c (smul E (Gb E) x) = smul E (Gb E) a.
Proof.
  intros Hc Hx Ha. unfold add_keys2, point_add, scalarmult_base, scalarmult. rewrite sc_mulsub_val.
  rewrite (smul_mod E L) by apply (sub_G E L).
  rewrite !(smul_zmul E L) by (apply Hc || apply Hx || apply Ha). lin E L.
Qed.
Lemma close_H c x a B : scalar c -> scalar x -> scalar a ->
  add_keys3 E (sc_mulsub c x a) (Hp E B) c (smul E (Hp E B) x) = smul E (Hp E B) a.
Proof.
  intros Hc Hx Ha. unfold add_keys3, point_add, scalarmult. rewrite sc_mulsub_val.
  rewrite (smul_mod E L) by apply (sub_Hp E L).
  rewrite !(smul_zmul E L) by (apply Hc || apply Hx || apply Ha). lin E L.
Qed.

Lemma gen_rows_kl kl : forall col xx al, gen_rows E col xx al kl 0 = gen_rows E col xx al None 0.
Proof.
  induction col as [|P col IH]; intros [|x xx] [|a al]; cbn [gen_rows]; try reflexivity. rewrite IH. reflexivity.
Qed.
Lemma gen_rows_none : forall col xx al ds, column_keys E col xx -> length al = length col -> Forall scalar al -> (ds <= length col)%nat ->
  exists b, gen_rows E col xx al None ds = (b, key_images E ds col xx, al) /\
    forall c, scalar c -> round_bytes E c col (resp c xx al) (key_images E ds col xx) = b.
Proof.
  induction col as [|P col IH]; intros xx al ds K Hl Sa Hd.
  - inversion K; subst. destruct al; [|discriminate]. exists []. unfold key_images. cbn. rewrite firstn_nil. auto.
  - inversion K as [|? x ? xx' [Sx EP] K' E1 E2]; subst. destruct al as [|a al]; [discriminate|].
    inversion Sa as [|? ? Sa1 Sa2]; subst. cbn [length] in *.
    destruct ds as [|ds].
    + destruct (IH xx' al 0%nat K') as (b & Eb & Hb); [lia|exact Sa2|lia|].
      cbn [gen_rows]. rewrite Eb. eexists. split; [reflexivity|]. intros c Hc.
      unfold key_images. cbn [firstn map]. cbn [resp combine map round_bytes fst snd].
      rewrite close_G by assumption. f_equal. f_equal. apply (Hb c Hc).
    + destruct (IH xx' al ds K') as (b & Eb & Hb); [lia|exact Sa2|lia|].
      cbn [gen_rows]. rewrite Eb. eexists. split; [reflexivity|]. intros c Hc.
      unfold key_images. cbn [combine firstn map fst snd]. unfold resp. cbn [combine map fst snd]. cbn [round_bytes].
      rewrite close_G by assumption. rewrite close_H by assumption. do 3 f_equal. apply (Hb c Hc).
Qed.
Lemma gen_rows_ok kl ms col xx al ds : column_keys E col xx -> length al = length col -> Forall scalar al -> (ds <= length col)%nat ->
  multisig_ok E kl ms ds col xx ->
  exists b alpha, gen_rows E col xx al kl ds = (b, key_images E ds col xx, alpha) /\ length alpha = length col /\
    forall c, scalar c -> round_bytes E c col (resp c xx alpha) (key_images E ds col xx) = b.
Proof.
  intros K Hl Sa Hd M. destruct kl as [k|].
  - destruct M as (_ & -> & Sk & EL & (P & Hhd & ER) & EI).
    destruct K as [|P' x col xx [Sx EP] K]; [discriminate|]. cbn in Hhd. assert (EPP : P' = P) by congruence. clear Hhd. rewrite EPP in *. clear P' EPP.
    destruct al as [|a al]; [discriminate|]. assert (Sa2 : Forall scalar al) by (inversion Sa; assumption). cbn [length] in *.
    destruct (gen_rows_none col xx al 0%nat K) as (b & Eb & Hb); [lia|exact Sa2|lia|].
    cbn [gen_rows]. rewrite gen_rows_kl, Eb. cbn [key_images firstn combine map fst snd].
    assert (Ki : kl_ki E k = smul E (Hp E (encp E P)) x) by (unfold key_images in EI; cbn in EI; congruence).
    unfold key_images. cbn [combine firstn map fst snd]. rewrite Ki, EL, ER.
    eexists _, _. split; [reflexivity|]. split; [cbn; lia|]. intros c Hc.
    unfold resp. cbn [combine map fst snd]. cbn [round_bytes]. rewrite close_H by assumption.
    assert (CG : add_keys2 E (sc_mulsub c x (kl_k E k)) c P = smul E (Gb E) (kl_k E k)) by (rewrite EP; apply close_G; assumption).
    rewrite CG. do 3 f_equal. apply (Hb c Hc).
  - destruct (gen_rows_none col xx al ds K Hl Sa Hd) as (b & Eb & Hb). exists b, al. auto.
Qed.

Lemma combine_seq {A B} (a : list A) (b : list B) da db : length a = length b ->
  combine a b = map (fun j => (nth j a da, nth j b db)) (seq 0 (length a)).
Proof.
  revert b. induction a as [|x a IH]; intros [|y b] H; try discriminate; [reflexivity|].
  cbn [combine length seq map nth]. f_equal. rewrite <- seq_shift, map_map. apply IH. cbn in H. lia.
Qed.
Lemma fold_left_map {A B S} (f : S -> B -> S) (h : A -> B) l s : fold_left f (map h l) s = fold_left (fun s a => f s (h a)) l s.
Proof. revert s. induction l as [|a l IH]; intros s; cbn; [reflexivity|]. apply IH. Qed.
Lemma nth_map_seq {A} (f : nat -> A) d n j : (j < n)%nat -> nth j (map f (seq 0 n)) d = f j.
Proof.
  intros H. rewrite (nth_indep _ d (f O)) by (rewrite map_length, seq_length; lia).
  rewrite map_nth, seq_nth by lia. reflexivity.
Qed.
Lemma getn_nth {A} (l : list A) i d : (i < length l)%nat -> getn l i = Ok (nth i l d).
Proof. intros H. unfold getn. rewrite (nth_error_nth' l d H). reflexivity. Qed.
Lemma resp_length c xx al : length (resp c xx al) = Nat.min (length xx) (length al).
Proof. unfold resp. rewrite map_length, combine_length. reflexivity. Qed.
Lemma key_images_length ds col xx : length xx = length col -> (ds <= length col)%nat -> length (key_images E ds col xx) = ds.
Proof. intros H1 H2. unfold key_images. rewrite map_length, firstn_length, combine_length, H1. lia. Qed.

(** the condition on the arguments of the signer *)
Record mlsag_args (pk : list (list (pt E))) (xx : list Z) (kl : option (klrki E)) (ms : bool) (index ds rows : nat)
    (al : list Z) (rnd : nat -> list Z) : Prop := {
  ma_cols : (2 <= length pk)%nat;
  ma_index : (index < length pk)%nat;
  ma_rows : (0 < rows)%nat;
  ma_rect : Forall (fun col => length col = rows) pk;
  ma_ds : (ds <= rows)%nat;
  ma_keys : column_keys E (nth index pk []) xx;
  ma_al : length al = rows /\ Forall scalar al;
  ma_rnd : forall i, length (rnd i) = rows;
  ma_ms : multisig_ok E kl ms ds (nth index pk []) xx;
}.

Lemma forallb_len {A} (ll : list (list A)) rows : Forall (fun c => length c = rows) ll ->
  forallb (fun col => (length col =? rows)%nat) ll = true.
Proof. intros F. apply forallb_forall. intros x Hx. rewrite Forall_forall in F. apply Nat.eqb_eq, F, Hx. Qed.
Lemma F2_length {A B} (R : A -> B -> Prop) a b : Forall2 R a b -> length a = length b.
Proof. induction 1; cbn; lia. Qed.

Lemma mlsag_complete message pk xx kl ms index ds rows al rnd :
  mlsag_args pk xx kl ms index ds rows al rnd ->
  exists rv c, gen_mlsag_ext E message pk xx kl ms index ds al rnd = Ok (rv, c) /\ scalar c /\ scalar (mg_cc E rv) /\
    mg_II E rv = key_images E ds (nth index pk []) xx /\
    ver_mlsag_ext E message pk rv ds = Ok true.
Proof.
  intros [Hc Hi Hr Rect Hds K [Hal Sal] Hrnd Ms].
  assert (Lcol : length (nth index pk []) = rows).
  { rewrite Forall_forall in Rect. apply Rect, nth_In, Hi. }
  pose proof (F2_length _ _ _ K) as Lxx. rewrite Lcol in Lxx. symmetry in Lxx.
  set (II := key_images E ds (nth index pk []) xx).
  assert (LII : length II = ds) by (apply key_images_length; lia).
  assert (G0 : getn pk 0 = Ok (nth 0 pk [])) by (apply getn_nth; lia).
  assert (L0 : length (nth 0 pk []) = rows).
  { rewrite Forall_forall in Rect. apply Rect, nth_In. lia. }
  assert (As : gen_mlsag_assert E pk xx kl ms index ds = Ok (rows, length pk)).
  { unfold gen_mlsag_assert.
    rewrite (proj2 (Nat.leb_gt (length pk) 1)) by lia. rewrite (proj2 (Nat.leb_gt (length pk) index)) by lia. cbn [negb guard bind].
    rewrite G0. cbn [bind]. rewrite L0. rewrite (proj2 (Nat.eqb_neq rows 0)) by lia. cbn [negb guard bind].
    rewrite (forallb_len _ _ Rect). cbn [negb guard bind]. rewrite Lxx, Nat.eqb_refl. cbn [guard bind].
    rewrite (proj2 (Nat.ltb_ge rows ds)) by lia. cbn [negb guard bind].
    destruct kl; cbn in Ms.
    - destruct Ms as (-> & -> & _). reflexivity.
    - subst ms. reflexivity. }
  unfold gen_mlsag_ext. rewrite As. cbn [bind]. rewrite (getn_nth pk index []) by exact Hi. cbn [bind].
  destruct (gen_rows_ok kl ms _ xx al ds K) as (b & alpha & Eg & La & Hclose); [lia|exact Sal|lia|exact Ms|].
  rewrite Eg. fold II in Hclose |- *.
  set (c0 := hash_to_scalar E (message ++ b)).
  set (g := fun i c => let* pki := getn pk i in Ok (hash_to_scalar E (message ++ round_bytes E c pki (rnd i) II))).
  set (gf := fun i c => hash_to_scalar E (message ++ round_bytes E c (nth i pk []) (rnd i) II)).
  assert (Hg : forall i c, (i < length pk)%nat -> i <> index -> g i c = Ok (gf i c)).
  { intros i c H _. unfold g, gf. rewrite (getn_nth pk i []) by exact H. reflexivity. }
  rewrite (ring_loop_all g gf rnd (length pk) index Hg Hi c0 None (repeat [] (length pk))). cbn [bind].
  set (cc := walk gf (index + 1) (length pk - (index + 1)) c0).
  set (ci := walk gf 0 index cc).
  rewrite (rows_final g gf rnd (length pk) index Hg Hi) by apply repeat_length.
  fold (resp ci xx alpha).
  eexists _, _. split; [reflexivity|]. cbn [mg_cc mg_II].
  assert (Sw : forall d a c, scalar c -> scalar (walk gf a d c)).
  { induction d as [|d IH]; intros a c Sc; [exact Sc|]. change (scalar (walk gf (S a) d (gf a c))). apply IH, hts_scalar. }
  assert (Sc0 : scalar c0) by apply hts_scalar. assert (Scc : scalar cc) by (apply Sw, Sc0).
  assert (Sci : scalar ci) by (apply Sw, Scc).
  split; [exact Sci|]. split; [exact Scc|]. split; [reflexivity|].
  unfold ver_mlsag_ext.
  set (ss := final_rows rnd (length pk) index (resp ci xx alpha)).
  assert (Lss : length ss = length pk) by (unfold ss, final_rows; rewrite map_length, seq_length; reflexivity).
  assert (Av : ver_mlsag_assert E pk {| mg_ss := ss; mg_cc := cc; mg_II := II |} ds = Ok (rows, length pk)).
  { unfold ver_mlsag_assert. cbn [mg_ss mg_cc mg_II].
    rewrite (proj2 (Nat.ltb_ge (length pk) 2)) by lia. cbn [negb guard bind].
    rewrite G0. cbn [bind]. rewrite L0. rewrite (proj2 (Nat.eqb_neq rows 0)) by lia. cbn [negb guard bind].
    rewrite (forallb_len _ _ Rect). cbn [guard bind]. rewrite LII, Lss, !Nat.eqb_refl. cbn [guard bind].
    rewrite forallb_len. 2:{ unfold ss, final_rows. apply Forall_forall. intros x Hx. apply in_map_iff in Hx.
      destruct Hx as (j & <- & _). destruct (j =? index)%nat; [|apply Hrnd]. rewrite resp_length. lia. }
    cbn [guard bind]. rewrite (proj2 (Nat.ltb_ge rows ds)) by lia. reflexivity. }
  rewrite Av. cbn [bind mg_ss mg_cc mg_II].
  rewrite (combine_seq pk ss [] []) by (symmetry; exact Lss).
  rewrite fold_left_map.
  set (f := fun j c => hash_to_scalar E (message ++ round_bytes E c (nth j pk []) (nth j ss []) II)).
  change (fold_left _ (seq 0 (length pk)) cc) with (walk f 0 (length pk) cc).
  assert (Hf : forall j c, (j < length pk)%nat -> f j c = if (j =? index)%nat then
    hash_to_scalar E (message ++ round_bytes E c (nth j pk []) (resp ci xx alpha) II) else gf j c).
  { intros j c Hj. unfold f, ss, final_rows. rewrite nth_map_seq by exact Hj. destruct (j =? index)%nat; reflexivity. }
  assert (Ecc : cc = walk f (index + 1) (length pk - (index + 1)) c0).
  { apply walk_ext. intros j c Hj. rewrite Hf by lia. rewrite (proj2 (Nat.eqb_neq j index)) by lia. reflexivity. }
  assert (Eci : ci = walk f 0 index cc).
  { apply walk_ext. intros j c Hj. rewrite Hf by lia. rewrite (proj2 (Nat.eqb_neq j index)) by lia. reflexivity. }
  assert (Cl : walk f 0 (length pk) cc = cc).
  { pose proof (ring_close f (length pk) index c0 Hi) as RC. cbv zeta in RC. rewrite <- Ecc in RC. apply RC.
    rewrite <- Eci, Hf by exact Hi. rewrite Nat.eqb_refl. unfold c0. rewrite (Hclose ci Sci). reflexivity. }
  rewrite Cl. unfold sc_sub. rewrite Z.sub_diag. reflexivity.
Qed.
End M.
