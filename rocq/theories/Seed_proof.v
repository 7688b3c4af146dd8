From Verif Require Import Py PyLemmas Digits B58Mnr_model Mnemonic_words Mnemonic_model Mnemonic_proof Ints_model Ints_proof2 Ec_model Mlsag_model
  Bip32_model Bip32_spec Bip32_base Bip32_proof Bip32_path Bip32_derive Seed_model.

(** a word of small letters *)
Definition letters (w : list Z) : bool := negb (zlen w =? 0) && forallb (fun c => (97 <=? c) && (c <=? 122)) w.
Lemma words_letters : forallb letters words = true.
Proof. vm_compute. reflexivity. Qed.
Lemma word_letters w : In w words -> w <> [] /\ Forall (fun c => 97 <= c <= 122) w.
Proof.
  intros H. pose proof words_letters as L. rewrite forallb_forall in L. specialize (L w H). unfold letters in L.
  apply andb_true_iff in L. destruct L as [L1 L2]. split.
  - intros ->. discriminate.
  - rewrite forallb_forall in L2. apply Forall_forall. intros c Hc. specialize (L2 c Hc). lia.
Qed.
Lemma lstrip_letters w : Forall (fun c => 97 <= c <= 122) w -> lstrip_blank w = w.
Proof. intros H. destruct H as [|c w Hc]; [reflexivity|]. cbn [lstrip_blank]. unfold blank. replace ((c =? 32) || ((9 <=? c) && (c <=? 13))) with false by lia. reflexivity. Qed.
Lemma clean_word w : In w words -> lower (strip_blank w) = w.
Proof.
  intros H. destruct (word_letters w H) as [_ L]. unfold strip_blank. rewrite (lstrip_letters w L).
  rewrite (lstrip_letters (rev w)) by (apply Forall_rev, L). rewrite rev_involutive. unfold lower.
  rewrite <- (map_id w) at 2. apply map_ext_in. intros c Hc. rewrite Forall_forall in L. specialize (L c Hc).
  replace ((65 <=? c) && (c <=? 90)) with false by lia. reflexivity.
Qed.
Lemma split_sp_app w r : ~ In 32 w -> split_sp (w ++ 32 :: r) = w :: split_sp r.
Proof.
  induction w as [|c w IH]; intros H; cbn [app split_sp]; [reflexivity|].
  destruct (Z.eqb_spec c 32) as [->|]; [destruct H; left; reflexivity|].
  rewrite IH by (intros K; apply H; right; exact K). reflexivity.
Qed.
Lemma split_sp_one w : ~ In 32 w -> split_sp w = [w].
Proof.
  induction w as [|c w IH]; intros H; cbn [split_sp]; [reflexivity|].
  destruct (Z.eqb_spec c 32) as [->|]; [destruct H; left; reflexivity|].
  rewrite IH by (intros K; apply H; right; exact K). reflexivity.
Qed.
Lemma word_no_sp w : In w words -> ~ In 32 w.
Proof. intros H K. destruct (word_letters w H) as [_ L]. rewrite Forall_forall in L. specialize (L 32 K). lia. Qed.
Lemma split_join ws : ws <> [] -> Forall (fun w => In w words) ws -> split_sp (join_sp ws) = ws.
Proof.
  intros N H. induction H as [|w ws Hw H IH]; [destruct (N eq_refl)|].
  destruct ws as [|w2 ws]; cbn [join_sp].
  - apply split_sp_one, word_no_sp, Hw.
  - rewrite split_sp_app by (apply word_no_sp, Hw). f_equal. apply IH. discriminate.
Qed.
Lemma clean_words ws : Forall (fun w => In w words) ws -> map (fun x => lower (strip_blank x)) ws = ws.
Proof. intros H. rewrite <- (map_id ws) at 2. apply map_ext_in. intros w Hw. rewrite Forall_forall in H. apply clean_word, H, Hw. Qed.

Lemma word_at_in i w : word_at words i = Ok w -> In w words.
Proof.
  unfold word_at, py_get. destruct (py_idx (zlen words) i) as [k|]; [|discriminate].
  destruct (nth_error words k) eqn:E; [|discriminate]. intros H. assert (w = l) by congruence. subst. eapply nth_error_In, E.
Qed.
Lemma words_of_in message ws : mn_words_of words message = Ok ws -> Forall (fun w => In w words) ws.
Proof.
  unfold mn_words_of. match goal with |- foldM ?g _ _ = _ -> _ => set (f := g) end.
  enough (K : forall l acc, Forall (fun w => In w words) acc -> foldM f l acc = Ok ws -> Forall (fun w => In w words) ws) by (apply K; constructor).
  induction l as [|i l IH]; intros acc HA H; cbn [foldM] in H; [|unfold f at 1 in H].
  - assert (acc = ws) by congruence. subst. exact HA.
  - destruct (int16 _) as [x|]; cbn [bind] in H; [|discriminate].
    destruct (word_at words (x mod zlen words)) as [a|] eqn:Ea; cbn [bind] in H; [|discriminate].
    destruct (word_at words ((x / zlen words + x mod zlen words) mod zlen words)) as [b|] eqn:Eb; cbn [bind] in H; [|discriminate].
    match type of H with context [word_at words ?t] => destruct (word_at words t) as [c|] eqn:Ec end; cbn [bind] in H; [|discriminate].
    apply IH in H; [exact H|]. apply Forall_app. split; [exact HA|].
    constructor; [eapply word_at_in; eassumption|]. constructor; [eapply word_at_in; eassumption|]. constructor; [eapply word_at_in; eassumption|constructor].
Qed.

Lemma encode_split W m ws w : mn_encode W m true = Ok (ws ++ [w]) -> mn_encode W m false = Ok ws.
Proof.
  unfold mn_encode. destruct (mn_words_of W (mn_swap_all (hexlify m))) as [out|]; cbn [bind]; [|discriminate].
  destruct (checksum_create out) as [i|]; cbn [bind]; [|discriminate]. destruct (py_get out i) as [x|]; cbn [bind]; [|discriminate].
  intros E. assert (Y : out ++ [x] = ws ++ [w]) by congruence. apply app_inj_tail in Y. destruct Y. congruence.
Qed.
Lemma encode_plain_of W m ws : mn_encode W m false = Ok ws -> mn_words_of W (mn_swap_all (hexlify m)) = Ok ws.
Proof. unfold mn_encode. destruct (mn_words_of W (mn_swap_all (hexlify m))) as [out|]; cbn [bind]; congruence. Qed.

Section S.
Context (O : bops) (cn : list Z -> list Z).

(** what the words and the keys of a seed are *)
Lemma seed_words m : bytes_ok m -> zlen m mod 4 = 0 -> m <> [] ->
  exists ws, mn_encode words m true = Ok ws /\ ws <> [] /\ Forall (fun w => In w words) ws /\ mn_decode words ws = Ok (hexlify m).
Proof.
  intros B Z4 N. destruct (real_round_trip_checksum m B Z4 N) as (ws & w & E1 & E2 & Iw & D).
  exists (ws ++ [w]). split; [exact E1|]. split; [destruct ws; discriminate|]. split; [|exact D].
  pose proof (encode_plain_of words m ws E2) as EW. apply words_of_in in EW. apply Forall_app. split; [exact EW|].
  constructor; [|constructor]. rewrite Forall_forall in EW. apply EW, Iw.
Qed.
Lemma restore_gen m ws inp : bytes_ok m -> mn_encode words m true = Ok ws -> mn_decode words ws = Ok (hexlify m) ->
  clean_input inp = ws -> from_monero_mnemonics O cn inp = from_monero_seed O cn m.
Proof.
  intros B E D C. unfold from_monero_mnemonics. rewrite C, D. cbn [bind]. rewrite unhexlify_hexlify by exact B. reflexivity.
Qed.
Lemma decode32 m : bytes_ok m -> length m = 32%nat -> decodeint m 0 = Ok (le_val 256 m mod l).
Proof.
  intros B L. unfold decodeint, offset_of. rewrite Z.eqb_refl. rewrite decodeint_raw_val by exact B.
  replace (32 <=? zlen m) with true by (unfold zlen; rewrite L; reflexivity). cbn [bind]. rewrite firstn_all2 by (rewrite L; auto). reflexivity.
Qed.
Definition hash32 : Prop := forall m, length (cn m) = 32%nat /\ bytes_ok (cn m).
Lemma set_ok ph m : hash32 -> bytes_ok m -> length m = 32%nat -> exists ws, mn_encode words m true = Ok ws /\
  ws <> [] /\ Forall (fun w => In w words) ws /\ mn_decode words ws = Ok (hexlify m) /\
  let s := le_val 256 m mod l in let v := le_val 256 (cn (enc_sc s)) mod l in
  set_monero_seed O cn ph m = Ok {| pre_hash := ph; monero_master := m; electrum_words := join_sp ws;
    spend_sec := s; spend_pub := scalarmult_base (bE O) s; view_sec := v; view_pub := scalarmult_base (bE O) v |}.
Proof.
  intros H B L. destruct (seed_words m B) as (ws & E & N & F & D); [unfold zlen; rewrite L; reflexivity|destruct m; [discriminate L|discriminate]|].
  exists ws. split; [exact E|]. split; [exact N|]. split; [exact F|]. split; [exact D|].
  intros s v. unfold set_monero_seed. rewrite E. cbn [bind]. unfold generate_monero_keys. rewrite decode32 by assumption. cbn [bind generate_keys].
  destruct (H (enc_sc (le_val 256 m mod l))) as [HL HB]. rewrite decode32 by assumption. reflexivity.
Qed.
Lemma whole_string ws : zlen (clean_input (IStr ws)) / 3 = 0.
Proof. reflexivity. Qed.
Lemma string_fails s : from_monero_mnemonics O cn (IStr s) = Err ZeroDivision.
Proof.
  unfold from_monero_mnemonics. unfold clean_input. cbn [map]. unfold mn_decode.
  replace (zlen words mod 3 =? 1) with false by (pose proof words_mod3; lia). cbn [bind].
  change (zlen [lower (strip_blank s)] / 3) with 0. change (zrange 0) with (@nil Z). cbn [foldM bind unhexlify].
  unfold set_monero_seed, mn_encode. cbn [hexlify flat_map]. change (mn_swap_all []) with (@nil Z).
  unfold mn_words_of. change (zlen (@nil Z) / 8) with 0. change (zrange 0) with (@nil Z). cbn [foldM bind]. reflexivity.
Qed.
End S.
