(** C79: wallets written down as BIP-0039 words and restored from them. *)
From Coq Require Import String.
From Verif Require Import Py PyLemmas Digits B58Mnr_spec B58Mnr_model Ints_model Ints_spec Ints_proof3 Ec_model Ec_toy Mlsag_model Bip32_model Prop_Bip32 Seed_model Seed_proof
  Bip39_words Bip39_model Bip39_spec Bip39_proof.

(** an entropy of 4 j bytes, 1 <= j <= 8, and the first byte of its hash *)
Definition entropy (j : Z) (secret : list Z) : Prop := bytes_ok secret /\ zlen secret = 4 * j /\ 1 <= j <= 8.

(** the words of a wallet made from a secret are the sentence that BIP-0039 defines for it, and the numbers returned with
    them are their numbers in the list *)
Theorem C79_words : forall O secret net ed w j cs, entropy j secret -> byte_ok cs -> firstn 1 (sha256 O secret) = [cs] ->
  from_master_secret O secret net ed = Ok w ->
  exists ws is, to_seed_words O w = Ok (Some (ws, is)) /\ sentence j cs secret ws /\ Forall2 word_no ws is.
Proof.
  intros O secret net ed w j cs (B & L & J) C S W. destruct (sentence_exists j cs secret B L J C (sha256 O) S) as (ws & E & F & T).
  exists ws, (to_seed_indices (sha256 O) secret). unfold to_seed_words. rewrite (master_seed _ _ _ _ _ W). cbv zeta. rewrite E. auto.
Qed.
Print Assumptions C79_words.

(** the list has 2048 different words of small letters, so that a word has one number *)
Theorem C79_list : zlen english_words = 2048 /\ Forall (fun w => w <> [] /\ Forall (fun c => 97 <= c <= 122) w) english_words /\
  forall w i k, word_no w i -> word_no w k -> i = k.
Proof.
  split; [exact english_len|]. split; [apply Forall_forall; intros w; apply english_letters|]. intros w i k H K. apply word_index in H. apply word_index in K. congruence.
Qed.
Print Assumptions C79_list.

(** the words of up to 28 bytes, handed back in any grouping into lines and in small or capital letters, restore the wallet
    of these bytes.  Missing: 32 bytes, and one string with all the words (both refuted below) *)
Theorem C79_restore_partial : forall O cn P secret j cs ws lines path slip, entropy j secret -> j < 8 -> byte_ok cs -> sentence j cs secret ws -> lines_of ws lines ->
  from_mnemonics O cn P (IList lines) true [] path slip = from_master_seed O cn secret path slip.
Proof.
  intros O cn P secret j cs ws lines path slip (B & L & J) J8 C S G. destruct (sentence_bytes j cs secret ws B L J C S) as (is & F & E). replace (j =? 8) with false in E by lia.
  unfold from_mnemonics. cbv zeta. rewrite (clean_lines _ _ G). change (zlen (@nil Z) =? 0) with true. cbn [guard bind]. rewrite (words_index _ _ F). cbn [bind]. rewrite E. reflexivity.
Qed.
Print Assumptions C79_restore_partial.

(** the words of every 32-byte secret restore the wallet of 33 bytes, the secret and a byte of its hash *)
Theorem C79_restore_refuted : forall O cn P secret cs ws lines path slip, entropy 8 secret -> byte_ok cs -> sentence 8 cs secret ws -> lines_of ws lines ->
  from_mnemonics O cn P (IList lines) true [] path slip = from_master_seed O cn (secret ++ [cs]) path slip.
Proof.
  intros O cn P secret cs ws lines path slip (B & L & J) C S G. destruct (sentence_bytes 8 cs secret ws B L J C S) as (is & F & E).
  unfold from_mnemonics. cbv zeta. rewrite (clean_lines _ _ G). change (zlen (@nil Z) =? 0) with true. cbn [guard bind]. rewrite (words_index _ _ F). cbn [bind]. rewrite E. reflexivity.
Qed.
Print Assumptions C79_restore_refuted.

(** the checksum is never looked at: whatever byte stands for the hash, there is a sentence with its bits, and for up to 28
    bytes of entropy all of these sentences open the same wallet *)
Theorem C79_checksum_refuted : forall O cn P secret j path slip, entropy j secret -> j < 8 ->
  forall cs, byte_ok cs -> exists ws, sentence j cs secret ws /\ from_mnemonics O cn P (IList ws) true [] path slip = from_master_seed O cn secret path slip.
Proof.
  intros O cn P secret j path slip (B & L & J) J8 cs C. destruct (sentence_exists j cs secret B L J C (fun _ => [cs]) eq_refl) as (ws & _ & F & S).
  exists ws. split; [exact S|]. apply (C79_restore_partial O cn P secret j cs ws); try assumption; [split; auto|].
  exists (map (fun w => [w]) ws). split; [apply Forall_forall; intros g I; apply in_map_iff in I; destruct I as (x & <- & _); discriminate|].
  split; [rewrite map_map; cbn [join_sp]; symmetry; apply map_id|]. replace (concat (map (fun w => [w]) ws)) with ws by (clear; induction ws as [|w ws IH]; [reflexivity|cbn [map concat app]; congruence]).
  clear - F. induction F as [|w i ws is H _ IH]; constructor; [|exact IH]. destruct (english_letters w (word_no_in _ _ H)) as [_ LW]. split.
  - unfold lower. rewrite <- (map_id w) at 2. apply map_ext_in. intros c I. rewrite Forall_forall in LW. specialize (LW c I). replace ((65 <=? c) && (c <=? 90)) with false by lia. reflexivity.
  - eapply Forall_impl; [|exact LW]. cbn beta. lia.
Qed.
Print Assumptions C79_checksum_refuted.

(** a word that is not in the list, and a passphrase, are refused when the words are read as numbers *)
Theorem C79_refused : forall O cn P ws lines path slip, lines_of ws lines ->
  (Exists (fun w => ~ In w english_words) ws -> from_mnemonics O cn P (IList lines) true [] path slip = Err ValueError) /\
  forall passphrase, passphrase <> [] -> from_mnemonics O cn P (IList lines) true passphrase path slip = Err ValueError.
Proof.
  intros O cn P ws lines path slip G. unfold from_mnemonics. cbv zeta. rewrite (clean_lines _ _ G). split.
  - intros H. change (zlen (@nil Z) =? 0) with true. cbn [guard bind]. rewrite (indices_err _ H). reflexivity.
  - intros [|c p] H; [destruct (H eq_refl)|]. replace (zlen (c :: p) =? 0) with false by (unfold zlen; cbn [length]; lia). reflexivity.
Qed.
Print Assumptions C79_refused.

(** one string with all the words is refused when the words are read as numbers *)
Theorem C79_string_refuted : forall O cn P w1 w2 ws path slip, Forall (fun w => In w english_words) (w1 :: w2 :: ws) ->
  from_mnemonics O cn P (IStr (join_sp (w1 :: w2 :: ws))) true [] path slip = Err ValueError.
Proof.
  intros O cn P w1 w2 ws path slip H. assert (B : Forall both (w1 :: w2 :: ws) /\ Forall (fun w => w <> []) (w1 :: w2 :: ws)).
  { split; (eapply Forall_impl; [|exact H]); intros w I; destruct (english_letters w I) as [N LW]; [eapply Forall_impl; [|exact LW]; cbn beta; lia|exact N]. }
  destruct B as [B N]. unfold from_mnemonics, clean_input. cbv zeta. cbn [map]. rewrite nonblank_ends; [|intros c Q; exact (join_hd _ _ B N Q)|intros c Q; exact (join_last _ _ B N Q)].
  change (zlen (@nil Z) =? 0) with true. cbn [guard bind]. rewrite indices_err; [reflexivity|]. constructor. intros I. destruct (english_letters _ I) as [_ LW]. rewrite Forall_forall in LW.
  assert (Q : In 32 (lower (join_sp (w1 :: w2 :: ws)))) by (apply in_lower; [cbn [join_sp]; apply in_or_app; right; left; reflexivity|reflexivity]). specialize (LW 32 Q). lia.
Qed.
Print Assumptions C79_string_refuted.

(** otherwise the seed is PBKDF2 of the sentence, as BIP-0039 has it: 2048 rounds of HMAC-SHA512, 64 bytes, the salt
    "mnemonic" and the passphrase; the words may come as lines in any grouping or as one string *)
Theorem C79_sentence : forall O cn P ws passphrase path slip inp, ws <> [] -> Forall (fun w => w <> []) ws ->
  (exists lines, inp = IList lines /\ lines_of ws lines) \/ (exists vs, inp = IStr (join_sp vs) /\ Forall2 capital ws vs) ->
  from_mnemonics O cn P inp false passphrase path slip =
  from_master_seed O cn (P (join_sp ws) (codes "mnemonic"%string ++ passphrase) 64 (hmac512 O) 2048) path slip.
Proof.
  intros O cn P ws passphrase path slip inp N NE [(lines & -> & G)|(vs & -> & F)]; unfold from_mnemonics, mnemonics_to_seed; cbv zeta; [rewrite (clean_lines _ _ G)|rewrite (clean_string _ _ F NE)]; reflexivity.
Qed.
Print Assumptions C79_sentence.

(** a second blank between two words is part of the sentence, and makes the words unreadable as numbers *)
Theorem C79_blanks_refuted : forall O cn P a b passphrase path slip, In a english_words -> In b english_words ->
  from_mnemonics O cn P (IList [a ++ 32 :: 32 :: b]) false passphrase path slip =
    from_master_seed O cn (P (a ++ 32 :: 32 :: b) (codes "mnemonic"%string ++ passphrase) 64 (hmac512 O) 2048) path slip /\
  from_mnemonics O cn P (IList [a ++ 32 :: 32 :: b]) true [] path slip = Err ValueError.
Proof.
  intros O cn P a b passphrase path slip Ia Ib. destruct (english_letters a Ia) as [Na La]. destruct (english_letters b Ib) as [Nb Lb].
  assert (X : forall w, Forall (fun c => 97 <= c <= 122) w -> both w /\ lower w = w).
  { intros w LW. split; [eapply Forall_impl; [|exact LW]; cbn beta; lia|]. unfold lower. rewrite <- (map_id w) at 2. apply map_ext_in. intros c I. rewrite Forall_forall in LW. specialize (LW c I). replace ((65 <=? c) && (c <=? 90)) with false by lia. reflexivity. }
  destruct (X a La) as [Ba Ea]. destruct (X b Lb) as [Bb Eb].
  assert (C : clean_input (IList [a ++ 32 :: 32 :: b]) = [a; []; b]).
  { unfold clean_input. cbn [flat_map]. rewrite app_nil_r, split_sp_app by (apply both_no_sp, Ba). change (split_sp (32 :: b)) with ([] :: split_sp b). rewrite split_sp_one by (apply both_no_sp, Bb). cbn [map]. rewrite (strip_both a Ba), (strip_both b Bb). rewrite Ea, Eb. reflexivity. }
  unfold from_mnemonics, mnemonics_to_seed. cbv zeta. rewrite C. split; [reflexivity|]. change (zlen (@nil Z) =? 0) with true. cbn [guard bind]. rewrite indices_err; [reflexivity|].
  right. left. intros I. destruct (english_letters _ I) as [K _]. exact (K eq_refl).
Qed.
Print Assumptions C79_blanks_refuted.

(** ** Examples *)
Definition ex_e4 : list Z := [0; 255; 16; 32].
Definition ex_e32 : list Z := map (fun i => Z.of_nat i * 5 + 1) (seq 0 32).
Example C79_case : entropy 1 ex_e4 /\ entropy 8 ex_e32 /\ exists w, from_master_secret toyB ex_e4 MoneroMainNet false = Ok w /\ byte_ok (hd 0 (sha256 toyB ex_e4)) /\ firstn 1 (sha256 toyB ex_e4) = [hd 0 (sha256 toyB ex_e4)].
Proof.
  split; [split; [apply bytes_okb_spec; reflexivity|split; [reflexivity|lia]]|]. split; [split; [apply bytes_okb_spec; reflexivity|split; [reflexivity|lia]]|].
  assert (H : okT (from_master_secret toyB ex_e4 MoneroMainNet false) (fun _ => true) = true) by (vm_compute; reflexivity). apply okT_spec in H. destruct H as (w & H & _). exists w. split; [exact H|].
  split; [|vm_compute; reflexivity]. assert (K : (0 <=? hd 0 (sha256 toyB ex_e4)) && (hd 0 (sha256 toyB ex_e4) <? 256) = true) by (vm_compute; reflexivity). unfold byte_ok. lia.
Qed.
(** three words, and the same entropy with another checksum *)
Example C79_case_words : sentence 1 0 ex_e4 (map codes ["abstract"; "weasel"; "amount"]%string) /\ sentence 1 128 ex_e4 (map codes ["abstract"; "weasel"; "amused"]%string) /\
  lines_of (map codes ["abstract"; "weasel"; "amount"]%string) (map codes ["Abstract weasel"; "AMOUNT"]%string).
Proof.
  assert (W : forall a i, (0 <=? i) && match nth_error english_words (Z.to_nat i) with Some w => zlist_eqb w a | None => false end = true -> word_no a i).
  { intros a i H. apply andb_true_iff in H. destruct H as [H1 H2]. split; [lia|]. destruct (nth_error english_words (Z.to_nat i)) as [w|]; [|discriminate]. apply zlist_eqb_spec in H2. congruence. }
  split; [|split].
  - split; [reflexivity|]. exists [7; 1988; 64]. split; [|reflexivity]. cbn [map]. do 3 (apply Forall2_cons; [apply W; vm_compute; reflexivity|]). apply Forall2_nil.
  - split; [reflexivity|]. exists [7; 1988; 65]. split; [|reflexivity]. cbn [map]. do 3 (apply Forall2_cons; [apply W; vm_compute; reflexivity|]). apply Forall2_nil.
  - exists (map (map codes) [["Abstract"; "weasel"]; ["AMOUNT"]]%string). split; [repeat constructor; discriminate|]. split; [reflexivity|]. cbn [map concat app].
    assert (K : forall a b, zlist_eqb (lower b) a && forallb (fun c => ((65 <=? c) && (c <=? 90)) || ((97 <=? c) && (c <=? 122))) b = true -> capital a b).
    { intros a b H. apply andb_true_iff in H. destruct H as [H1 H2]. split; [apply zlist_eqb_spec, H1|]. rewrite forallb_forall in H2. apply Forall_forall. intros c I. specialize (H2 c I). lia. }
    apply Forall2_cons; [apply K; vm_compute; reflexivity|]. apply Forall2_cons; [apply K; vm_compute; reflexivity|]. apply Forall2_cons; [apply K; vm_compute; reflexivity|]. apply Forall2_nil.
Qed.
(** the words of 32 bytes open another wallet than the bytes *)
Example C79_case_other : exists d d', from_master_seed toyB toy_hash ex_e32 None true = Ok d /\
  from_master_seed toyB toy_hash (ex_e32 ++ firstn 1 (sha256 toyB ex_e32)) None true = Ok d' /\ spend_sec d <> spend_sec d'.
Proof.
  assert (H : okT (from_master_seed toyB toy_hash ex_e32 None true) (fun d => okT (from_master_seed toyB toy_hash (ex_e32 ++ firstn 1 (sha256 toyB ex_e32)) None true)
    (fun d' => negb (spend_sec d =? spend_sec d'))) = true) by (vm_compute; reflexivity).
  apply okT_spec in H. destruct H as (d & H & B). apply okT_spec in B. destruct B as (d' & H' & B). exists d, d'. rewrite negb_true_iff in B. split; [exact H|]. split; [exact H'|]. lia.
Qed.
