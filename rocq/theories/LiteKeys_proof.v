(** Key commands of the lite device: step lemmas, frame, failing commands, cipher modes. *)
From Verif Require Import Py PyLemmas Digits Ints_model Ints_proof2 Ints_proof3 Protobuf_spec Ec_model Ec_spec Ec_proof Mlsag_model Rsig_model Sigs_model Wallet_model Container_model Container_proof Lite_model KeySep_proof Lite_proof LiteKeys_model LiteKeys_spec.
Ltac Zify.zify_post_hook ::= idtac.

(** ** Frame *)
Section Frame.
Context (E : ecops) (K : lite_prims).
Local Notation lst := (lst E).
Definition keeps {A} (e : m E A) : Prop := forall s, same_keys E s (fst (e s)).
Lemma same_keys_refl (s : lst) : same_keys E s s. Proof. unfold same_keys. auto 10. Qed.
Lemma same_keys_trans (a b c : lst) : same_keys E a b -> same_keys E b c -> same_keys E a c. Proof. unfold same_keys. intuition congruence. Qed.
Lemma keeps_bind {A B} (e : m E A) (k : A -> m E B) : keeps e -> (forall x, keeps (k x)) -> keeps (mbind E e k).
Proof. intros He Hk s. unfold mbind. specialize (He s). destruct (e s) as [s1 [x|r]]; [|exact He]. cbn [fst] in *. eapply same_keys_trans; [exact He|apply Hk]. Qed.
Lemma keeps_ret {A} (x : A) : keeps (ret E x). Proof. intros s. apply same_keys_refl. Qed.
Lemma keeps_fail {A} x : keeps (fail (A := A) E x). Proof. intros s. apply same_keys_refl. Qed.
Lemma keeps_lift {A} (x : res A) : keeps (lift E x). Proof. intros s. apply same_keys_refl. Qed.
Lemma keeps_get {A} (f : lst -> A) : keeps (get E f). Proof. intros s. apply same_keys_refl. Qed.
Lemma keeps_upd f : (forall s, same_keys E s (f s)) -> keeps (upd E f). Proof. intros H s. apply H. Qed.
Lemma keeps_fetch n : keeps (fetch E n). Proof. intros s. unfold fetch. destruct (Nat.ltb _ _); unfold same_keys; cbn; auto 10. Qed.
End Frame.
Ltac kp1 :=
  lazymatch goal with
  | |- keeps _ (mbind _ _ _) => apply keeps_bind; [|intros ?]
  | |- keeps _ (ret _ _) => apply keeps_ret
  | |- keeps _ (fail _ _) => apply keeps_fail
  | |- keeps _ (lift _ _) => apply keeps_lift
  | |- keeps _ (get _ _) => apply keeps_get
  | |- keeps _ (upd _ _) => apply keeps_upd; intros ?; unfold same_keys; cbn; auto 10
  | |- keeps _ (fetch _ _) => apply keeps_fetch
  | |- keeps _ (if ?b then _ else _) => destruct b
  | |- keeps _ (match ?x with Some _ => _ | None => _ end) => destruct x
  | |- keeps _ ?e => let h := head_of e in unfold h; cbv zeta
  end
with head_of e := lazymatch e with ?f _ => head_of f | _ => e end.
Section Frame2.
Context (E : ecops) (K : lite_prims).
Lemma command_keeps t ins p1 p2 n : ins <> 0x22 -> keeps E (command E K t ins p1 p2 n).
Proof. intros H. unfold command. rewrite (proj2 (Z.eqb_neq ins INS_PUT_KEY) H). repeat kp1. Qed.
Lemma dispatch_keeps c s : c_ins c <> 0x22 -> same_keys E s (fst (dispatch E K c s)).
Proof.
  intros H. unfold dispatch. cbv zeta. set (s0 := set_out E [] (set_in E (c_input c) s)).
  assert (Q : keeps E (sub_dispatch E K (c_tape c) (c_ins c) (c_p1 c) (c_p2 c) (length (c_input c)))).
  { unfold sub_dispatch, fetch_u8. repeat first [apply keeps_bind; [|intros ?]|apply command_keeps; exact H|kp1]. }
  specialize (Q s0). destruct (sub_dispatch _ _ _ _ _ _ _ s0) as [s1 [x|r]]; exact Q.
Qed.
Lemma lrun_keeps cs : forall s, Forall (fun x => c_ins x <> 0x22) cs -> same_keys E s (fst (lrun E K cs s)).
Proof.
  induction cs as [|c cs IH]; intros s F; [apply same_keys_refl|]. inversion_clear F as [|x y H F']. cbn [lrun]. pose proof (dispatch_keeps c s H) as D. destruct (dispatch E K c s) as [s1 o].
  specialize (IH s1 F'). destruct (lrun E K cs s1) as [s2 os]. eapply same_keys_trans; [exact D|exact IH].
Qed.
End Frame2.

(** ** Commands which never succeed *)
Section Never.
Context (E : ecops) (K : lite_prims).
Definition never {A} (e : m E A) : Prop := forall s s' x, e s <> (s', Ok x).
Lemma never_l {A B} (e : m E A) (k : A -> m E B) : never e -> never (mbind E e k).
Proof. intros N s s' x Q. apply mbind_inv in Q. destruct Q as (s1 & y & Q & _). exact (N _ _ _ Q). Qed.
Lemma never_r {A B} (e : m E A) (k : A -> m E B) : (forall x, never (k x)) -> never (mbind E e k).
Proof. intros N s s' x Q. apply mbind_inv in Q. destruct Q as (s1 & y & _ & Q). exact (N _ _ _ _ Q). Qed.
Lemma never_fail {A} x : never (fail (A := A) E x). Proof. intros s s' y Q. exact (fail_inv _ _ _ _ _ Q). Qed.
Lemma never_lift {A} x : never (lift (A := A) E (Err x)). Proof. intros s s' y Q. apply lift_inv in Q. destruct Q; discriminate. Qed.
Lemma never_dispatch c : never (command E K (c_tape c) (c_ins c) (c_p1 c) (c_p2 c) (length (c_input c))) -> forall s out, snd (dispatch E K c s) <> Ok out.
Proof.
  intros N s out. unfold dispatch. cbv zeta. destruct (sub_dispatch _ _ _ _ _ _ _ _) as [s1 [x|r]] eqn:D; [|discriminate]. exfalso. revert D. unfold sub_dispatch. apply never_r. intros ?. apply never_r. intros ?. exact N.
Qed.
Lemma never_insert_encrypt b : (forall k d iv, aes_enc K k d iv = Err TypeError) -> never (insert_encrypt E K b).
Proof. intros H. unfold insert_encrypt. apply never_r. intros k. apply never_l. rewrite H. apply never_lift. Qed.
End Never.

(** ** Steps *)
Section Steps.
Context (E : ecops) (L : ec_laws E) (LE : forall P, length (encp E P) = 32%nat) (K : lite_prims).
Local Notation lst := (lst E).
Lemma firstn_app_eq (x r : list Z) n : length x = n -> firstn n (x ++ r) = x /\ skipn n (x ++ r) = r.
Proof. intros <-. split; [rewrite firstn_app, firstn_all, Nat.sub_diag; apply app_nil_r|rewrite skipn_app, skipn_all, Nat.sub_diag; reflexivity]. Qed.
Lemma fetch_app (x r : list Z) n (s : lst) : length x = n -> fetch E n (set_in E (x ++ r) s) = (set_in E r s, Ok x).
Proof.
  intros H. unfold fetch. cbn [l_in set_in]. destruct (firstn_app_eq x r n H) as [-> ->]. rewrite (proj2 (Nat.ltb_ge _ _)) by (rewrite app_length; lia). reflexivity.
Qed.
Lemma pt_app P (r : list Z) (s : lst) : fetch_pt E (set_in E (encp E P ++ r) s) = (set_in E r s, Ok P).
Proof. unfold fetch_pt, mbind. rewrite fetch_app by apply LE. unfold lift. rewrite (law_dec E L). reflexivity. Qed.
Lemma sc_app v (r : list Z) (s : lst) : scalar v -> fetch_sc E (set_in E (enc_sc v ++ r) s) = (set_in E r s, Ok v).
Proof. intros H. unfold fetch_sc, mbind. rewrite fetch_app by apply le_digits_length. unfold lift. rewrite decodeint_enc0 by exact H. reflexivity. Qed.
Lemma dec_app c d (r : list Z) (s : lst) : length c = 32%nat -> aes_dec K (l_key E s) c iv0 = Ok d -> fetch_decrypt E K (set_in E (c ++ r) s) = (set_in E r s, Ok d).
Proof. intros H D. unfold fetch_decrypt, mbind. rewrite fetch_app by exact H. unfold get, lift. cbn [l_key set_in]. rewrite D. reflexivity. Qed.
Lemma decpt_app c P (r : list Z) (s : lst) : length c = 32%nat -> aes_dec K (l_key E s) c iv0 = Ok (encp E P) -> fetch_decrypt_pt E K (set_in E (c ++ r) s) = (set_in E r s, Ok P).
Proof. intros H D. unfold fetch_decrypt_pt, mbind at 1. rewrite (dec_app c (encp E P)) by assumption. unfold lift. rewrite (law_dec E L). reflexivity. Qed.
Lemma decsc_app c v (r : list Z) (s : lst) : length c = 32%nat -> aes_dec K (l_key E s) c iv0 = Ok (enc_sc v) -> scalar v -> fetch_decrypt_sc E K (set_in E (c ++ r) s) = (set_in E r s, Ok v).
Proof. intros H D V. unfold fetch_decrypt_sc, mbind at 1. rewrite (dec_app c (enc_sc v)) by assumption. unfold lift. rewrite decodeint_enc0 by exact V. reflexivity. Qed.
Lemma view_app (r : list Z) (s : lst) : fetch_decrypt_key E K (set_in E (own_view ++ r) s) = (set_in E r s, Ok (l_a E s)).
Proof. unfold fetch_decrypt_key, mbind at 1. rewrite fetch_app by reflexivity. reflexivity. Qed.
Lemma spend_app (r : list Z) (s : lst) : fetch_decrypt_key E K (set_in E (own_spend ++ r) s) = (set_in E r s, Ok (l_b E s)).
Proof. unfold fetch_decrypt_key, mbind at 1. rewrite fetch_app by reflexivity. reflexivity. Qed.
Lemma u8_app x (r : list Z) (s : lst) : 0 <= x < 256 -> fetch_u8 E (set_in E (x :: r) s) = (set_in E r s, Ok x).
Proof.
  intros H. unfold fetch_u8, mbind at 1. rewrite (fetch_app [x] r 1 s eq_refl : fetch E 1 (set_in E (x :: r) s) = _). unfold ret. cbn [nth]. change 255 with (Z.ones 8). rewrite Z.land_ones by lia. rewrite Z.mod_small by (change (2 ^ 8) with 256; lia). reflexivity.
Qed.
Lemma u32_val a b c d : 0 <= b < 256 -> 0 <= c < 256 -> 0 <= d < 256 -> Z.lor (Z.lor (Z.lor (Z.shiftl a 24) (Z.shiftl b 16)) (Z.shiftl c 8)) d = ((a * 256 + b) * 256 + c) * 256 + d.
Proof.
  intros Hb Hc Hd. change 24 with (8 + 16) at 1. rewrite <- (Z.shiftl_shiftl a 8 16), <- Z.shiftl_lor by lia. rewrite (lor_shift a 8 b) by (change (2 ^ 8) with 256; lia).
  change 16 with (8 + 8). rewrite <- (Z.shiftl_shiftl _ 8 8), <- Z.shiftl_lor by lia. rewrite (lor_shift _ 8 c) by (change (2 ^ 8) with 256; lia). rewrite (lor_shift _ 8 d) by (change (2 ^ 8) with 256; lia). reflexivity.
Qed.
Lemma be4_val i : 0 <= i < 2 ^ 32 -> ((i / 2 ^ 24 * 256 + i / 2 ^ 16 mod 256) * 256 + i / 2 ^ 8 mod 256) * 256 + i mod 256 = i.
Proof.
  intros H. change (2 ^ 24) with (256 * 256 * 256). change (2 ^ 16) with (256 * 256). change (2 ^ 8) with 256. rewrite <- !Z.div_div by lia.
  pose proof (Z.div_mod i 256). pose proof (Z.div_mod (i / 256) 256). pose proof (Z.div_mod (i / 256 / 256) 256). lia.
Qed.
Lemma u32_app i (r : list Z) (s : lst) : 0 <= i < 2 ^ 32 -> fetch_u32 E (set_in E (be4 i ++ r) s) = (set_in E r s, Ok i).
Proof.
  intros H. assert (A : 0 <= i / 2 ^ 24 < 256).
  { split; [apply Z.div_pos; lia|]. apply Z.div_lt_upper_bound; [lia|]. change (2 ^ 24 * 256) with (2 ^ 32). lia. }
  pose proof (Z.mod_pos_bound (i / 2 ^ 16) 256). pose proof (Z.mod_pos_bound (i / 2 ^ 8) 256). pose proof (Z.mod_pos_bound i 256).
  unfold fetch_u32, be4. cbn [app]. unfold mbind. rewrite !u8_app by lia. unfold ret. rewrite u32_val by lia. rewrite be4_val by exact H. reflexivity.
Qed.
Lemma ins_ok b (s : lst) : insert E b s = (set_out E (l_out E s ++ b) s, Ok tt). Proof. reflexivity. Qed.
Lemma insenc_ok b c (s : lst) : aes_enc K (l_key E s) b iv0 = Ok c -> insert_encrypt E K b s = (set_out E (l_out E s ++ c) s, Ok tt).
Proof. intros H. unfold insert_encrypt, mbind, get, lift. rewrite H. reflexivity. Qed.
(** the state in which a command runs *)
Definition at_input (data : list Z) (s : lst) : lst := set_in E data (set_options E 0 (set_out E [] s)).
Lemma dispatch_cmd t ins p1 data (s : lst) e : command E K t ins p1 0 (S (length data)) = e -> dispatch E K (cmd t ins p1 data) s =
  match e (at_input (data ++ []) s) with (s, Ok sw) => (s, Ok (sw, l_out E s)) | (s, Err x) => (s, Err x) end.
Proof.
  intros <-. rewrite app_nil_r. unfold dispatch, sub_dispatch, cmd. cbn [c_tape c_ins c_p1 c_p2 c_input]. cbv zeta. unfold mbind at 1.
  rewrite (u8_app 0 data (set_out E [] s) ltac:(lia) : fetch_u8 E (set_out E [] (set_in E (0 :: data) s)) = _). reflexivity.
Qed.
(** from the present state to all later ones *)
Lemma answers_intro (s : lst) c out : (forall s', same_keys E s s' -> snd (dispatch E K c s') = Ok (0x9000, out)) -> answers E K s c out.
Proof. intros H h F. apply H, lrun_keeps, F. Qed.
End Steps.
(** ** Cipher modes *)
Lemma xor16_0 a : length a = 16%nat -> xor16 a (repeat 0 16) = a.
Proof. intros H. do 16 (destruct a as [|? a]; [discriminate|]). destruct a; [|discriminate]. cbn [repeat]. unfold xor16. cbn [combine map fst snd]. rewrite !Z.lxor_0_r. reflexivity. Qed.
Lemma xor16_0l a : length a = 16%nat -> xor16 (repeat 0 16) a = a.
Proof. intros H. do 16 (destruct a as [|? a]; [discriminate|]). destruct a; [|discriminate]. cbn [repeat]. unfold xor16. cbn [combine map fst snd]. rewrite !Z.lxor_0_l. reflexivity. Qed.
Lemma xor16_twice a b : length a = 16%nat -> length b = 16%nat -> xor16 (xor16 a b) b = a.
Proof.
  unfold xor16. generalize 16%nat. intros n. revert a b. induction n as [|n IH]; intros [|x a] [|y b] A B; try discriminate; [reflexivity|]. cbn [combine map fst snd]. rewrite IH by (cbn in *; lia).
  rewrite Z.lxor_assoc, Z.lxor_nilpotent, Z.lxor_0_r. reflexivity.
Qed.
Lemma xor16_len a b : length a = 16%nat -> length b = 16%nat -> length (xor16 a b) = 16%nat.
Proof. intros A B. unfold xor16. rewrite map_length, combine_length. lia. Qed.
Section Modes.
Context (B : block_cipher) (BO : cipher_ok B) (key : list Z).
Lemma halves (d : list Z) : length d = 32%nat -> length (firstn 16 d) = 16%nat /\ length (skipn 16 d) = 16%nat.
Proof. intros H. rewrite firstn_length, skipn_length. lia. Qed.
Lemma dec_two c1 c2 : length c1 = 16%nat -> length c2 = 16%nat -> aes_decrypt B key (c1 ++ c2) iv0 = Ok (xor16 (bc_dec B key c1) iv0 ++ xor16 (bc_dec B key c2) c1).
Proof.
  intros H1 H2. unfold aes_decrypt. change (negb (Nat.eqb (length iv0) 16)) with false. rewrite app_length, H1, H2. change (negb (Nat.eqb (Nat.modulo (16 + 16) 16) 0)) with false. change (Nat.div (16 + 16) 16) with 2%nat.
  cbv iota. cbn [cbc_dec]. destruct (firstn_app_eq c1 c2 16 H1) as [-> ->]. rewrite (firstn_all2 c2) by lia. rewrite app_nil_r. reflexivity.
Qed.
(** as the code has it, with a library which ignores the iv *)
Lemma mixed_modes d : length d = 32%nat -> exists c, aes_encrypt B false key d iv0 = Ok c /\ length c = 32%nat /\ aes_decrypt B key c iv0 = Ok (firstn 16 d ++ xor16 (skipn 16 d) (bc_enc B key (firstn 16 d))).
Proof.
  intros H. destruct (halves d H) as [H1 H2]. exists (bc_enc B key (firstn 16 d) ++ bc_enc B key (skipn 16 d)).
  destruct (BO key _ H1) as [L1 D1]. destruct (BO key _ H2) as [L2 D2].
  split. { unfold aes_encrypt. rewrite H. change (negb (Nat.eqb (Nat.modulo 32 16) 0)) with false. change (Nat.div 32 16) with 2%nat. cbv iota. cbn [ecb]. rewrite (firstn_all2 (skipn 16 d)) by lia. rewrite app_nil_r. reflexivity. }
  split; [rewrite app_length; lia|]. rewrite dec_two by assumption. rewrite D1, D2. unfold iv0. rewrite xor16_0 by exact H1. reflexivity.
Qed.
(** CBC in both directions *)
Lemma cbc_modes d : length d = 32%nat -> exists c, cbc_encrypt B key d iv0 = Ok c /\ length c = 32%nat /\ aes_decrypt B key c iv0 = Ok d.
Proof.
  intros H. destruct (halves d H) as [H1 H2]. destruct (BO key _ H1) as [L1 D1]. pose proof (xor16_len _ _ H2 L1) as HX. destruct (BO key _ HX) as [L2 D2].
  exists (bc_enc B key (firstn 16 d) ++ bc_enc B key (xor16 (skipn 16 d) (bc_enc B key (firstn 16 d)))).
  split. { unfold cbc_encrypt. rewrite H. change (negb (Nat.eqb (Nat.modulo 32 16) 0)) with false. change (Nat.div 32 16) with 2%nat. cbv iota. cbn [cbc_enc]. unfold iv0. rewrite (xor16_0 _ H1). rewrite (firstn_all2 (skipn 16 d)) by lia. rewrite app_nil_r. reflexivity. }
  split; [rewrite app_length; lia|]. rewrite dec_two by assumption. rewrite D1, D2. unfold iv0. rewrite xor16_0 by exact H1. rewrite xor16_twice by assumption. rewrite firstn_skipn. reflexivity.
Qed.
End Modes.
