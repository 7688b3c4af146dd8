(** C80: files exchanged with the desktop wallet. *)
From Verif Require Import Py PyLemmas Digits Ints_model Ec_model Ec_spec Ec_toy Sigs_model Sigs_spec Mlsag_model Container_model Container_proof Prop_Container Files_model Files_spec Files_proof.

Lemma opened E K priv plain nonce k : ec_laws E -> cipher_laws K -> signable E K priv plain nonce k -> decrypt_xmr E K priv (encrypt_xmr E K priv plain nonce k true) true = Ok plain.
Proof.
  intros L C (Hp & Hk & Hn & S). pose proof (C52_xmr_roundtrip E K L C priv plain nonce k true Hp Hk Hn) as R. cbv zeta in R. destruct (generate_signature _ _ _ _) as [[c r] p]. apply R. intros _. exact S.
Qed.

(** an unsigned transaction set is read back as it was written, with the key and hard fork it was written with *)
Theorem C80_unsigned : forall E K F, ec_laws E -> cipher_laws K -> lib_laws F -> forall priv x hf nonce k ser file,
  f_dump_uns F hf x = Ok ser -> signable E K priv ser nonce k -> dump_unsigned_tx E K F priv x hf nonce k = Ok file ->
  load_unsigned_tx E K F priv file hf = Ok x.
Proof.
  intros E K F L C Lb priv x hf nonce k ser file D S H. unfold dump_unsigned_tx in H. rewrite D in H. cbn [bind] in H. assert (X : file = UNSIGNED_TX_PREFIX ++ encrypt_xmr E K priv ser nonce k true) by congruence. subst file. clear H.
  unfold load_unsigned_tx. cbv zeta. change (zlen UNSIGNED_TX_PREFIX) with 23. change (23 - 1) with 22. rewrite py_from_app by reflexivity.
  change (UNSIGNED_TX_PREFIX ++ encrypt_xmr E K priv ser nonce k true) with (removelast UNSIGNED_TX_PREFIX ++ 4 :: encrypt_xmr E K priv ser nonce k true).
  rewrite get_app, py_upto_app by reflexivity. cbn [bind]. replace (zlist_eqb (removelast UNSIGNED_TX_PREFIX) (py_upto UNSIGNED_TX_PREFIX (-1))) with true by (vm_compute; reflexivity). change (4 =? 4) with true. cbn [guard bind].
  rewrite (opened E K priv ser nonce k L C S). cbn [bind]. exact (l_uns F Lb _ _ _ D).
Qed.
Print Assumptions C80_unsigned.

(** exported outputs are read back with the public keys of the wallet that wrote them *)
Theorem C80_outputs : forall E K F, ec_laws E -> cipher_laws K -> lib_laws F -> (forall P, length (encp E P) = 32%nat) -> forall spend view x nonce k ser file,
  f_dump_outs F x = Ok ser -> signable E K view (encp E (smul E (Gb E) spend) ++ encp E (smul E (Gb E) view) ++ ser) nonce k ->
  save_exported_outputs E K F spend view x nonce k = Ok file ->
  load_exported_outputs E K F view file = Ok {| o_spend := encp E (smul E (Gb E) spend); o_view := encp E (smul E (Gb E) view); o_tds := x |}.
Proof.
  intros E K F L C Lb EL spend view x nonce k ser file D S H. unfold save_exported_outputs in H. rewrite D in H. cbn [bind] in H. cbv zeta in H. unfold scalarmult_base in H.
  set (plain := encp E (smul E (Gb E) spend) ++ encp E (smul E (Gb E) view) ++ ser) in *.
  assert (X : file = OUTPUTS_PREFIX ++ encrypt_xmr E K view plain nonce k true) by congruence. subst file. clear H.
  unfold load_exported_outputs. cbv zeta. change (zlen OUTPUTS_PREFIX) with 21. change (21 - 1) with 20. rewrite py_from_app by reflexivity.
  change (OUTPUTS_PREFIX ++ encrypt_xmr E K view plain nonce k true) with (removelast OUTPUTS_PREFIX ++ 3 :: encrypt_xmr E K view plain nonce k true).
  rewrite get_app, py_upto_app by reflexivity. cbn [bind]. replace (zlist_eqb (removelast OUTPUTS_PREFIX) (py_upto OUTPUTS_PREFIX (-1))) with true by (vm_compute; reflexivity). change (3 =? 3) with true. cbn [orb guard bind].
  rewrite (opened E K view plain nonce k L C S). cbn [bind].
  assert (P1 : py_upto plain 32 = encp E (smul E (Gb E) spend)) by (apply py_upto_app; unfold zlen; rewrite EL; reflexivity).
  assert (P2 : py_slice plain 32 64 = encp E (smul E (Gb E) view)) by (apply py_slice_app; unfold zlen; rewrite !EL; reflexivity).
  assert (P3 : py_from plain 64 = ser) by (unfold plain; rewrite app_assoc; apply py_from_app; rewrite zlen_app; unfold zlen; rewrite !EL; reflexivity).
  rewrite P1, P2, P3, (l_outs F Lb _ _ D). reflexivity.
Qed.
Print Assumptions C80_outputs.

(** only files with the right header are read, and only if the rest is a container of the owner (C52_xmr_accepted); an
    unsigned set has version 4, exported outputs have version 3 or 4 *)
Theorem C80_loaded : forall E K F priv data,
  (forall hf x, load_unsigned_tx E K F priv data hf = Ok x ->
     exists body ser, data = UNSIGNED_TX_PREFIX ++ body /\ decrypt_xmr E K priv body true = Ok ser /\ f_parse_uns F hf ser = Ok x) /\
  (forall o, load_exported_outputs E K F priv data = Ok o ->
     exists version body dec, data = removelast OUTPUTS_PREFIX ++ version :: body /\ decrypt_xmr E K priv body true = Ok dec /\
       o_spend o = py_upto dec 32 /\ o_view o = py_slice dec 32 64 /\
       (version = 3 /\ f_parse_outs F (py_from dec 64) = Ok (o_tds o) \/ version = 4 /\ f_parse_outs4 F (py_from dec 64) = Ok (0, o_tds o))).
Proof.
  intros E K F priv data. split.
  - intros hf x H. unfold load_unsigned_tx in H. cbv zeta in H. change (zlen UNSIGNED_TX_PREFIX) with 23 in H. change (23 - 1) with 22 in H.
    apply bind_ok_inv in H. destruct H as (v & G & H). destruct (header data 22 v ltac:(lia) G) as (a & b & -> & U & R). change (22 + 1) with 23 in R. rewrite U, R in H.
    apply bind_ok_inv in H. destruct H as (u1 & G1 & H). apply guard_ok_inv in G1. apply zlist_eqb_spec in G1. apply bind_ok_inv in H. destruct H as (u2 & G2 & H). apply guard_ok_inv in G2.
    apply bind_ok_inv in H. destruct H as (ser & Ds & H). exists b, ser. split; [|auto]. rewrite G1. assert (v = 4) by lia. subst v. reflexivity.
  - intros o H. unfold load_exported_outputs in H. cbv zeta in H. change (zlen OUTPUTS_PREFIX) with 21 in H. change (21 - 1) with 20 in H.
    apply bind_ok_inv in H. destruct H as (v & G & H). destruct (header data 20 v ltac:(lia) G) as (a & b & -> & U & R). change (20 + 1) with 21 in R. rewrite U, R in H.
    apply bind_ok_inv in H. destruct H as (u1 & G1 & H). apply guard_ok_inv in G1. apply zlist_eqb_spec in G1. apply bind_ok_inv in H. destruct H as (u2 & G2 & H). apply guard_ok_inv in G2.
    apply bind_ok_inv in H. destruct H as (dec & Ds & H). apply bind_ok_inv in H. destruct H as (exps & X & H). match type of H with Ok ?p = Ok ?q => assert (Y : p = q) by congruence end. subst o. clear H.
    exists v, b, dec. split; [rewrite G1; reflexivity|]. split; [exact Ds|]. split; [reflexivity|]. split; [reflexivity|]. cbn [o_tds].
    destruct (Z.eqb_spec v 3) as [V|V]; [left; auto|]. right. split; [lia|]. apply bind_ok_inv in X. destruct X as ([off es] & X1 & X2). apply bind_ok_inv in X2. destruct X2 as (u3 & G3 & X2). apply guard_ok_inv in G3. assert (es = exps) by congruence. assert (off = 0) by lia. subst. exact X1.
Qed.
Print Assumptions C80_loaded.

(** a file of one kind is refused where another kind is expected *)
Theorem C80_mixed : forall E K F priv priv' hf plain nonce k, length nonce = 8%nat ->
  load_unsigned_tx E K F priv (SIGNED_TX_PREFIX ++ encrypt_xmr E K priv' plain nonce k true) hf = Err ValueError /\
  load_unsigned_tx E K F priv (OUTPUTS_PREFIX ++ encrypt_xmr E K priv' plain nonce k true) hf = Err ValueError /\
  load_exported_outputs E K F priv (UNSIGNED_TX_PREFIX ++ encrypt_xmr E K priv' plain nonce k true) = Err ValueError /\
  load_exported_outputs E K F priv (SIGNED_TX_PREFIX ++ encrypt_xmr E K priv' plain nonce k true) = Err ValueError.
Proof.
  intros E K F priv priv' hf plain nonce k Hn. destruct (encrypt_first E K priv' plain nonce k Hn) as (n0 & n1 & n2 & r & ->).
  assert (U : forall a v b, zlen a = 22 -> zlist_eqb a (removelast UNSIGNED_TX_PREFIX) = false -> load_unsigned_tx E K F priv (a ++ v :: b) hf = Err ValueError).
  { intros a v b La N. unfold load_unsigned_tx. cbv zeta. change (zlen UNSIGNED_TX_PREFIX) with 23. change (23 - 1) with 22. rewrite get_app, py_upto_app by (symmetry; exact La). cbn [bind]. change (py_upto UNSIGNED_TX_PREFIX (-1)) with (removelast UNSIGNED_TX_PREFIX). rewrite N. reflexivity. }
  assert (O : forall a v b, zlen a = 20 -> zlist_eqb a (removelast OUTPUTS_PREFIX) = false -> load_exported_outputs E K F priv (a ++ v :: b) = Err ValueError).
  { intros a v b La N. unfold load_exported_outputs. cbv zeta. change (zlen OUTPUTS_PREFIX) with 21. change (21 - 1) with 20. rewrite get_app, py_upto_app by (symmetry; exact La). cbn [bind]. change (py_upto OUTPUTS_PREFIX (-1)) with (removelast OUTPUTS_PREFIX). rewrite N. reflexivity. }
  split; [apply (U (SIGNED_TX_PREFIX ++ [n0]) n1 (n2 :: r)); reflexivity|]. split; [apply (U (OUTPUTS_PREFIX ++ [n0]) n1 (n2 :: r)); reflexivity|].
  split; [apply (O (firstn 20 UNSIGNED_TX_PREFIX) 101 (116 :: 4 :: n0 :: n1 :: n2 :: r)); reflexivity|apply (O (firstn 20 SIGNED_TX_PREFIX) 4 (n0 :: n1 :: n2 :: r)); reflexivity].
Qed.
Print Assumptions C80_mixed.

(** ** The keys file *)
Lemma keys_opened K F : cipher_laws K -> lib_laws F -> forall password st kd nonce ser file w' t, length nonce = 8%nat -> f_kv F kd = Ok ser -> f_json F st = 123 :: t ->
  gen_keys_file K F password {| kf_set := st; kf_key_data := Some kd |} nonce = (Ok file, w') ->
  load_keys_data K F file password = match search ([123] ++ LIT ++ f_esc F ser ++ SEP ++ t) with None => Err AttributeError | Some (g1, g2, g3) => let* kd := f_unkv F (f_unesc F g2) in let* st := f_unjson F (g1 ++ g3) in Ok (st, kd) end.
Proof.
  intros [C _] Lb password st kd nonce ser file w' t Hn D J H. unfold gen_keys_file in H. cbn [kf_key_data kf_set] in H. apply pair_equal_spec in H. destruct H as [H _]. cbv zeta in H. rewrite D in H. cbn [bind] in H. rewrite J in H.
  change (py_from (123 :: t) 1) with (py_from ([123] ++ t) 1) in H. rewrite py_from_app in H by reflexivity. set (text := [123] ++ LIT ++ f_esc F ser ++ SEP ++ t) in *. unfold chacha_encrypt in H.
  rewrite (py_from_app nonce) in H by (unfold zlen; rewrite Hn; reflexivity). assert (SL : forall c, py_slice (nonce ++ c) 0 8 = nonce) by (intros c; apply (py_slice_app [] nonce c); unfold zlen; cbn [length]; rewrite ?Hn; reflexivity). rewrite SL in H.
  unfold load_keys_data. match type of H with Ok ?a = Ok ?b => assert (X : b = a) by congruence end. rewrite X, (l_kfd F Lb _ _ Hn). cbn [bind]. cbv zeta. unfold chacha_decrypt.
  rewrite py_upto_app, py_from_app by (unfold zlen; rewrite Hn; reflexivity). rewrite C. reflexivity.
Qed.

(** settings and key data are read back with the password, if the key data in binary form has no quote followed by a comma.
    Missing: the other key data (refuted next) *)
Theorem C80_keys_partial : forall K F, cipher_laws K -> lib_laws F -> forall password st kd nonce ser file w',
  length nonce = 8%nat -> f_kv F kd = Ok ser -> ~ occurs [34; 44] ser ->
  gen_keys_file K F password {| kf_set := st; kf_key_data := Some kd |} nonce = (Ok file, w') ->
  load_keys_data K F file password = Ok (st, kd).
Proof.
  intros K F C Lb password st kd nonce ser file w' Hn D N H. destruct (l_json_obj F Lb st) as (t & J & T10 & TL). rewrite (keys_opened K F C Lb password st kd nonce ser file w' t Hn D J H).
  destruct (l_kv F Lb _ _ D) as [NE U]. destruct (esc_ok _ (l_esc F Lb) ser) as [Q Q10]. pose proof (esc_sep _ (l_esc F Lb) ser N) as QS.
  destruct (f_esc F ser) as [|c e] eqn:X.
  { destruct (l_esc F Lb) as (ec & He & E1 & E2 & E3). destruct ser as [|x ser]; [destruct (NE eq_refl)|]. rewrite He in X. cbn [flat_map] in X. apply app_eq_nil in X. destruct X as [X _]. destruct (Z.eq_dec x 34) as [->|Nx]; [rewrite E1 in X; discriminate|]. destruct (E3 x Nx) as [K1 _]. destruct (K1 X). }
  rewrite (search_file (c :: e) (c :: e) t t Q TL); [|cbn [app]; apply lazy_at; [exact Q10|intros (u & v & Y); apply QS; exists (c :: u), v; rewrite Y; reflexivity]].
  rewrite <- X, (l_unesc F Lb), U. cbn [bind]. rewrite (line_all t T10). change ([123] ++ t) with (123 :: t). rewrite <- J, (l_json F Lb). reflexivity.
Qed.
Print Assumptions C80_keys_partial.

(** key data with a quote and a comma: the text is cut after the backslash that escapes the quote, and what follows is taken
    for settings *)
Theorem C80_keys_refuted : forall K F, cipher_laws K -> lib_laws F -> forall password st kd nonce a b file w' t,
  length nonce = 8%nat -> f_kv F kd = Ok (a ++ 34 :: 44 :: b) -> ~ occurs [34; 44] a -> f_json F st = 123 :: t ->
  gen_keys_file K F password {| kf_set := st; kf_key_data := Some kd |} nonce = (Ok file, w') ->
  load_keys_data K F file password =
    (let* kd' := f_unkv F (f_unesc F (f_esc F a ++ [92])) in
     let* st' := f_unjson F (123 :: f_esc F b ++ 34 :: 44 :: t) in Ok (st', kd')).
Proof.
  intros K F C Lb password st kd nonce a b file w' t Hn D N J H. rewrite (keys_opened K F C Lb password st kd nonce _ file w' t Hn D J H).
  destruct (l_json_obj F Lb st) as (t' & J' & T10 & TL). assert (t' = t) by congruence. subst t'.
  set (ser := a ++ 34 :: 44 :: b) in *. destruct (esc_ok _ (l_esc F Lb) ser) as [Q Q10]. destruct (esc_ok _ (l_esc F Lb) a) as [_ A10]. destruct (esc_ok _ (l_esc F Lb) b) as [_ B10]. pose proof (esc_sep _ (l_esc F Lb) a N) as QS.
  assert (X : f_esc F ser = (f_esc F a ++ [92]) ++ SEP ++ f_esc F b).
  { destruct (l_esc F Lb) as (ec & He & E1 & E2 & E3). rewrite !He. unfold ser. rewrite flat_map_app. cbn [flat_map]. rewrite E1, E2. rewrite <- app_assoc. reflexivity. }
  rewrite (search_file (f_esc F ser) (f_esc F a ++ [92]) (f_esc F b ++ SEP ++ t) t Q TL).
  - rewrite line_all; [reflexivity|]. intros I. apply in_app_or in I. destruct I as [I|[I|[I|I]]]; [exact (B10 I)|discriminate|discriminate|exact (T10 I)].
  - rewrite X. rewrite <- !app_assoc. clear X Q Q10 H. destruct (f_esc F a) as [|c e].
    + apply (lazy_at [] 92); [intros [I|[]]; discriminate|intros (u & v & Y); destruct u; discriminate Y].
    + pose proof (lazy_at (e ++ [92]) c (f_esc F b ++ SEP ++ t)) as Z0. cbn [app]. rewrite <- app_assoc in Z0. apply Z0.
      * intros I. destruct I as [I|I]; [apply A10; left; exact I|]. apply in_app_or in I. destruct I as [I|[I|[]]]; [apply A10; right; exact I|discriminate].
      * intros (u & v & Y). destruct v as [|z v0] using rev_ind.
        -- apply (f_equal (@rev Z)) in Y. rewrite app_nil_r, !rev_app_distr in Y. discriminate Y.
        -- rewrite !app_assoc in Y. apply app_inj_tail in Y. destruct Y as [Y _]. apply QS. exists (c :: u), v0. rewrite Y. cbn [app]. rewrite <- app_assoc. reflexivity.
Qed.
Print Assumptions C80_keys_refuted.

(** writing the file takes the key data away from the object: it can be written once *)
Theorem C80_keys_twice_refuted : forall K F password password' w nonce nonce',
  let w' := snd (gen_keys_file K F password w nonce) in
  kf_key_data w' = None /\ gen_keys_file K F password' w' nonce' = (Err AttributeError, w').
Proof. intros K F password password' w nonce nonce'. unfold gen_keys_file. destruct w as [st [kd|]]; cbn [kf_key_data snd]; split; reflexivity. Qed.
Print Assumptions C80_keys_twice_refuted.

(** ** A small library *)
Definition toy_ec (c : Z) : list Z := if c =? 34 then [92; 34] else if c =? 92 then [92; 92] else if c =? 10 then [92; 110] else [c].
Fixpoint toy_unesc (s : list Z) : list Z :=
  match s with
  | [] => []
  | c :: t => if c =? 92 then match t with [] => [c] | e :: u => (if e =? 110 then 10 else e) :: toy_unesc u end else c :: toy_unesc t
  end.
Definition toyF : flib := {|
  f_uns := list Z; f_sgn := list Z; f_out := Z; f_set := bool; f_kd := list Z;
  f_dump_uns := fun hf x => Ok (hf :: x);
  f_parse_uns := fun hf b => match b with h :: x => if h =? hf then Ok x else Err ValueError | [] => Err EOFErr end;
  f_dump_sgn := fun x => Ok x; f_dump_outs := fun x => Ok x; f_parse_outs := fun x => Ok x; f_parse_outs4 := fun x => Ok (0, x);
  f_json := fun b : bool => [123; if b then 49 else 48; 125];
  f_unjson := fun s => if zlist_eqb s [123; 49; 125] then Ok true else if zlist_eqb s [123; 48; 125] then Ok false else Err ValueError;
  f_kv := fun x => Ok (1 :: x); f_unkv := fun b => match b with 1 :: x => Ok x | _ => Err ValueError end;
  f_esc := flat_map toy_ec; f_unesc := toy_unesc;
  f_kfd := fun iv d => iv ++ d; f_unkfd := fun b => Ok (firstn 8 b, skipn 8 b) |}.
Lemma toyF_laws : lib_laws toyF.
Proof.
  constructor; cbn [toyF f_uns f_sgn f_out f_set f_kd f_dump_uns f_parse_uns f_dump_outs f_parse_outs f_json f_unjson f_kv f_unkv f_esc f_unesc f_kfd f_unkfd].
  - intros hf x b H. assert (X : b = hf :: x) by congruence. rewrite X, Z.eqb_refl. reflexivity.
  - congruence.
  - intros iv d H. rewrite <- H, firstn_app, firstn_all, Nat.sub_diag, skipn_app, skipn_all, Nat.sub_diag. cbn [firstn skipn app]. rewrite app_nil_r. reflexivity.
  - intros [|]; reflexivity.
  - intros b. eexists. split; [reflexivity|]. split; [destruct b; intros [I|[I|[]]]; discriminate|]. intros (u & v & Q). apply (f_equal (@length Z)) in Q. rewrite !app_length in Q. cbn [length LIT] in Q. lia.
  - intros x b H. assert (X : b = 1 :: x) by congruence. rewrite X. split; [discriminate|reflexivity].
  - exists toy_ec. split; [reflexivity|]. split; [reflexivity|]. split; [reflexivity|]. intros c N. unfold toy_ec. destruct (Z.eqb_spec c 34) as [->|_]; [destruct (N eq_refl)|].
    destruct (Z.eqb_spec c 92) as [->|N2]; [|destruct (Z.eqb_spec c 10) as [->|N3]]; (split; [discriminate|]); cbn [In hd]; lia.
  - induction s as [|c s IH]; [reflexivity|]. cbn [flat_map]. unfold toy_ec at 1. destruct (Z.eqb_spec c 34) as [->|_]; [cbn; rewrite IH; reflexivity|].
    destruct (Z.eqb_spec c 92) as [->|N2]; [cbn; rewrite IH; reflexivity|]. destruct (Z.eqb_spec c 10) as [->|N3]; [cbn; rewrite IH; reflexivity|]. cbn [app toy_unesc]. replace (c =? 92) with false by lia. rewrite IH. reflexivity.
Qed.
Example C80_case : signable toy toy_prims 1234 [9; 7; 8] (repeat 3 8) 99 /\
  (exists file, dump_unsigned_tx toy toy_prims toyF 1234 [7; 8] 9 (repeat 3 8) 99 = Ok file /\ load_unsigned_tx toy toy_prims toyF 1234 file 10 = Err ValueError).
Proof.
  split; [|eexists; split; [reflexivity|vm_compute; reflexivity]].
  split; [split; [discriminate|reflexivity]|]. split; [split; [discriminate|reflexivity]|]. split; [reflexivity|].
  assert (Q : (let '(c, r, _) := generate_signature toy (hash toy (chacha_encrypt toy_prims (cn_slow toy_prims (enc_sc 1234)) [9; 7; 8] (repeat 3 8))) 1234 99 in negb (c =? 0) && negb (r =? 0)) = true) by (vm_compute; reflexivity).
  destruct (generate_signature _ _ _ _) as [[c r] p]. apply andb_true_iff in Q. rewrite !negb_true_iff in Q. lia.
Qed.
Definition toy_file (kd : list Z) : key_file toyF := Build_key_file toyF true (Some kd).
(** the key data [5; 34] can be stored, and [5; 34; 44] can not *)
Example C80_case_keys :
  (exists file w', gen_keys_file toy_prims toyF [112; 119] (toy_file [5; 34]) (repeat 3 8) = (Ok file, w') /\ load_keys_data toy_prims toyF file [112; 119] = Ok (true, [5; 34])) /\
  ~ occurs [34; 44] [1; 5; 34] /\
  (exists file w', gen_keys_file toy_prims toyF [112; 119] (toy_file [5; 34; 44]) (repeat 3 8) = (Ok file, w') /\ load_keys_data toy_prims toyF file [112; 119] = Err ValueError).
Proof.
  split; [do 2 eexists; split; [reflexivity|vm_compute; reflexivity]|]. split; [|do 2 eexists; split; [reflexivity|vm_compute; reflexivity]].
  intros (u & v & Q). do 4 (destruct u as [|? u]; [discriminate Q|cbn [app] in Q; try discriminate Q; injection Q as _ Q]).
Qed.
