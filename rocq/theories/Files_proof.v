From Verif Require Import Py PyLemmas Digits Ints_model Ec_model Ec_spec Sigs_model Sigs_spec Mlsag_model Container_model Container_proof Files_model Files_spec.

(** ** The pattern *)
Lemma starts_spec p : forall s r, starts p s = Some r <-> s = p ++ r.
Proof.
  induction p as [|a p IH]; intros s r; [cbn [starts app]; split; congruence|]. destruct s as [|b s]; cbn [starts app]; [split; discriminate|].
  destruct (Z.eqb_spec a b) as [->|N]; [rewrite IH; split; congruence|split; congruence].
Qed.
Lemma starts_none p s : (forall r, s <> p ++ r) -> starts p s = None.
Proof. intros H. destruct (starts p s) as [r|] eqn:Q; [apply starts_spec in Q; destruct (H r Q)|reflexivity]. Qed.
Lemma greedy_none s : ~ occurs LIT s -> greedy s = None.
Proof.
  induction s as [|c s IH]; intros N; cbn [greedy]; [reflexivity|].
  rewrite IH by (intros (u & v & ->); apply N; exists (c :: u), v; reflexivity). replace (if c =? 10 then None else None) with (@None (list Z * list Z * list Z)) by (destruct (c =? 10); reflexivity).
  rewrite starts_none; [reflexivity|]. intros r Q. apply N. exists [], r. exact Q.
Qed.
Lemma greedy_at r g2 rest : lazy r = Some (g2, rest) -> ~ occurs LIT (tl (LIT ++ r)) -> greedy (LIT ++ r) = Some ([], g2, line rest).
Proof.
  intros Lz N. remember (LIT ++ r) as s eqn:Q. destruct s as [|c s]; [discriminate Q|]. cbn [tl] in N. cbn [greedy]. rewrite (greedy_none s N).
  replace (if c =? 10 then None else None) with (@None (list Z * list Z * list Z)) by (destruct (c =? 10); reflexivity). rewrite Q.
  replace (starts LIT (LIT ++ r)) with (Some r) by (symmetry; apply starts_spec; reflexivity). rewrite Lz. reflexivity.
Qed.
Lemma lazy_at : forall pre c post, ~ In 10 (c :: pre) -> ~ occurs SEP pre -> lazy (c :: pre ++ SEP ++ post) = Some (c :: pre, post).
Proof.
  induction pre as [|d pre IH]; intros c post N O.
  - cbn [app lazy]. destruct (Z.eqb_spec c 10) as [->|_]; [destruct N; left; reflexivity|]. replace (starts SEP (SEP ++ post)) with (Some post) by (symmetry; apply starts_spec; reflexivity). reflexivity.
  - cbn [lazy]. destruct (Z.eqb_spec c 10) as [->|_]; [destruct N; left; reflexivity|].
    rewrite starts_none.
    + cbn [app]. rewrite IH; [reflexivity|intros I; apply N; right; exact I|intros (u & v & ->); apply O; exists (d :: u), v; reflexivity].
    + intros r Q. destruct pre as [|e pre]; cbn [app SEP] in Q; injection Q as Q1 Q2; [discriminate|]. apply O. exists [], pre. cbn [app SEP]. congruence.
Qed.
Lemma line_all s : ~ In 10 s -> line s = s.
Proof. induction s as [|c s IH]; intros N; cbn [line]; [reflexivity|]. destruct (Z.eqb_spec c 10) as [->|_]; [destruct N; left; reflexivity|]. rewrite IH; [reflexivity|]. intros I. apply N. right. exact I. Qed.

(** ** Quotes in escaped text come after a backslash *)
Fixpoint qok (prev : Z) (s : list Z) : Prop := match s with [] => True | c :: s => (c = 34 -> prev = 92) /\ qok c s end.
Lemma qok_app : forall a p b, qok p a -> (forall q, qok q b) -> qok p (a ++ b).
Proof. induction a as [|c a IH]; intros p b H1 H2; [apply H2|]. cbn [app qok] in *. split; [apply H1|apply IH; [apply H1|exact H2]]. Qed.
Lemma qok_no a : forall p, ~ In 34 a -> qok p a.
Proof. induction a as [|c a IH]; intros p N; [exact I|]. cbn [qok]. split; [intros ->; destruct N; left; reflexivity|apply IH; intros J; apply N; right; exact J]. Qed.
Lemma esc_ok esc : escaping esc -> forall s, (forall p, qok p (esc s)) /\ ~ In 10 (esc s).
Proof.
  intros (ec & He & Eq & _ & H) s. rewrite He. clear He. induction s as [|c s [IH1 IH2]]; [split; [intros p; exact I|intros []]|]. cbn [flat_map]. destruct (Z.eq_dec c 34) as [->|N].
  - rewrite Eq. split; [intros p; cbn [app qok]; split; [discriminate|split; [reflexivity|apply IH1]]|]. cbn [app In]. intros [K|[K|K]]; [discriminate|discriminate|exact (IH2 K)].
  - destruct (H c N) as (_ & H1 & H2 & _). split; [intros p; apply qok_app; [apply qok_no, H1|exact IH1]|]. intros K. apply in_app_or in K. destruct K as [K|K]; [exact (H2 K)|exact (IH2 K)].
Qed.
Lemma esc_sep esc : escaping esc -> forall s, ~ occurs SEP s -> ~ occurs SEP (esc s).
Proof.
  intros (ec & He & Eq & Ec & H) s N (u & v & Q). rewrite He in Q. clear He. revert u v Q. induction s as [|c s IH]; intros u v Q; [destruct u; discriminate Q|].
  assert (N' : ~ occurs SEP s) by (intros (a & b & ->); apply N; exists (c :: a), b; reflexivity). specialize (IH N'). cbn [flat_map] in Q.
  assert (HD : forall r, flat_map ec s = 44 :: r -> exists s', s = 44 :: s').
  { intros r R. destruct s as [|x s']; [discriminate|]. exists s'. destruct (Z.eq_dec x 34) as [->|Nx]; [cbn [flat_map] in R; rewrite Eq in R; discriminate|].
    destruct (H x Nx) as (X1 & _ & _ & X4). cbn [flat_map] in R. destruct (ec x) as [|y e]; [destruct (X1 eq_refl)|]. cbn [app] in R. injection R as -> _. rewrite (X4 eq_refl). reflexivity. }
  destruct (Z.eq_dec c 34) as [->|Nc].
  - rewrite Eq in Q. cbn [app] in Q. destruct u as [|x u]; [discriminate|]. cbn [app] in Q. injection Q as _ Q. destruct u as [|x2 u]; cbn [app SEP] in Q.
    + injection Q as Q. destruct (HD _ Q) as (s' & ->). apply N. exists [], s'. reflexivity.
    + injection Q as _ Q. exact (IH _ _ Q).
  - destruct (H c Nc) as (_ & H1 & _). revert u Q. induction (ec c) as [|y e IHe]; intros u Q; [exact (IH _ _ Q)|].
    cbn [app] in Q. destruct u as [|x u]; cbn [app SEP] in Q; injection Q as Q1 Q; [apply H1; left; congruence|]. apply (IHe) with u; [intros I; apply H1; right; exact I|exact Q].
Qed.
(** ** No second literal *)
Lemma lit_not_here e body : (match e with [] => True | c :: t => qok c t end) -> forall v, e ++ 34 :: 44 :: body <> LIT ++ v.
Proof.
  intros H v Q. unfold LIT in Q.
  do 9 (destruct e as [|? e]; [cbn [app] in Q; congruence|]). destruct e as [|? e]; [cbn [app] in Q; congruence|].
  cbn [app] in Q. injection Q as -> -> -> -> -> -> -> -> -> -> Q. cbn [qok] in H. decompose [and] H. match goal with K : 34 = 34 -> 97 = 92 |- _ => discriminate (K eq_refl) end.
Qed.
Lemma lit_none e : forall p body, qok p e -> ~ occurs LIT body -> ~ occurs LIT (e ++ 34 :: 44 :: body).
Proof.
  induction e as [|c e IH]; intros p body H N (u & v & Q).
  - destruct u as [|x u]; [exact (lit_not_here [] body I v Q)|]. cbn [app] in Q. injection Q as _ Q. destruct u as [|y u]; [discriminate Q|]. cbn [app] in Q. injection Q as _ Q. apply N. exists u, v. exact Q.
  - destruct u as [|x u]; [exact (lit_not_here (c :: e) body (proj2 H) v Q)|]. cbn [app] in Q. injection Q as _ Q. apply (IH c body (proj2 H) N). exists u, v. exact Q.
Qed.
Lemma lit_once e body : (forall p, qok p e) -> ~ occurs LIT body -> ~ occurs LIT (tl (LIT ++ e ++ SEP ++ body)).
Proof.
  intros H N (u & v & Q). cbn [LIT SEP tl app] in Q.
  assert (N' : ~ occurs LIT ((34 :: e) ++ 34 :: 44 :: body)).
  { apply (lit_none (34 :: e) 92); [split; [reflexivity|apply H]|exact N]. }
  do 10 (destruct u as [|? u]; [cbn [app] in Q; congruence|cbn [app] in Q; injection Q as _ Q]). apply N'. exists u, v. exact Q.
Qed.
Lemma search_file e g2 rest body : (forall p, qok p e) -> ~ occurs LIT body -> lazy (e ++ SEP ++ body) = Some (g2, rest) -> search ([123] ++ LIT ++ e ++ SEP ++ body) = Some ([123], g2, line rest).
Proof.
  intros H N Lz. pose proof (greedy_at _ _ _ Lz (lit_once e body H N)) as G. remember (LIT ++ e ++ SEP ++ body) as s eqn:Q. clear Q. cbn [app search greedy]. change (123 =? 10) with false. cbv iota. destruct s as [|c s]; [discriminate G|]. rewrite G. reflexivity.
Qed.

(** ** Headers *)
Lemma header (data : list Z) n v : 0 <= n -> py_get data n = Ok v -> exists a b, data = a ++ v :: b /\ py_upto data n = a /\ py_from data (n + 1) = b.
Proof.
  intros Hn H. unfold py_get, py_idx in H. destruct ((0 <=? n) && (n <? zlen data)) eqn:Q; [|replace (n <? 0) with false in H by lia; discriminate].
  destruct (nth_error data (Z.to_nat n)) as [x|] eqn:N; [|discriminate]. assert (x = v) by congruence. subst x. apply nth_error_split in N. destruct N as (a & b & -> & La).
  exists a, b. split; [reflexivity|]. split; [apply py_upto_app; unfold zlen; lia|]. replace (a ++ v :: b) with ((a ++ [v]) ++ b) by (rewrite <- app_assoc; reflexivity). apply py_from_app. rewrite zlen_app. unfold zlen. cbn [length]. lia.
Qed.
Lemma get_app (a : list Z) v b n : n = zlen a -> py_get (a ++ v :: b) n = Ok v.
Proof.
  intros ->. unfold py_get, py_idx. rewrite zlen_app. unfold zlen. cbn [length]. replace ((0 <=? Z.of_nat (length a)) && (Z.of_nat (length a) <? Z.of_nat (length a) + Z.of_nat (S (length b)))) with true by lia.
  rewrite Nat2Z.id, nth_error_app2, Nat.sub_diag by lia. reflexivity.
Qed.
Lemma encrypt_first E K priv plain nonce k : length nonce = 8%nat -> exists n0 n1 n2 r, encrypt_xmr E K priv plain nonce k true = n0 :: n1 :: n2 :: r.
Proof.
  intros H. do 3 (destruct nonce as [|? nonce]; [discriminate|]). unfold encrypt_xmr, chacha_encrypt. cbv zeta. cbn [negb]. destruct (generate_signature _ _ _ _) as [[c r] p]. cbn [app]. eauto.
Qed.
