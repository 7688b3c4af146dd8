(** Fermat's little theorem, Pocklington's criterion, and the primality of the two moduli of
    the code: the field prime q and the group order l.  No axioms; certificates are checked
    by computation. *)
From Coq Require Import List ZArith Lia Znumtheory Zpow_facts Permutation Bool.
Import ListNotations.
Local Open Scope Z_scope.

Fixpoint prodZ (xs : list Z) : Z := match xs with [] => 1 | x :: xs => x * prodZ xs end.
Lemma prodZ_perm xs ys : Permutation xs ys -> prodZ xs = prodZ ys.
Proof. induction 1; cbn [prodZ]; lia || congruence || ring. Qed.

(** two residues *)
Lemma divide_mod_eq p a b : 0 < p -> (p | a - b) -> a mod p = b mod p.
Proof. intros Hp [k Hk]. replace a with (b + k * p) by lia. apply Z.mod_add. lia. Qed.
Lemma mod_eq_divide p a b : 0 < p -> a mod p = b mod p -> (p | a - b).
Proof. intros Hp H. apply Z.mod_divide; [lia|]. rewrite Zminus_mod, H, Z.sub_diag. reflexivity. Qed.

Section Fermat.
Context (p : Z) (Hp : prime p).
Let p2 : 2 <= p. Proof. apply prime_ge_2, Hp. Qed.
Definition units : list Z := map Z.of_nat (seq 1 (Z.to_nat (p - 1))).
Lemma units_in x : In x units <-> 1 <= x < p.
Proof.
  unfold units. rewrite in_map_iff. split.
  - intros (n & <- & H). apply in_seq in H. lia.
  - intros H. exists (Z.to_nat x). split; [lia|]. apply in_seq. lia.
Qed.
Lemma units_nodup : NoDup units.
Proof. apply FinFun.Injective_map_NoDup; [intros x y; apply Nat2Z.inj|apply seq_NoDup]. Qed.
Lemma units_len : length units = Z.to_nat (p - 1).
Proof. unfold units. rewrite map_length, seq_length. reflexivity. Qed.

Lemma prod_units_coprime xs : (forall x, In x xs -> 1 <= x < p) -> ~ (p | prodZ xs).
Proof.
  induction xs as [|x xs IH]; intros H D; cbn [prodZ] in D.
  - apply Z.divide_1_r_nonneg in D; lia.
  - apply prime_mult in D; [|exact Hp]. destruct D as [D|D].
    + specialize (H x (or_introl eq_refl)). apply Z.divide_pos_le in D; lia.
    + revert D. apply IH. intros y Hy. apply H. right. exact Hy.
Qed.
Lemma prod_scale a xs : (prodZ (map (fun x => (a * x) mod p) xs)) mod p = (a ^ Z.of_nat (length xs) * prodZ xs) mod p.
Proof.
  induction xs as [|x xs IH]; [reflexivity|]. cbn [map prodZ length].
  rewrite Nat2Z.inj_succ, Z.pow_succ_r by lia.
  rewrite Zmult_mod, IH, Zmod_mod, <- Zmult_mod. f_equal. ring.
Qed.
Theorem fermat a : ~ (p | a) -> (a ^ (p - 1)) mod p = 1.
Proof.
  intros Ha.
  assert (Pm : Permutation (map (fun x => (a * x) mod p) units) units).
  { apply NoDup_Permutation_bis.
    - assert (Hn : forall xs, NoDup xs -> (forall x, In x xs -> 1 <= x < p) -> NoDup (map (fun x => (a * x) mod p) xs)).
      { induction 1 as [|x xs Hx _ IH]; intros B; cbn [map]; [constructor|]. constructor.
        - intros Hin. apply in_map_iff in Hin. destruct Hin as (y & Ey & Hy).
          apply mod_eq_divide in Ey; [|lia]. replace (a * y - a * x) with (a * (y - x)) in Ey by ring.
          apply prime_mult in Ey; [|exact Hp]. destruct Ey as [Ey|[k Ek]]; [contradiction|].
          pose proof (B y (or_intror Hy)). pose proof (B x (or_introl eq_refl)).
          assert (k = 0) by nia. subst k. assert (y = x) by lia. subst. contradiction.
        - apply IH. intros y Hy. apply B. right. exact Hy. }
      apply Hn; [apply units_nodup|]. intros x. apply units_in.
    - rewrite map_length. apply le_n.
    - intros x Hx. apply in_map_iff in Hx. destruct Hx as (y & <- & Hy). apply units_in in Hy. apply units_in.
      pose proof (Z.mod_pos_bound (a * y) p ltac:(lia)).
      assert ((a * y) mod p <> 0); [|lia]. intros Z0. apply Z.mod_divide in Z0; [|lia].
      apply prime_mult in Z0; [|exact Hp]. destruct Z0 as [Z0|Z0]; [contradiction|]. apply Z.divide_pos_le in Z0; lia. }
  pose proof (prod_scale a units) as S. rewrite (prodZ_perm _ _ Pm), units_len, Z2Nat.id in S by lia.
  apply mod_eq_divide in S; [|lia]. replace (prodZ units - a ^ (p - 1) * prodZ units) with ((1 - a ^ (p - 1)) * prodZ units) in S by ring.
  apply prime_mult in S; [|exact Hp]. destruct S as [S|S].
  - apply divide_mod_eq in S; [|lia]. rewrite <- S. apply Z.mod_small. lia.
  - exfalso. revert S. apply prod_units_coprime. intros x. apply units_in.
Qed.
End Fermat.

(** ** Pocklington *)
Lemma pow_mod_1 p b k : 1 < p -> 0 <= k -> b mod p = 1 -> (b ^ k) mod p = 1.
Proof. intros Hp Hk Hb. rewrite Zpower_mod, Hb, Z.pow_1_l, Z.mod_small by lia. reflexivity. Qed.
Lemma bezout_1 p b f u v : 1 < p -> 0 < f -> u * f + v * (p - 1) = 1 -> (b ^ f) mod p = 1 -> (b ^ (p - 1)) mod p = 1 -> b mod p = 1.
Proof.
  intros Hp Hf G A1 A2. set (k := Z.abs u + Z.abs v).
  assert (U : 0 <= u + k * (p - 1)) by (unfold k; clear A1 A2; nia).
  assert (V : 0 <= k * f - v) by (unfold k; clear A1 A2; nia).
  assert (Eq : b ^ (f * (u + k * (p - 1))) = b * b ^ ((p - 1) * (k * f - v))).
  { replace (f * (u + k * (p - 1))) with (1 + (p - 1) * (k * f - v)) by (clear A1 A2; lia). rewrite Z.pow_add_r; [|lia|apply Z.mul_nonneg_nonneg; lia]. rewrite Z.pow_1_r. reflexivity. }
  assert (L1 : (b ^ (f * (u + k * (p - 1)))) mod p = 1) by (rewrite Z.pow_mul_r by lia; apply pow_mod_1; [lia|lia|exact A1]).
  assert (L2 : (b ^ ((p - 1) * (k * f - v))) mod p = 1) by (rewrite Z.pow_mul_r by lia; apply pow_mod_1; [lia|lia|exact A2]).
  rewrite Eq, Zmult_mod, L2, Z.mul_1_r, Zmod_mod in L1. exact L1.
Qed.
Lemma pock_div n f a p : prime f -> prime p -> 1 < n -> (p | n) -> (f | n - 1) ->
  (a ^ (n - 1)) mod n = 1 -> Z.gcd (a ^ ((n - 1) / f) - 1) n = 1 -> (f | p - 1).
Proof.
  intros Hf Hp Hn Dp Df Ha Hg. pose proof (prime_ge_2 _ Hf). pose proof (prime_ge_2 _ Hp).
  destruct (Zdivide_dec f (p - 1)) as [D|D]; [exact D|exfalso].
  set (b := a ^ ((n - 1) / f)) in *.
  assert (Ea : b ^ f = a ^ (n - 1)).
  { unfold b. rewrite <- Z.pow_mul_r; [|apply Z.div_pos; lia|lia]. f_equal. destruct Df as [k Ek]. rewrite Ek, Z.div_mul by lia. ring. }
  assert (A1 : (b ^ f) mod p = 1).
  { rewrite Ea. assert (D1 : (n | a ^ (n - 1) - 1)). { apply mod_eq_divide; [lia|]. rewrite Ha, Z.mod_small; lia. }
    assert (D2 : (p | a ^ (n - 1) - 1)) by (eapply Z.divide_trans; eassumption). apply divide_mod_eq in D2; [|lia]. rewrite D2. apply Z.mod_small. lia. }
  assert (Nb : ~ (p | b)).
  { intros X. assert (Y : (p | b ^ f)). { replace f with (Z.succ (f - 1)) by lia. rewrite Z.pow_succ_r by lia. apply Z.divide_mul_l, X. }
    apply Z.mod_divide in Y; lia. }
  pose proof (fermat p Hp b Nb) as A2.
  assert (G : rel_prime f (p - 1)).
  { apply prime_rel_prime; assumption. }
  apply rel_prime_bezout in G. destruct G as [u v G].
  assert (B1 : b mod p = 1) by (apply (bezout_1 p b f u v); lia || assumption).
  assert (D3 : (p | Z.gcd (b - 1) n)).
  { apply Z.gcd_greatest; [|exact Dp]. apply mod_eq_divide; [lia|]. rewrite B1, Z.mod_small; lia. }
  rewrite Hg in D3. apply Z.divide_1_r_nonneg in D3; lia.
Qed.

(** a number is prime if it has no prime factor up to its root *)
Lemma small_factor n : 1 < n -> ~ prime n -> exists p, prime p /\ (p | n) /\ p * p <= n.
Proof.
  assert (W : forall k, 0 <= k -> forall n, n = k -> 1 < n -> ~ prime n -> exists p, prime p /\ (p | n) /\ p * p <= n).
  { intros k Hk. pattern k. apply Z_lt_induction; [|exact Hk]. clear k Hk. intros k IH m -> Hm Np.
    destruct (not_prime_divide k Hm Np) as (x & [Hx1 Hx2] & [y Ey]).
    assert (Hy : 1 < y < k) by nia.
    assert (G : forall z, 1 < z < k -> (z | k) -> z * z <= k -> exists p, prime p /\ (p | k) /\ p * p <= k).
    { intros z Hz Dz Sz. destruct (prime_dec z) as [Pz|Nz]; [exists z; auto|].
      destruct (IH z ltac:(lia) z eq_refl ltac:(lia) Nz) as (p & Pp & Dp & Sp). exists p. split; [exact Pp|]. split; [eapply Z.divide_trans; eassumption|lia]. }
    destruct (Z_le_gt_dec (x * x) k) as [Hs|Hs].
    - apply (G x); [lia|exists y; lia|lia].
    - apply (G y); [lia|exists x; lia|nia]. }
  intros H1 H2. apply (W n ltac:(lia) n eq_refl H1 H2).
Qed.

(** trial division *)
Definition trial (n : Z) (k : nat) : bool := forallb (fun i => negb (n mod Z.of_nat i =? 0)) (seq 2 k).
Lemma trial_prime n k : 1 < n -> n < (Z.of_nat k + 2) * (Z.of_nat k + 2) -> trial n k = true -> prime n.
Proof.
  intros H1 H2 T. destruct (prime_dec n) as [P|N]; [exact P|exfalso].
  destruct (small_factor n H1 N) as (p & Pp & Dp & Sp). pose proof (prime_ge_2 p Pp).
  unfold trial in T. rewrite forallb_forall in T. specialize (T (Z.to_nat p)). rewrite Z2Nat.id in T by lia.
  rewrite (proj2 (Z.mod_divide n p ltac:(lia)) Dp) in T. cbn [Z.eqb negb] in T.
  assert (X : false = true) by (apply T, in_seq; nia). discriminate X.
Qed.

(** ** Fast reduction modulo the field prime *)
Definition q255 : Z := 2 ^ 255 - 19.
Definition M255 : Z := Eval vm_compute in 2 ^ 255 - 1.
Definition Q255 : Z := Eval vm_compute in q255.
Definition fold255 (x : Z) : Z := Z.land x M255 + 19 * Z.shiftr x 255.
Definition qmod (x : Z) : Z :=
  let z := fold255 (fold255 x) in
  if (0 <=? z) && (z <? Q255) then z
  else let w := z - Q255 in if (0 <=? w) && (w <? Q255) then w else z mod Q255.
Lemma fold255_mod x : (fold255 x) mod Q255 = x mod Q255.
Proof.
  unfold fold255. change M255 with (Z.ones 255). rewrite Z.land_ones, Z.shiftr_div_pow2 by discriminate.
  set (B := 2 ^ 255). change Q255 with (B - 19).
  assert (HB : 0 < B) by reflexivity. assert (HQ : 0 < B - 19) by reflexivity.
  pose proof (Z.div_mod x B ltac:(lia)) as D. apply divide_mod_eq; [exact HQ|]. exists (- (x / B)). clear HB HQ. generalize dependent (x mod B). generalize (x / B). intros d m D. subst x. ring.
Qed.
Lemma qmod_spec x : qmod x = x mod q255.
Proof.
  change q255 with Q255. unfold qmod. rewrite <- (fold255_mod x), <- (fold255_mod (fold255 x)). set (z := fold255 (fold255 x)).
  destruct ((0 <=? z) && (z <? Q255)) eqn:E1.
  - apply andb_prop in E1. destruct E1 as [A B]. apply Z.leb_le in A. apply Z.ltb_lt in B. symmetry. apply Z.mod_small. lia.
  - destruct ((0 <=? z - Q255) && (z - Q255 <? Q255)) eqn:E2; [|reflexivity].
    apply andb_prop in E2. destruct E2 as [A B]. apply Z.leb_le in A. apply Z.ltb_lt in B.
    rewrite <- (Z.mod_small (z - Q255) Q255) by lia. replace (z - Q255) with (z + (-1) * Q255) by ring. apply Z.mod_add. discriminate.
Qed.

(** powers with a given reduction *)
Fixpoint powm (red : Z -> Z) (b : Z) (e : positive) : Z :=
  match e with
  | xH => red b
  | xO e => let r := powm red b e in red (r * r)
  | xI e => let r := powm red b e in red (b * (r * r))
  end.
Lemma powm_spec red n b : (forall x, red x = x mod n) -> forall e, powm red b e = b ^ Z.pos e mod n.
Proof.
  intros R. induction e as [e IH|e IH|]; cbn [powm]; rewrite R.
  - rewrite IH. rewrite <- Zmult_mod_idemp_r, <- Zmult_mod, Zmult_mod_idemp_r. f_equal.
    rewrite (Pos2Z.inj_xI e). replace (2 * Z.pos e + 1) with (Z.succ (Z.pos e + Z.pos e)) by lia. rewrite Z.pow_succ_r, Z.pow_add_r by lia. ring.
  - rewrite IH, <- Zmult_mod. f_equal. rewrite (Pos2Z.inj_xO e). replace (2 * Z.pos e) with (Z.pos e + Z.pos e) by lia. rewrite Z.pow_add_r by lia. reflexivity.
  - f_equal. symmetry. apply Z.pow_1_r.
Qed.

(** certificate with one factor, with two factors; [k] is (n-1)/f *)
Definition pock_ok (red : Z -> Z) (n f k : Z) : bool :=
  match k, n - 1 with
  | Z.pos k', Z.pos m => (k * f =? n - 1) && (powm red 2 m =? 1) && (Z.gcd (powm red 2 k' - 1) n =? 1)
  | _, _ => false
  end.
Lemma pock_ok_div red n f k p : (forall x, red x = x mod n) -> 1 < n -> prime f -> pock_ok red n f k = true -> prime p -> (p | n) -> (f | p - 1).
Proof.
  intros R Hn Hf H Hp Dp. pose proof (prime_ge_2 f Hf). unfold pock_ok in H. destruct k as [|k'|k']; try discriminate. destruct (n - 1) as [|m|m] eqn:Em; try discriminate.
  apply andb_prop in H. destruct H as [H H3]. apply andb_prop in H. destruct H as [H1' H2].
  apply Z.eqb_eq in H1', H2, H3. rewrite (powm_spec red n 2 R) in H2, H3.
  apply (pock_div n f 2 p); try assumption.
  - exists (Z.pos k'). rewrite Em, <- H1'. ring.
  - rewrite Em. exact H2.
  - rewrite Em, <- H1', Z.div_mul by lia. rewrite Z.gcd_comm in H3 |- *. rewrite <- Z.gcd_mod in H3 by lia. rewrite <- Z.gcd_mod by lia. rewrite Zminus_mod_idemp_l in H3. exact H3.
Qed.
(** all prime factors are 1 modulo 2f; those up to the root are excluded one by one *)
Lemma pock1 red n f k j : (forall x, red x = x mod n) -> 1 < n -> prime f -> 2 < f -> n mod 2 = 1 -> pock_ok red n f k = true ->
  forallb (fun i => negb (n mod (1 + 2 * f * Z.of_nat i) =? 0)) (seq 1 j) = true ->
  n < (1 + 2 * f * (Z.of_nat j + 1)) * (1 + 2 * f * (Z.of_nat j + 1)) -> prime n.
Proof.
  intros R Hn Hf Hf2 Ho H C Hb. destruct (prime_dec n) as [P|N]; [exact P|exfalso]. destruct (small_factor n Hn N) as (p & Pp & Dp & Sp).
  pose proof (pock_ok_div red n f k p R Hn Hf H Pp Dp) as D. pose proof (prime_ge_2 p Pp) as P2.
  assert (D2 : (2 | p - 1)).
  { assert (E2 : p mod 2 = 0 \/ p mod 2 = 1) by (pose proof (Z.mod_pos_bound p 2 eq_refl); lia). destruct E2 as [E|E].
    - exfalso. apply Z.mod_divide in E; [|lia]. assert (X : (2 | n)) by (eapply Z.divide_trans; eassumption). apply Z.mod_divide in X; lia.
    - apply mod_eq_divide; [lia|]. rewrite E. reflexivity. }
  assert (D3 : (2 * f | p - 1)).
  { destruct D as [u Eu]. rewrite Eu in D2. apply prime_mult in D2; [|exact prime_2]. destruct D2 as [[w Ew]|D2].
    - exists w. rewrite Eu, Ew. ring.
    - exfalso. pose proof (prime_div_prime 2 f prime_2 Hf D2). lia. }
  destruct D3 as [u Eu]. assert (Hu : 1 <= u) by nia. assert (Hj : u <= Z.of_nat j).
  { destruct (Z_le_gt_dec u (Z.of_nat j)) as [X|X]; [exact X|exfalso]. set (m := 1 + 2 * f * (Z.of_nat j + 1)) in *.
    assert (Y : 0 <= m <= p) by (clear - Eu X Hf2; unfold m; nia). assert (W : m * m <= p * p) by (apply Z.mul_le_mono_nonneg; lia). lia. }
  rewrite forallb_forall in C. specialize (C (Z.to_nat u)). rewrite Z2Nat.id in C by lia.
  replace (1 + 2 * f * u) with p in C by lia. rewrite (proj2 (Z.mod_divide n p ltac:(lia)) Dp) in C. cbn [Z.eqb negb] in C.
  assert (X : false = true) by (apply C, in_seq; lia). discriminate X.
Qed.
Lemma prime_991 : prime 991. Proof. apply (trial_prime 991 35); [lia|lia|vm_compute; reflexivity]. Qed.
Lemma prime_2551 : prime 2551. Proof. apply (trial_prime 2551 50); [lia|lia|vm_compute; reflexivity]. Qed.

Lemma zmod n : forall x, (fun y => y mod n) x = x mod n. Proof. reflexivity. Qed.
Ltac pk red R f Hf k j := apply (pock1 red _ f k j); [exact R|reflexivity|exact Hf|reflexivity|vm_compute; reflexivity|vm_compute; reflexivity|vm_compute; reflexivity|vm_compute; reflexivity].
Lemma pr1 : prime 8574133.
Proof. pk (fun y => y mod 8574133) (zmod 8574133) 991 prime_991 8652 1%nat. Qed.
Lemma pr2 : prime 1919519569386763.
Proof. pk (fun y => y mod 1919519569386763) (zmod 1919519569386763) 8574133 pr1 223873314 2%nat. Qed.
Lemma pr3 : prime 75445702479781427272750846543864801.
Proof. pk (fun y => y mod 75445702479781427272750846543864801) (zmod 75445702479781427272750846543864801) 1919519569386763 pr2 39304471641247389600 71%nat. Qed.
Lemma pr4 : prime 74058212732561358302231226437062788676166966415465897661863160754340907.
Proof. pk (fun y => y mod 74058212732561358302231226437062788676166966415465897661863160754340907) (zmod 74058212732561358302231226437062788676166966415465897661863160754340907) 75445702479781427272750846543864801 pr3 981609426360740691344999861639072106 1%nat. Qed.
(** the field prime *)
Theorem prime_q : prime (2 ^ 255 - 19).
Proof. pk qmod qmod_spec 74058212732561358302231226437062788676166966415465897661863160754340907 pr4 781764 0%nat. Qed.
Lemma pr6 : prime 1224481.
Proof. pk (fun y => y mod 1224481) (zmod 1224481) 2551 prime_2551 480 0%nat. Qed.
Lemma pr7 : prime 1257559732178653.
Proof. pk (fun y => y mod 1257559732178653) (zmod 1257559732178653) 1224481 pr6 1027014492 14%nat. Qed.
Lemma pr8 : prime 4434155615661930479.
Proof. pk (fun y => y mod 4434155615661930479) (zmod 4434155615661930479) 1257559732178653 pr7 3526 0%nat. Qed.
Lemma pr9 : prime 172054593956031949258510691.
Proof. pk (fun y => y mod 172054593956031949258510691) (zmod 172054593956031949258510691) 4434155615661930479 pr8 38802110 0%nat. Qed.
Lemma pr10 : prime 19757330305831588566944191468367130476339.
Proof. pk (fun y => y mod 19757330305831588566944191468367130476339) (zmod 19757330305831588566944191468367130476339) 172054593956031949258510691 pr9 114831751082918 0%nat. Qed.
Lemma pr11 : prime 276602624281642239937218680557139826668747.
Proof. pk (fun y => y mod 276602624281642239937218680557139826668747) (zmod 276602624281642239937218680557139826668747) 19757330305831588566944191468367130476339 pr10 14 0%nat. Qed.
(** the order of the base point *)
Theorem prime_l : prime (2 ^ 252 + 27742317777372353535851937790883648493).
Proof. change (prime 7237005577332262213973186563042994240857116359379907606001950938285454250989). pk (fun y => y mod 7237005577332262213973186563042994240857116359379907606001950938285454250989) (zmod 7237005577332262213973186563042994240857116359379907606001950938285454250989) 276602624281642239937218680557139826668747 pr11 26163907866482859529727157400808004 0%nat. Qed.
