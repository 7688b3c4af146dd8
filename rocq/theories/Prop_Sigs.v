(** C31, C32: Schnorr and ring signatures. *)
From Verif Require Import Py PyLemmas Digits Ints_model Ec_model Ec_spec Ec_proof Ec_toy Sigs_model Sigs_spec Sigs_proof.

(** C31: for every message, secret and nonce the signature produced verifies under the public key of the secret,
    unless the challenge or the response happens to be zero, in which case the check refuses it *)
Theorem C31_complete (E : ecops) (L : ec_laws E) data priv k c r pub :
  scalar priv -> scalar k -> generate_signature E data priv k = (c, r, pub) ->
  pub = smul E (Gb E) priv /\
  check_signature E data c r pub = (if (c =? 0) || (r =? 0) then Err ValueError else Ok true).
Proof.
  intros Hp Hk H. destruct (schnorr_complete E L _ _ _ _ _ _ Hp Hk H) as (Hpub & Sc & Sr & V). split; [exact Hpub|].
  destruct (Z.eqb_spec c 0) as [->|Nc]; cbn [orb].
  { apply schnorr_bad_scalar. left. unfold nz_scalar. lia. }
  destruct (Z.eqb_spec r 0) as [->|Nr].
  { apply schnorr_bad_scalar. right. unfold nz_scalar. lia. }
  apply schnorr_iff. split; [|split]; [apply nz_of_scalar; assumption..|exact V].
Qed.
Print Assumptions C31_complete.

(** what acceptance means: non-zero reduced scalars and the challenge equation *)
Theorem C31_accepts (E : ecops) data c r pub :
  check_signature E data c r pub = Ok true <-> nz_scalar c /\ nz_scalar r /\ schnorr_valid E data c r pub.
Proof. apply schnorr_iff. Qed.
Print Assumptions C31_accepts.

(** one signature is valid for two messages only if the two hashed strings, which differ, have the same hash scalar *)
Theorem C31_binding (E : ecops) data data' c r pub :
  check_signature E data c r pub = Ok true -> check_signature E data' c r pub = Ok true -> data <> data' ->
  exists x y, x <> y /\ le_val 256 (hash E x) mod l = le_val 256 (hash E y) mod l.
Proof.
  intros H H' N. apply schnorr_iff in H, H'. destruct H as (_ & _ & V), H' as (_ & _ & V').
  eexists _, _. split; [|unfold schnorr_valid in V, V'; rewrite <- V; exact V'].
  intros X. apply N. exact (app_inv_tail _ _ _ X).
Qed.
Print Assumptions C31_binding.

Example C31_case :
  let '(c, r, pub) := generate_signature toy [1; 2; 3] 123456789 987654321 in
  ((c =? 0) || (r =? 0)) = false /\ check_signature toy [1; 2; 3] c r pub = Ok true /\
  check_signature toy [1; 2; 4] c r pub = Ok false.
Proof. repeat split; vm_compute; reflexivity. Qed.

(** C32: for every ring, every position of the real key and any randomness the ring signature is produced (also in
    test mode) and verifies with the key image [sec * Hp(P)], unless one of its components is zero *)
Theorem C32_complete (E : ecops) (L : ec_laws E) prefix pubs sec idx test rnd :
  scalar sec -> (forall i, scalar (fst (rnd i)) /\ scalar (snd (rnd i))) ->
  0 <= idx -> nth_error pubs (Z.to_nat idx) = Some (smul E (Gb E) sec) ->
  let image := smul E (Hp E (encp E (smul E (Gb E) sec))) sec in
  exists sig, generate_ring_signature E prefix image pubs sec idx test rnd = Ok sig /\ length sig = length pubs /\
    (Forall (fun cr => fst cr <> 0 /\ snd cr <> 0) sig -> check_ring_signature E prefix image pubs sig = Ok true).
Proof.
  intros Hs Hr Hi Hn image. apply nth_error_split in Hn. destruct Hn as (pre & post & -> & Hl).
  assert (Ei : idx = zlen pre) by (unfold zlen; lia). clear Hl. subst idx.
  destruct (ring_complete E L prefix pre post sec test rnd Hs (proj1 (Hr _))) as (c & r & H1 & H2 & H3 & H4).
  set (sig := others rnd 0 (zlen pre) ++ (c, r) :: others rnd (zlen pre + 1) (zlen post)) in *.
  assert (Len : length sig = length (pre ++ smul E (Gb E) sec :: post)).
  { unfold sig. rewrite !app_length. cbn [length]. rewrite !others_length. unfold zlen. rewrite !Nat2Z.id. reflexivity. }
  exists sig. split; [exact H1|]. split; [exact Len|]. intros F.
  apply (ring_iff E _ _ _ _ Len). split; [exact Len|]. split; [|exact H4].
  assert (S : Forall (fun cr => scalar (fst cr) /\ scalar (snd cr)) sig).
  { assert (O : forall i n, Forall (fun cr => scalar (fst cr) /\ scalar (snd cr)) (others rnd i n)).
    { intros i n. apply Forall_forall. intros x Hx. apply in_map_iff in Hx. destruct Hx as (j & <- & _). apply Hr. }
    apply Forall_app. split; [apply O|]. constructor; [auto|apply O]. }
  clear - F S. induction S as [|x sg [S1 S2] S IH]; [constructor|]. inversion F as [|? ? [F1 F2] F3]; subst.
  constructor; [split; apply nz_of_scalar; assumption|apply IH, F3].
Qed.
Print Assumptions C32_complete.

(** what acceptance means: the challenges sum to the hash of the message and of the points
    [c P + r G], [r Hp(P) + c I] of every member *)
Theorem C32_accepts (E : ecops) prefix image pubs sig : length sig = length pubs ->
  (check_ring_signature E prefix image pubs sig = Ok true <-> ring_valid E prefix image pubs sig).
Proof. apply ring_iff. Qed.
Print Assumptions C32_accepts.

(** in test mode a wrong secret or a wrong key image is refused *)
Theorem C32_test_mode (E : ecops) (L : ec_laws E) prefix image pubs sec idx rnd P sig :
  0 <= idx -> nth_error pubs (Z.to_nat idx) = Some P ->
  generate_ring_signature E prefix image pubs sec idx true rnd = Ok sig ->
  P = smul E (Gb E) sec /\ image = smul E (Hp E (encp E P)) sec.
Proof.
  intros Hi Hn H. apply nth_error_split in Hn. destruct Hn as (pre & post & -> & Hl).
  assert (Ei : idx = zlen pre) by (unfold zlen; lia). subst idx.
  unfold generate_ring_signature in H. rewrite py_get_mid in H. cbn [bind] in H.
  destruct (pt_eqb E (scalarmult_base E sec) P) eqn:E1; [|discriminate]. cbn [guard bind] in H.
  destruct (pt_eqb E (generate_key_image E (encp E P) sec) image) eqn:E2; [|discriminate].
  apply (law_eqb E L) in E1, E2. split; symmetry; assumption.
Qed.
Print Assumptions C32_test_mode.

Example C32_case :
  let P := smul toy (Gb toy) 5555 in
  let pubs := [smul toy (Gb toy) 77; P; smul toy (Gb toy) 99] in
  let image := smul toy (Hp toy (encp toy P)) 5555 in
  match generate_ring_signature toy [9; 9] image pubs 5555 1 true (fun i => (1000 + i, 2000 + i)) with
  | Ok sig => forallb (fun cr => negb (fst cr =? 0) && negb (snd cr =? 0)) sig = true /\
              check_ring_signature toy [9; 9] image pubs sig = Ok true /\
              check_ring_signature toy [9; 8] image pubs sig = Ok false
  | Err _ => False
  end.
Proof. vm_compute. repeat split; reflexivity. Qed.
