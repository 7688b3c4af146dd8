(** The device's operations made of the modelled primitives satisfy the laws assumed of abstract ones. *)
From Verif Require Import Py PyLemmas Digits Lists_model Signer_model Signer_spec Keys_spec Ints_model Protobuf_spec Ec_model Ec_spec Ec_proof Mlsag_model Mlsag_spec Mlsag_proof2
  Signer_base Wallet_model Wallet_spec Wallet_proof Extra_model Extra_proof Bp_model Bp_proof6 Real_model.
Ltac Zify.zify_post_hook ::= idtac.

Lemma ell_l : ell = l. Proof. reflexivity. Qed.
Lemma mod_scalar k : scalar (k mod l).
Proof. apply Z.mod_pos_bound, l_pos. Qed.

Section Laws.
Context (E : ecops) (L : ec_laws E) (v : env E).

Lemma dh_mul P a r : point_mul8 E (scalarmult E (scalarmult E P (a mod l)) (r mod l)) = point_mul8 E (scalarmult E (scalarmult E P (r mod l)) (a mod l)).
Proof.
  unfold point_mul8, scalarmult. destruct (mod_scalar a) as [A _], (mod_scalar r) as [B _].
  rewrite !(smul_zmul E L), <- !(zmul_mul E L) by lia. f_equal. ring.
Qed.
Lemma enc_dec_sc x : scalar x -> le_val 256 (enc_sc x) mod l = x.
Proof.
  intros [A B]. unfold enc_sc. rewrite le_val_digits by lia. rewrite (Z.mod_small x).
  - apply Z.mod_small. split; assumption.
  - split; [assumption|]. eapply Z.lt_trans; [exact B|reflexivity].
Qed.
Lemma pid_len p P r : length p = 8%nat -> hash_bytes E -> length (val p (encrypt_payment_id E p P r)) = 8%nat.
Proof.
  intros H HB. unfold val. destruct (encrypt_payment_id E p P r) as [e|] eqn:Ee; [|exact H]. unfold encrypt_payment_id in Ee. bnd Ee der Hd.
  assert (G : forall ks pm e, foldM (fun pm i => let* x := py_get pm i in let* k := py_get (hash E (encp E der ++ [141])) i in py_set pm i (Z.lxor x k)) ks pm = Ok e -> length e = length pm).
  { clear. induction ks as [|i ks IH]; intros pm e; cbn [foldM]; [now intros [= <-]|]. intros H. bnd H pm' H1. rewrite (IH _ _ H). clear H IH. bnd H1 x Hx. bnd H1 k Hk.
    unfold py_set in H1. destruct (py_idx _ _) as [n|]; [|discriminate]. apply Ok_inj in H1. subst pm'. apply upd_length. }
  rewrite (G _ _ _ Ee). exact H.
Qed.

Hypothesis Hlen : forall P, length (encp E P) = 32%nat.
Hypothesis Haead : forall k n p, v_dec E v k (v_enc E v k n p) = Ok p.
Hypothesis HB : hash_bytes E.

Lemma real_codec : codec_laws (real_ops E v).
Proof.
  constructor.
  - intros x Hx. rewrite ell_l in Hx. apply (enc_dec_sc x Hx).
  - intros a x. apply (law_dec E L).
  - exact Hlen.
  - exact Haead.
Qed.
Lemma real_dh : dh_laws (real_ops E v).
Proof.
  constructor.
  - intros a r. apply (dh_mul (Gb E)).
  - intros D a r. apply dh_mul.
  - intros r. apply (law_dec E L).
  - intros x D k _. apply (law_dec E L).
  - exact Hlen.
  - intros p P r H. apply pid_len; assumption.
Qed.
End Laws.
