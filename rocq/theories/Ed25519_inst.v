(** The elliptic curve interface of the protocols (Ec_model.ecops) with the library's own
    routines and the real Keccak-256, and its laws. *)
From Verif Require Import Py PyLemmas Digits Ints_model Ints_proof Ints_proof2 Primes Fq Curve0 Curve Agroup Ed25519_model Ed25519_proof Ed25519_group Ed25519_enc0 Ed25519_enc Ed25519_order Ed25519_fe Ec_model Ec_spec Keccak_model Wallet_spec Prop_Keccak.
From Coq Require Import Bool.
Ltac Zify.zify_post_hook ::= idtac.

(** the point a tuple stands for (the neutral element if it stands for none) *)
Definition pt_of (P : quad) : cpt :=
  let x := fz (fst (conv_ext_to_xy P)) in
  let y := fz (snd (conv_ext_to_xy P)) in
  match bool_dec (onb x y) true with
  | left H => exist (fun p => onb (fst p) (snd p) = true) (x, y) H
  | right _ => czero
  end.
Lemma pt_of_rep P p : repp P p -> pt_of P = p.
Proof.
  intros H. apply conv_ext in H. destruct H as [H1 H2]. unfold pt_of. rewrite H1, H2. destruct (bool_dec _ true) as [K|K].
  - apply pt_ext; reflexivity.
  - exfalso. apply K. apply onb_spec, pt_on.
Qed.
Definition ok_or {A} (dflt : A) (r : res A) : A := match r with Ok v => v | Err _ => dflt end.

(** Keccak-256 (Keccak_model.cn_fast_hash, the library's own permutation); Python byte strings only hold
    bytes, other lists get a fixed value *)
Definition khash (d : list Z) : list Z := if bytes_okb d then ok_or [] (cn_fast_hash d) else repeat 0 32.
Lemma khash_ok d : length (khash d) = 32%nat /\ bytes_ok (khash d).
Proof.
  unfold khash. destruct (bytes_okb d) eqn:E.
  - apply bytes_okb_spec in E. destruct (C28_chunking [d] [d]) as (h & _ & _ & H & L & Bk); [constructor; [exact E|constructor]..|reflexivity|].
    cbn [concat] in H. rewrite app_nil_r in H. rewrite H. split; assumption.
  - split; [reflexivity|]. apply bytes_okb_spec. reflexivity.
Qed.

(** every operation is the code's, applied to the normalised tuples of the points *)
Definition ed25519 : ecops := {|
  pt := cpt;
  pt_eqb := fun p r => point_equal (norm p) (norm r);
  padd := fun p r => pt_of (edwards_add (norm p) (norm r));
  pneg := fun p => pt_of (invert_v (norm p));
  pid := pt_of ident;
  smul := fun p e => pt_of (Ed25519_model.scalarmult (norm p) e);
  Gb := pt_of B;
  Hb := pt_of (ok_or ident (decodepoint XMR_H));
  encp := fun p => ok_or [] (encodepoint (norm p));
  decp := fun s => let* P := decodepoint s in Ok (pt_of P);
  hash := khash;
  Hp := fun d => pt_of (ok_or ident (hash_to_point (khash d)));
|}.

Lemma ed_eqb (p r : cpt) : pt_eqb ed25519 p r = true <-> p = r.
Proof. apply (repp_equal _ _ _ _ (norm_rep p) (norm_rep r)). Qed.
Lemma ed_add (p r : cpt) : padd ed25519 p r = cadd p r.
Proof. apply pt_of_rep, repp_add; apply norm_rep. Qed.
Lemma ed_neg (p : cpt) : pneg ed25519 p = cneg p.
Proof. apply pt_of_rep, repp_invert, norm_rep. Qed.
Lemma ed_id : pid ed25519 = czero.
Proof. apply pt_of_rep, repp_ident. Qed.
Lemma ed_smul (p : cpt) e : 0 <= e -> smul ed25519 p e = zm e p.
Proof. intros H. apply pt_of_rep, scalarmult_rep; [exact H|apply norm_rep]. Qed.
Lemma ed_G : Gb ed25519 = Gp.
Proof. apply pt_of_rep, B_rep. Qed.
Lemma H_bytes : XMR_H = enc_pt Hpt.
Proof.
  unfold enc_pt, enc_raw, Hpt, mkpt, px, py. cbn [proj1_sig fst snd]. rewrite !val_fz. vm_compute. reflexivity.
Qed.
Lemma H_decode : decodepoint XMR_H = Ok (norm Hpt).
Proof. rewrite H_bytes, <- (app_nil_r (enc_pt Hpt)). apply decodepoint_enc. constructor. Qed.
Lemma ed_H : Hb ed25519 = Hpt.
Proof. unfold Hb, ed25519. rewrite H_decode. cbn [ok_or]. apply pt_of_rep, norm_rep. Qed.
Lemma ed_enc (p : cpt) : encp ed25519 p = enc_pt p.
Proof. unfold encp, ed25519. rewrite (encodepoint_spec _ _ (norm_rep p)). reflexivity. Qed.
Lemma ed_nsum n (p : cpt) : nsum ed25519 n p = nm n p.
Proof. induction n as [|n IH]; cbn [nsum nmul]; [exact ed_id|rewrite IH; apply ed_add]. Qed.
Lemma hash_to_point_any digest P : hash_to_point digest = Ok P -> exists p, repp P p /\ zm l p = czero.
Proof.
  intros H. assert (Hu : exists u, decodeint_raw digest = Ok u).
  { unfold hash_to_point, fromfe in H. destruct (decodeint_raw digest) as [u|e]; [exists u; reflexivity|discriminate H]. }
  destruct Hu as [u Hu]. destruct (fromfe_ok _ _ Hu) as (Q & p & E & R). exists (zm 8 p). unfold hash_to_point in H. rewrite E in H. cbn [bind] in H. apply ok_inj' in H. subst P.
  split; [apply scalarmult_rep; [lia|exact R]|]. rewrite <- zm_mul, Z.mul_comm. apply exponent.
Qed.
Lemma ed_Hp d : exists p, Hp ed25519 d = p /\ zm l p = czero.
Proof.
  eexists. split; [reflexivity|]. unfold Hp, ed25519. destruct (hash_to_point _) as [P|e] eqn:E; cbn [ok_or].
  - destruct (hash_to_point_any _ _ E) as (p & R & K). rewrite (pt_of_rep _ _ R). exact K.
  - rewrite (pt_of_rep _ _ repp_ident). apply zm_zero.
Qed.
Theorem ed25519_laws : ec_laws ed25519.
Proof.
  assert (Hl : 0 <= l) by (pose proof l_pos; lia).
  constructor.
  - exact ed_eqb.
  - intros. rewrite !ed_add. apply cadd_assoc.
  - intros. rewrite !ed_add. apply cadd_comm.
  - intros. rewrite ed_add, ed_id. apply cadd_0.
  - intros. rewrite ed_neg, ed_add, ed_id. apply cadd_neg.
  - intros. rewrite ed_smul, ed_nsum by assumption. apply zmul_nat. assumption.
  - rewrite ed_G, ed_smul, ed_id by exact Hl. exact G_order.
  - rewrite ed_H, ed_smul, ed_id by exact Hl. exact H_order.
  - intros x. rewrite ed_smul, ed_id by exact Hl. destruct (ed_Hp x) as (p & -> & K). exact K.
  - intros P. rewrite ed_enc. unfold decp, ed25519. rewrite <- (app_nil_r (enc_pt P)), decodepoint_enc by constructor. cbn [bind].
    rewrite (pt_of_rep _ _ (norm_rep P)). reflexivity.
Qed.
Theorem ed25519_hash : hash_bytes ed25519.
Proof. exact khash_ok. Qed.
Theorem ed25519_enc_len P : length (encp ed25519 P) = 32%nat.
Proof. rewrite ed_enc. apply enc_pt_len. Qed.
