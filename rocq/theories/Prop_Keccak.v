(** C28: the Keccak hasher, for every history of updates, digests and resets. *)
From Verif Require Import Py PyLemmas Keccak_model Keccak_spec Keccak_proof Keccak_proof2 Keccak_proof3.

(** what each digest of a history must be the hash of: everything fed since the
    last reset; m is what was fed before the history starts *)
Fixpoint digested (m : list Z) (ops : list kop) : list (list Z) :=
  match ops with
  | [] => []
  | KUpdate d :: ops => digested (m ++ d) ops
  | KDigest :: ops => m :: digested m ops
  | KReset :: ops => digested [] ops
  end.
Definition kop_ok (o : kop) : Prop := match o with KUpdate d => bytes_ok d | _ => True end.

Lemma history rate out : 0 < rate <= 200 -> 0 <= out <= rate -> forall ops h m, kfed rate out h m -> Forall kop_ok ops ->
  exists ds, run_kops h ops = Ok ds /\ Forall2 (is_keccak rate out) (digested m ops) ds.
Proof.
  intros Hr Ho. induction ops as [|o ops IH]; intros h m F HO.
  - exists []. split; constructor.
  - apply Forall_cons_iff in HO. destruct HO as [H1 HO]. destruct o as [d| |]; cbn [run_kops digested].
    + destruct (kh_update_fed rate out h m d Hr F H1) as (h' & E & F'). rewrite E. cbn [bind]. apply IH; assumption.
    + destruct (kh_digest_fed rate out h m Hr Ho F) as (d & E & K). rewrite E. cbn [bind].
      destruct (IH h m F HO) as (ds & E' & K'). rewrite E'. cbn [bind]. exists (d :: ds). split; [reflexivity|].
      constructor; assumption.
    + apply IH; [|exact HO]. destruct F as (E1 & E2 & _). unfold kh_reset. rewrite E1, E2. apply kh_new_fed. lia.
Qed.

(** Every digest of every history is the published Keccak function of exactly the
    bytes fed since the last reset, however they were cut, and digesting in
    between changes nothing. *)
Theorem C28_keccak_histories : forall ops, Forall kop_ok ops ->
  (exists ds, run_kops Keccak256 ops = Ok ds /\ Forall2 (is_keccak 136 32) (digested [] ops) ds) /\
  (exists ds, run_kops Keccak224 ops = Ok ds /\ Forall2 (is_keccak 144 28) (digested [] ops) ds) /\
  (exists ds, run_kops Keccak384 ops = Ok ds /\ Forall2 (is_keccak 104 48) (digested [] ops) ds) /\
  (exists ds, run_kops Keccak512 ops = Ok ds /\ Forall2 (is_keccak 72 64) (digested [] ops) ds).
Proof.
  intros ops H. repeat split; (apply history; [lia|lia|apply kh_new_fed; lia|exact H]).
Qed.
Print Assumptions C28_keccak_histories.

(** Two ways of cutting the same data give the same digest. *)
Theorem C28_chunking : forall cs1 cs2, Forall bytes_ok cs1 -> Forall bytes_ok cs2 -> concat cs1 = concat cs2 ->
  exists d, run_kops Keccak256 (map KUpdate cs1 ++ [KDigest]) = Ok [d] /\
            run_kops Keccak256 (map KUpdate cs2 ++ [KDigest]) = Ok [d] /\
            cn_fast_hash (concat cs1) = Ok d /\ length d = 32%nat /\ bytes_ok d.
Proof.
  intros cs1 cs2 H1 H2 E.
  assert (D : forall cs m, digested m (map KUpdate cs ++ [KDigest]) = [m ++ concat cs]).
  { induction cs as [|c cs IH]; intros m; cbn [map app digested concat]; [rewrite app_nil_r; reflexivity|].
    rewrite IH, app_assoc. reflexivity. }
  assert (K : forall cs, Forall bytes_ok cs -> Forall kop_ok (map KUpdate cs ++ [KDigest])).
  { intros cs H. apply Forall_app. split; [|repeat constructor]. apply Forall_map. exact H. }
  assert (G : forall cs, Forall bytes_ok cs -> exists d, run_kops Keccak256 (map KUpdate cs ++ [KDigest]) = Ok [d] /\ is_keccak 136 32 (concat cs) d).
  { intros cs H. destruct (C28_keccak_histories _ (K cs H)) as [(ds & R & F) _]. rewrite D in F. cbn [app] in F.
    inversion F as [|? d ? ds' K1 K2 E1 E2]; subst. inversion K2; subst. exists d. split; [exact R|exact K1]. }
  destruct (G cs1 H1) as (d1 & R1 & K1). destruct (G cs2 H2) as (d2 & R2 & K2). rewrite <- E in K2.
  pose proof (is_keccak_unique 136 32 _ d1 d2 ltac:(lia) K1 K2) as Q. subst d2.
  assert (B : bytes_ok (concat cs1)).
  { apply Forall_concat. exact H1. }
  destruct (G [concat cs1] ltac:(repeat constructor; assumption)) as (d3 & R3 & K3).
  cbn [concat] in K3. rewrite app_nil_r in K3.
  pose proof (is_keccak_unique 136 32 _ d1 d3 ltac:(lia) K1 K3) as Q. subst d3.
  exists d1. split; [exact R1|]. split; [exact R2|]. split; [|destruct K1 as (L & Bd & _); unfold zlen in L; split; [lia|exact Bd]].
  cbn [map app run_kops] in R3. unfold cn_fast_hash.
  destruct (kh_update Keccak256 (concat cs1)) as [h|]; [|discriminate R3]. cbn [bind] in *.
  destruct (kh_digest h) as [[h' d]|]; [|discriminate R3]. cbn [bind] in *. congruence.
Qed.
Print Assumptions C28_chunking.

(** The permutation on 64-bit lanes is the published bit permutation. *)
Theorem C28_permutation : forall A, wf A -> wf (keccak_f A) /\ beq (abs (keccak_f A)) (Keccak_p (abs A)).
Proof. intros A H. split; [apply keccak_f_wf, H|]. apply keccak_f_bits; [exact H|apply beq_refl]. Qed.
Print Assumptions C28_permutation.

(** the published value of Keccak-256 of the empty string, and a two-chunk
    history with a digest in the middle *)
Example C28_empty : cn_fast_hash [] = Ok
  [0xc5;0xd2;0x46;0x01;0x86;0xf7;0x23;0x3c;0x92;0x7e;0x7d;0xb2;0xdc;0xc7;0x03;0xc0;
   0xe5;0x00;0xb6;0x53;0xca;0x82;0x27;0x3b;0x7b;0xfa;0xd8;0x04;0x5d;0x85;0xa4;0x70].
Proof. vm_compute. reflexivity. Qed.
Example C28_case : Forall kop_ok [KUpdate (repeat 7 130); KDigest; KUpdate [1;2;3;4;5;6;7]; KDigest; KReset; KUpdate [255]; KDigest] /\
  wf zero_table.
Proof. split; [|apply zero_wf]. repeat (apply Forall_cons; [first [exact I | apply bytes_okb_spec; vm_compute; reflexivity]|]). constructor. Qed.
