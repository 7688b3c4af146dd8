(** C33, C34: MLSAG and CLSAG signatures. *)
From Verif Require Import Py PyLemmas Digits Ints_model Protobuf_spec Ec_model Ec_spec Ec_proof Ec_toy Sigs_model Sigs_proof
  Mlsag_model Mlsag_spec Mlsag_proof Mlsag_proof2 Mlsag_proof3 Clsag_proof.

(** C33: for every rectangular key matrix with at least two columns, every column whose secrets are known, every number
    of rows with key images and any randomness, the signature is produced, carries the key images of the secret keys and
    verifies *)
Theorem C33_complete (E : ecops) (L : ec_laws E) message pk xx kl ms index ds rows al rnd :
  (2 <= length pk)%nat -> (index < length pk)%nat -> (0 < rows)%nat -> Forall (fun col => length col = rows) pk ->
  (ds <= rows)%nat -> column_keys E (nth index pk []) xx ->
  length al = rows -> Forall scalar al -> (forall i, length (rnd i) = rows) ->
  multisig_ok E kl ms ds (nth index pk []) xx ->
  exists rv c, gen_mlsag_ext E message pk xx kl ms index ds al rnd = Ok (rv, c) /\
    mg_II E rv = key_images E ds (nth index pk []) xx /\
    ver_mlsag_ext E message pk rv ds = Ok true.
Proof.
  intros H1 H2 H3 H4 H5 H6 H7 H8 H9 H10.
  destruct (mlsag_complete E L message pk xx kl ms index ds rows al rnd) as (rv & c & A & _ & _ & B & C); [constructor; auto|].
  exists rv, c. auto.
Qed.
Print Assumptions C33_complete.

(** the simple RingCT wrapper: ring members with encoded keys and commitments, the member at [index] being the signer's
    key and a commitment to [amount]; the pseudo output commits to the same amount *)
Theorem C33_simple (E : ecops) (L : ec_laws E) message pubs x mask a amount index al rnd p :
  (2 <= length pubs)%nat -> Forall (decodes E) pubs -> nth_error pubs index = Some p ->
  scalar x -> scalar mask -> scalar a -> 0 <= amount ->
  decp E (ct_dest p) = Ok (smul E (Gb E) x) -> decp E (ct_comm p) = Ok (commit E mask amount) ->
  length al = 2%nat -> Forall scalar al -> (forall i, length (rnd i) = 2%nat) ->
  exists rv c,
    prove_rct_mg_simple E message pubs {| sk_dest := x; sk_mask := mask |} a (commit E a amount) None false index al rnd = Ok (rv, c) /\
    mg_II E rv = [smul E (Hp E (encp E (smul E (Gb E) x))) x] /\
    ver_rct_mg_simple E message rv pubs (commit E a amount) = Ok true.
Proof. intros. eapply mg_simple_complete; eauto. reflexivity. Qed.
Print Assumptions C33_simple.

(** the full RingCT wrapper: the member at [index] of every row is the signer's; the committed amounts balance *)
Theorem C33_full (E : ecops) (L : ec_laws E) message pubs in_sk in_amounts out_sk out_amounts out_pk fee index al rnd col rows :
  (2 <= length pubs)%nat -> (0 < rows)%nat -> Forall (fun c => length c = rows /\ Forall (decodes E) c) pubs ->
  nth_error pubs index = Some col ->
  Forall2 (fun p k => scalar (sk_dest k) /\ decp E (ct_dest p) = Ok (smul E (Gb E) (sk_dest k))) col in_sk ->
  length in_amounts = length in_sk -> length out_amounts = length out_sk ->
  commits E (map ct_comm col) (combine (map sk_mask in_sk) in_amounts) ->
  commits E out_pk (combine out_sk out_amounts) ->
  zsum in_amounts mod l = (zsum out_amounts + fee) mod l -> 0 <= fee ->
  length al = S rows -> Forall scalar al -> (forall i, length (rnd i) = S rows) ->
  exists rv c,
    prove_rct_mg E message pubs in_sk out_sk out_pk None false index (smul E (Hb E) fee) al rnd = Ok (rv, c) /\
    mg_II E rv = map (fun k => smul E (Hp E (encp E (smul E (Gb E) (sk_dest k)))) (sk_dest k)) in_sk /\
    ver_rct_mg E rv pubs out_pk (smul E (Hb E) fee) message = Ok true.
Proof. intros. eapply mg_full_complete; eauto. Qed.
Print Assumptions C33_full.

(** C34: for every ring (also of one member), every index and any randomness; the buffer is the length, the responses,
    the first challenge and D, and what is read back from it verifies *)
Theorem C34_complete (E : ecops) (L : ec_laws E) message pubs p mask a amount index nonce rnd pk :
  Forall (decodes E) pubs -> nth_error pubs index = Some pk ->
  scalar p -> scalar mask -> scalar a -> 0 <= amount -> scalar nonce -> (forall i, scalar (rnd i)) ->
  decp E (ct_dest pk) = Ok (smul E (Gb E) p) -> decp E (ct_comm pk) = Ok (commit E mask amount) ->
  let cout := commit E a amount in
  let n := length pubs in
  exists buff sD,
    generate_clsag_simple E message pubs {| sk_dest := p; sk_mask := mask |} a cout index [] nonce rnd = Ok buff /\
    length buff = (n + 3)%nat /\ hd [] buff = varint (Z.of_nat n) /\
    decp E (sig_D n buff) = Ok sD /\
    verify_clsag E message (sig_ss n buff) (sig_c1 n buff) (smul E (Hp E (ct_dest pk)) p) sD pubs cout = Ok tt.
Proof. apply clsag_complete, L. Qed.
Print Assumptions C34_complete.

(** ** Concrete cases in the toy group *)
Definition tk (x mask amount : Z) : ctkey :=
  {| ct_dest := encp toy (smul toy (Gb toy) x); ct_comm := encp toy (commit toy mask amount) |}.
Definition t_ring : list ctkey := [tk 11 12 13; tk 5555 777 1000; tk 21 22 23].

Example C33_case :
  let pk := [[smul toy (Gb toy) 7; smul toy (Gb toy) 8]; [smul toy (Gb toy) 77; smul toy (Gb toy) 78]; [smul toy (Gb toy) 9; smul toy (Gb toy) 10]] in
  match gen_mlsag_ext toy [1; 2] pk [77; 78] None false 1 1 [501; 502] (fun i => [100 + Z.of_nat i; 200]) with
  | Ok (rv, c) => ver_mlsag_ext toy [1; 2] pk rv 1 = Ok true /\ ver_mlsag_ext toy [1; 3] pk rv 1 = Ok false
  | Err _ => False
  end.
Proof. vm_compute. split; reflexivity. Qed.
Example C33_simple_case :
  match prove_rct_mg_simple toy [1; 2] t_ring {| sk_dest := 5555; sk_mask := 777 |} 999 (commit toy 999 1000) None false 1 [501; 502] (fun i => [100 + Z.of_nat i; 200]) with
  | Ok (rv, c) => ver_rct_mg_simple toy [1; 2] rv t_ring (commit toy 999 1000) = Ok true /\
                  ver_rct_mg_simple toy [1; 2] rv t_ring (commit toy 999 1001) = Ok false
  | Err _ => False
  end.
Proof. vm_compute. split; reflexivity. Qed.
Example C33_full_case :
  let pubs := [[tk 1 2 3; tk 4 5 6]; [tk 11 12 70; tk 14 15 40]] in
  let out_pk := [encp toy (commit toy 31 100)] in
  match prove_rct_mg toy [5] pubs [{| sk_dest := 11; sk_mask := 12 |}; {| sk_dest := 14; sk_mask := 15 |}] [31] out_pk None false 1
          (smul toy (Hb toy) 10) [501; 502; 503] (fun i => [100; 200; 300]) with
  | Ok (rv, c) => ver_rct_mg toy rv pubs out_pk (smul toy (Hb toy) 10) [5] = Ok true /\
                  ver_rct_mg toy rv pubs out_pk (smul toy (Hb toy) 11) [5] = Ok false
  | Err _ => False
  end.
Proof. vm_compute. split; reflexivity. Qed.
Example C34_case :
  match generate_clsag_simple toy [1; 2] t_ring {| sk_dest := 5555; sk_mask := 777 |} 999 (commit toy 999 1000) 1 [] 4242 (fun i => 100 + Z.of_nat i) with
  | Ok b => match decp toy (sig_D 3 b) with
            | Ok sD => verify_clsag toy [1; 2] (sig_ss 3 b) (sig_c1 3 b) (smul toy (Hp toy (ct_dest (tk 5555 777 1000))) 5555) sD t_ring (commit toy 999 1000) = Ok tt /\
                       verify_clsag toy [1; 3] (sig_ss 3 b) (sig_c1 3 b) (smul toy (Hp toy (ct_dest (tk 5555 777 1000))) 5555) sD t_ring (commit toy 999 1000) = Err ValueError
            | Err _ => False
            end
  | Err _ => False
  end.
Proof. vm_compute. split; reflexivity. Qed.
