(** C10: which word the encoder appends. *)
From Verif Require Import Py PyLemmas B58Mnr_model Mnemonic_words Mnemonic_model Crc_spec Crc_proof.

(** the checksum of a byte string is the standard CRC-32 *)
Theorem C10_crc : forall m, bytes_ok m -> crc32 m = crc_standard m.
Proof. exact crc_ok. Qed.
Print Assumptions C10_crc.
(** the check value of the standard: the digits 1 to 9 *)
Example C10_crc_case : crc_standard [49; 50; 51; 52; 53; 54; 55; 56; 57] = 0xCBF43926.
Proof. vm_compute. reflexivity. Qed.

(** with a checksum the encoder appends to the words the one the standard picks among them *)
Theorem C10_checksum_word : forall m ws, mn_encode words m true = Ok ws ->
  exists out w, mn_encode words m false = Ok out /\ checksum_word out = Some w /\ ws = out ++ [w].
Proof.
  intros m ws H. unfold mn_encode in *. apply bind_ok_inv in H. destruct H as (out & H1 & H).
  apply bind_ok_inv in H. destruct H as (i & H2 & H). apply bind_ok_inv in H. destruct H as (w & H3 & H).
  exists out, w. rewrite H1. cbn [bind]. split; [reflexivity|]. split; [|congruence].
  assert (F : Forall (fun w => In w words) out) by exact (words_of_in _ _ _ _ (Forall_nil _) H1).
  destruct (checksum_ok out i F H2) as [N Ei]. unfold checksum_word. rewrite <- Ei.
  assert (Hi : 0 <= i < Z.of_nat (length out)).
  { rewrite Ei. apply Z.mod_pos_bound. destruct out; [contradiction N; reflexivity|]. cbn [length]. lia. }
  destruct (nth_error out (Z.to_nat i)) as [w'|] eqn:En; [|apply nth_error_None in En; lia].
  rewrite (py_get_nonneg out i w' (proj1 Hi) En) in H3. congruence.
Qed.
Print Assumptions C10_checksum_word.
Example C10_checksum_word_case : exists ws, mn_encode words (map Z.of_nat (seq 1 32)) true = Ok ws /\ length ws = 25%nat.
Proof. eexists. split; vm_compute; reflexivity. Qed.
