(** C26: keys derived for different purposes or indices are hashes of different byte strings. *)
From Coq Require Import String Ascii.
From Verif Require Import Py Protobuf_spec Signer_model KeySep_model KeySep_spec KeySep_proof.

(** the bytes hashed, with 32-byte session secrets: the purpose's own label after the secret, then the index *)
Theorem C26_key_input kh ke p i m : length kh = 32%nat -> length ke = 32%nat ->
  purpose_input kh ke p (Some i) = Ok m ->
  0 <= i /\ is_input (secret_of kh ke p) (label_of p) i m.
Proof.
  intros L1 L2 H. unfold purpose_input in H. pose proof (purpose_args_label kh ke p) as Ep. pose proof (label_len p).
  assert (length (fst (purpose_args kh ke p)) = 32%nat) by (destruct p; assumption).
  assert (Es : purpose_args kh ke p = (secret_of kh ke p, label_of p)) by (destruct p; reflexivity).
  rewrite Es in *. cbn [fst snd] in *. set (d := label_of p) in *. apply key_buffer_inv; [assumption|rewrite Ep; lia|exact H].
Qed.
Print Assumptions C26_key_input.

(** equal inputs come from the same purpose, index and secret - also across sessions *)
Theorem C26_separated kh ke kh' ke' p q i j m :
  length kh = 32%nat -> length ke = 32%nat -> length kh' = 32%nat -> length ke' = 32%nat ->
  purpose_input kh ke p (Some i) = Ok m -> purpose_input kh' ke' q (Some j) = Ok m ->
  p = q /\ i = j /\ secret_of kh ke p = secret_of kh' ke' q.
Proof.
  intros L1 L2 L3 L4 H1 H2. destruct (separated kh ke kh' ke' p q i j m L1 L2 L3 L4 H1 H2) as (E1 & E2 & E3).
  split; [exact E1|]. split; [exact E2|]. destruct p, q; exact E3.
Qed.
Print Assumptions C26_separated.

(** every index below 2^42 fits the buffer for every purpose *)
Theorem C26_defined kh ke p i : length kh = 32%nat -> length ke = 32%nat -> 0 <= i < 2 ^ 42 ->
  exists m, purpose_input kh ke p (Some i) = Ok m.
Proof. exact (defined kh ke p i). Qed.
Print Assumptions C26_defined.

(** equal keys: same purpose and index, or a collision of the hash *)
Theorem C26_keys C kh ke p q i j k : length kh = 32%nat -> length ke = 32%nat ->
  purpose_key C kh ke p (Some i) = Ok k -> purpose_key C kh ke q (Some j) = Ok k ->
  (p = q /\ i = j) \/ exists m m', m <> m' /\ keccak2 C m = keccak2 C m'.
Proof. exact (keys_separated C kh ke p q i j k). Qed.
Print Assumptions C26_keys.

(** the only overlap: the multisig key without an index is the one with index 0 *)
Theorem C26_no_index kh ke : length ke = 32%nat -> purpose_input kh ke EncCout None = purpose_input kh ke EncCout (Some 0).
Proof. exact (cout_none kh ke). Qed.
Print Assumptions C26_no_index.

Example C26_case : purpose_input (repeat 7 32) (repeat 9 32) HmacTxinComm (Some 300)
  = Ok (repeat 7 32 ++ [116;120;105;110;45;99;111;109;109] ++ [172; 2] ++ repeat 0 5).
Proof. vm_compute. reflexivity. Qed.
Example C26_tight : exists i, 0 <= i /\ purpose_input (repeat 7 32) (repeat 9 32) EncSpend (Some i) = Err IndexError.
Proof. exists (2 ^ 42). split; [discriminate|]. vm_compute. reflexivity. Qed.
