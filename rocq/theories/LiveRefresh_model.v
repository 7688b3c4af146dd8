(** The agent's side of live refresh and of the request for derivations: agent/agent_lite.py:822-926.  The device's
    side of both exchanges is firmware, not in the repository: its answer is an argument.  Sending the request and
    [handle_error] (which raises on a failure message) are left out. *)
From Verif Require Import Py Digits Ints_model Ec_model Sigs_model Mlsag_model Rsig_model Container_model.

Section L.
Context (E : ecops) (K : prims).

(** agent_lite.py:922-926 *)
Definition compute_ki_enc_key_host (view : Z) (prefix salt : list Z) : list Z :=
  hmac K salt (keccak_2hash E (enc_sc view ++ prefix)).
(** agent_lite.py:895-919, on the device's answer (salt, key_image) *)
Definition live_refresh (view : Z) (out_key ack_salt ack_key_image : list Z) : res (pt E) :=
  let enc_key := compute_ki_enc_key_host view out_key ack_salt in
  let* decr := decrypt_pack K enc_key ack_key_image in
  let ki_bin := py_upto decr 32 in
  let* ki := decp E ki_bin in
  let* c := decodeint (py_slice decr 32 64) in
  let* r := decodeint (py_from decr 64) in
  let* P := decp E out_key in
  let* ok := check_ring_signature E ki_bin ki [P] [(c, r)] in
  let* _ := guard ok ValueError in
  Ok ki.
(** agent_lite.py:843-850 and 864-874, on the device's answer (salt, tx_derivations) *)
Definition agent_get_tx_deriv (view : Z) (tx_prefix_hash ack_salt ack_derivs : list Z) : res (list (pt E)) :=
  let* decr := decrypt_pack K (compute_tx_key_host E K view tx_prefix_hash ack_salt) ack_derivs in
  let* _ := guard (zlen decr mod 32 =? 0) ValueError in
  mapM (fun i => decp E (py_slice decr (i * 32) ((i + 1) * 32))) (zrange (zlen decr / 32)).
End L.
