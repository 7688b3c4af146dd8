(** The wire format of the extra field and of payment ids. *)
From Verif Require Import Py Protobuf_spec Extra_model.

(** tag, then the content; byte strings and key lists are preceded by their varint length *)
Definition field_bytes (f : field) : list Z :=
  match f with
  | FPub k => 1 :: k
  | FNonce n => 2 :: varint (zlen n) ++ n
  | FAdditional ks => 4 :: varint (zlen ks) ++ concat ks
  end.
Definition field_ok (f : field) : Prop :=
  match f with FPub k => length k = 32%nat | FNonce _ => True | FAdditional ks => Forall (fun k => length k = 32%nat) ks end.
Definition extra_bytes (fs : list field) : list Z := concat (map field_bytes fs).

(** the first eight bytes exclusive-or'ed with a key stream *)
Definition xor_id (pid key : list Z) : list Z :=
  map (fun xk => Z.lxor (fst xk) (snd xk)) (combine (firstn 8 pid) key) ++ skipn 8 pid.

(** destinations that receive money and are not the change address *)
Definition real_dests (outs : list (Z * addr)) (change : option addr) : list addr :=
  map snd (filter (fun o => negb (fst o =? 0) && negb (match change with Some c => addr_eq (snd o) c | None => false end)) outs).
Definition null_addr : addr := {| ad_spend := NULL_KEY_ENC; ad_view := NULL_KEY_ENC |}.

(** the payment id a nonce carries: 1 and eight bytes (encrypted), 0 and 32 bytes (clear) *)
Definition nonce_id (n p : list Z) : Prop := (n = 1 :: p /\ length p = 8%nat) \/ (n = 0 :: p /\ length p = 32%nat).
(** the contents of the nonces of an extra field, in order *)
Definition nonces (fs : list field) : list (list Z) := flat_map (fun f => match f with FNonce n => [n] | _ => [] end) fs.
