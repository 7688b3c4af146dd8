(** What the key image sync promises, in terms of the messages exchanged. *)
From Verif Require Import Py Protobuf_spec KeyImageSync_model.

Definition kevent := (ktape * kmsg * kresp)%type.

(** an init the user confirmed *)
Definition accepted_init (e : kevent) (num : Z) (hash key : list Z) (subs : list (Z * list Z)) : Prop :=
  exists t, e = (t, KInit num hash subs, KInitAck) /\ k_answer t = true /\ key = k_key t.
(** a step that was answered with key images *)
Definition is_step (e : kevent) : Prop := exists t tdis kis, e = (t, KStep tdis, KStepAck kis).
(** the outputs presented by the steps *)
Definition presented (ev : list kevent) : list transfer :=
  flat_map (fun e => match e with (_, KStep tdis, _) => tdis | _ => [] end) ev.
(** the encrypted key images handed out *)
Definition handed_out (ev : list kevent) : list (list Z * list Z) :=
  flat_map (fun e => match e with (_, _, KStepAck kis) => kis | _ => [] end) ev.

(** the bytes an output is identified by, and the commitment to a list of outputs *)
Definition id_bytes (td : transfer) : list Z :=
  out_key td ++ tx_pub_key td ++ concat (add_pub_keys td) ++ varint (out_index td).
Definition chain (H : list Z -> list Z) (outs : list transfer) : list Z :=
  H (concat (map (fun td => H (id_bytes td)) outs)).
(** a well-formed output: 32-byte keys, an index of at most 31 varint bytes *)
Definition transfer_ok (td : transfer) : Prop :=
  length (out_key td) = 32%nat /\ length (tx_pub_key td) = 32%nat /\
  Forall (fun k => length k = 32%nat) (add_pub_keys td) /\ 0 <= out_index td < 2 ^ 64.

(** two different byte strings with the same hash *)
Definition hash_collision (H : list Z -> list Z) : Prop := exists a b, a <> b /\ H a = H b.

(** the same, found among the inputs hashed for two lists of outputs *)
Definition collision_in (H : list Z -> list Z) (l1 l2 : list transfer) : Prop :=
  let inputs l := concat (map (fun td => H (id_bytes td)) l) :: map id_bytes l in
  exists a b, In a (inputs l1) /\ In b (inputs l2) /\ a <> b /\ H a = H b.
