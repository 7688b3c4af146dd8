(** Key image synchronisation: /repo/monero_glue/protocol/key_image_sync.py, xmr/key_image.py (compute_hash,
    generate_commitment), hwtoken/token.py:132-155 (dispatch) and agent/agent_lite.py:777-820 (import_outputs). *)
From Verif Require Import Py Protobuf_model Signer_model Lists_model.

(** messages/MoneroTransferDetails *)
Record transfer := { out_key : list Z; tx_pub_key : list Z; add_pub_keys : list (list Z); out_index : Z }.

(** primitives: Keccak digest; the subaddress table; export_key_image with the encoding of its result into 96
    bytes (key_image.py:101-125, key_image_sync.py:79-86), which draws randomness; ChaCha20-Poly1305 *)
Record kiops := {
  K_hash : list Z -> list Z;
  K_creds : Type;
  K_subs : Type;
  K_nosubs : K_subs;
  K_add_subs : K_creds -> Z -> list Z -> K_subs -> K_subs;      (* monero.compute_subaddresses *)
  K_export : K_creds -> K_subs -> transfer -> Z -> res (list Z);
  K_enc : list Z -> list Z -> list Z -> list Z;                (* key, nonce, plaintext *)
  K_dec : list Z -> list Z -> list Z -> res (list Z);
}.

(** what one message draws: the user's answer, a key, nonces, randomness of the signatures *)
Record ktape := { k_answer : bool; k_key : list Z; k_nonce : nat -> list Z; k_rnd : nat -> Z }.

Inductive kmsg :=
| KInit (num : Z) (hash : list Z) (subs : list (Z * list Z))
| KStep (tdis : list transfer)
| KFinal.
Inductive kresp :=
| KInitAck | KStepAck (kis : list (list Z * list Z)) | KFinalAck (enc_key : list Z) | KFailure.

Section Device.
  Context (O : kiops).

  (** key_image.py:49-64 compute_hash.  xmrserialize.dump_uvarint_b is the base-128 writer of Protobuf_model;
      the Keccak context is the bytes absorbed *)
  Definition td_bytes (td : transfer) : res (list Z) :=
    let* i := uvarint (out_index td) in
    Ok (out_key td ++ tx_pub_key td ++ concat (add_pub_keys td) ++ i).
  Definition compute_hash (td : transfer) : res (list Z) := let* b := td_bytes td in Ok (K_hash O b).

  (** key_image_sync.py:22-34 the object; [s_fed] is what its hasher absorbed.  blocked is never set and is left out. *)
  Record ksync := { s_num : Z; s_idx : Z; s_hash : option (list Z); s_key : option (list Z); s_subs : K_subs O; s_fed : list Z }.
  Definition ksync_new : ksync :=
    {| s_num := 0; s_idx := -1; s_hash := None; s_key := None; s_subs := K_nosubs O; s_fed := [] |}.

  (** key_image_sync.py:41-58 init *)
  Definition k_init (cr : K_creds O) (t : ktape) (num : Z) (hash : list Z) (subs : list (Z * list Z)) (s : ksync) : ksync * kresp :=
    if negb (k_answer t) then (s, KFailure)
    else
      let table := fold_left (fun tb '(acc, idx) => K_add_subs O cr acc idx tb) subs (s_subs s) in
      ({| s_num := num; s_idx := s_idx s; s_hash := Some hash; s_key := Some (k_key t); s_subs := table; s_fed := s_fed s |}, KInitAck).

  (** key_image_sync.py:60-90 sync: the loop; [n] counts the transfers of this message *)
  Fixpoint k_loop (cr : K_creds O) (t : ktape) (n : nat) (tdis : list transfer) (s : ksync) (acc : list (list Z * list Z))
    : res (ksync * list (list Z * list Z)) :=
    match tdis with
    | [] => Ok (s, acc)
    | td :: tdis =>
        let idx := s_idx s + 1 in
        let* _ := guard (idx <? s_num s) ValueError in
        let* h := compute_hash td in
        let* blob := K_export O cr (s_subs s) td (k_rnd t n) in
        match s_key s with
        | None => Err TypeError
        | Some key =>
            k_loop cr t (S n) tdis
              {| s_num := s_num s; s_idx := idx; s_hash := s_hash s; s_key := s_key s; s_subs := s_subs s; s_fed := s_fed s ++ h |}
              (acc ++ [(k_nonce t n, K_enc O key (k_nonce t n) blob)])
        end
    end.
  Definition k_sync (cr : K_creds O) (t : ktape) (tdis : list transfer) (s : ksync) : res (ksync * kresp) :=
    match tdis with
    | [] => Err ValueError
    | _ => let* (s, kis) := k_loop cr t 0 tdis s [] in Ok (s, KStepAck kis)
    end.

  (** key_image_sync.py:92-106 final *)
  Definition k_final (s : ksync) : res kresp :=
    let* _ := guard (s_idx s + 1 =? s_num s) ValueError in
    match s_hash s, s_key s with
    | Some h, Some key =>
        let* _ := guard (zlist_eqb (K_hash O (s_fed s)) h) ValueError in Ok (KFinalAck key)
    | _, _ => Err ValueError        (* hash is None: the comparison fails; key and hash are set together *)
    end.

  (** hwtoken/token.py:132-155 key_image_sync; None = no ki_sync object *)
  Definition k_step (cr : K_creds O) (st : option ksync) (t : ktape) (m : kmsg) : option ksync * kresp :=
    match m with
    | KInit num hash subs => let '(s, r) := k_init cr t num hash subs ksync_new in (Some s, r)
    | KStep tdis =>
        match st with
        | None => (None, KFailure)
        | Some s => match k_sync cr t tdis s with Ok (s, r) => (Some s, r) | Err _ => (None, KFailure) end
        end
    | KFinal =>
        match st with
        | None => (None, KFailure)
        | Some s => match k_final s with Ok r => (None, r) | Err _ => (None, KFailure) end
        end
    end.
  (** a history of messages with the answers *)
  Fixpoint k_run (cr : K_creds O) (st : option ksync) (h : list (ktape * kmsg)) : option ksync * list (ktape * kmsg * kresp) :=
    match h with
    | [] => (st, [])
    | (t, m) :: h =>
        let '(st, r) := k_step cr st t m in
        let '(st, ev) := k_run cr st h in
        (st, (t, m, r) :: ev)
    end.

  (** * The host *)
  (** key_image.py:67-98 generate_commitment on the extracted transfers: number and hash chain.
      The grouping of subaddress indices is passed through as [subs]. *)
  Definition k_commit (outputs : list transfer) (subs : list (Z * list Z)) : res kmsg :=
    let* hs := mapM compute_hash outputs in
    Ok (KInit (zlen outputs) (K_hash O (concat hs)) subs).

  (** agent_lite.py:777-820 import_outputs against the device; [ts] gives the tape of each message *)
  Fixpoint k_batches (cr : K_creds O) (st : option ksync) (ts : nat -> ktape) (n : nat) (bs : list (list transfer))
    : res (option ksync * nat * list (list Z * list Z)) :=
    match bs with
    | [] => Ok (st, n, [])
    | b :: bs =>
        match k_step cr st (ts n) (KStep b) with
        | (st, KStepAck kis) =>
            let* (x, rest) := k_batches cr st ts (S n) bs in let '(st, n) := x in Ok (st, n, kis ++ rest)
        | _ => Err MoneroError
        end
    end.
  Definition import_outputs (cr : K_creds O) (ts : nat -> ktape) (outputs : list transfer) (subs : list (Z * list Z))
    : res (list (list Z * list Z * list Z)) :=
    let* m := k_commit outputs subs in
    match k_step cr None (ts 0%nat) m with
    | (st, KInitAck) =>
        let* batches := chunk outputs 10 in
        let* (x, kis) := k_batches cr st ts 1 batches in
        let '(st, n) := x in
        match k_step cr st (ts n) KFinal with
        | (_, KFinalAck key) =>
            mapM (fun '(iv, ct) => let* p := K_dec O key iv ct in
                                   Ok (py_slice p 0 32, py_slice p 32 64, py_from p 64)) kis
        | _ => Err MoneroError
        end
    | _ => Err MoneroError
    end.
End Device.
