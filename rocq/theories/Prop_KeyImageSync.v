(** C29, C30, C63: key image synchronisation. *)
From Verif Require Import Py Digits Protobuf_spec KeyImageSync_model KeyImageSync_spec KeyImageSync_proof KeyImageSync_proof2.

(** C29: whenever the decryption key is released, the last init before was confirmed by the user, only answered steps followed it,
    they presented exactly the announced number of outputs and their hash chain is the announced one; what was handed out are the
    key images of these outputs, sealed under that key *)
Theorem C29_release (O : kiops) (cr : K_creds O) h before t m key after :
  snd (k_run O cr None h) = before ++ (t, m, KFinalAck key) :: after ->
  exists pre e0 steps num hash subs,
    before = pre ++ e0 :: steps /\ accepted_init e0 num hash key subs /\ Forall is_step steps /\ m = KFinal /\
    zlen (presented steps) = num /\ chain (K_hash O) (presented steps) = hash /\
    Forall2 (fun td c => exists rnd blob, K_export O cr (table O cr subs) td rnd = Ok blob /\ snd c = K_enc O key (fst c) blob)
      (presented steps) (handed_out steps).
Proof.
  intros E. apply history_ok in E. destruct E as (pre & e0 & steps & num & hash & k & subs & E1 & E2 & E3 & E4 & -> & E6 & E7 & E8).
  exists pre, e0, steps, num, hash, subs. repeat split; assumption.
Qed.
Print Assumptions C29_release.

(** hence exactly the announced outputs in order, or a hash collision among what was hashed *)
Theorem C29_announced (O : kiops) (cr : K_creds O) h before t m key after announced :
  (forall x, length (K_hash O x) = 32%nat) ->
  snd (k_run O cr None h) = before ++ (t, m, KFinalAck key) :: after ->
  exists pre t0 num hash subs steps,
    before = pre ++ (t0, KInit num hash subs, KInitAck) :: steps /\
    (hash = chain (K_hash O) announced -> Forall transfer_ok announced -> Forall transfer_ok (presented steps) ->
     presented steps = announced \/ collision_in (K_hash O) (presented steps) announced).
Proof.
  intros L E. destruct (C29_release O cr h before t m key after E) as (pre & e0 & steps & num & hash & subs & E1 & (t0 & -> & _) & _ & _ & _ & E6 & _).
  exists pre, t0, num, hash, subs, steps. split; [exact E1|]. intros -> Fa Fp. exact (chain_binding O _ _ L Fp Fa E6).
Qed.
Print Assumptions C29_announced.

(** the commitment does not fix the boundaries of keys of other lengths *)
Theorem C29_lengths_refuted : exists a b : transfer, a <> b /\ forall H : list Z -> list Z, chain H [a] = chain H [b].
Proof.
  exists {| out_key := repeat 1 32; tx_pub_key := repeat 2 32; add_pub_keys := [repeat 3 32]; out_index := 0 |},
         {| out_key := repeat 1 32 ++ repeat 2 32; tx_pub_key := repeat 3 32; add_pub_keys := []; out_index := 0 |}.
  split; [discriminate|]. intros H. reflexivity.
Qed.
Print Assumptions C29_lengths_refuted.

(** C30: key images and the key are only released after an init the user confirmed, with no failure, rejection or other init in between *)
Theorem C30_stops (O : kiops) (cr : K_creds O) h before t m r after :
  snd (k_run O cr None h) = before ++ (t, m, r) :: after ->
  (exists kis, r = KStepAck kis) \/ (exists key, r = KFinalAck key) ->
  exists pre e0 steps num hash key subs, before = pre ++ e0 :: steps /\ accepted_init e0 num hash key subs /\ Forall is_step steps.
Proof.
  intros E [[kis ->]|[key ->]]; apply history_ok in E.
  - destruct E as (pre & e0 & steps & num & hash & key & subs & tdis & E1 & E2 & E3 & _). eauto 10.
  - destruct E as (pre & e0 & steps & num & hash & k & subs & E1 & E2 & E3 & _). eauto 10.
Qed.
Print Assumptions C30_stops.

(** the device never processes more outputs than announced *)
Theorem C30_bound (O : kiops) (cr : K_creds O) h before t m kis after :
  snd (k_run O cr None h) = before ++ (t, m, KStepAck kis) :: after ->
  exists pre e0 steps num hash key subs tdis, before = pre ++ e0 :: steps /\ accepted_init e0 num hash key subs /\ Forall is_step steps /\
    m = KStep tdis /\ tdis <> [] /\ zlen (presented steps ++ tdis) <= num.
Proof.
  intros E. apply history_ok in E. destruct E as (pre & e0 & steps & num & hash & key & subs & tdis & E1 & E2 & E3 & E4 & E5 & E6 & _).
  exists pre, e0, steps, num, hash, key, subs, tdis. auto 10.
Qed.
Print Assumptions C30_bound.

(** C63: the honest host gets every key image, in order ... *)
Theorem C63_import_partial (O : kiops) (cr : K_creds O) (subs : list (Z * list Z)) ts outs :
  k_answer (ts 0%nat) = true ->
  Forall (fun td => 0 <= out_index td /\ forall rnd, exists blob, K_export O cr (table O cr subs) td rnd = Ok blob) outs ->
  (forall k n p, K_dec O k n (K_enc O k n p) = Ok p) ->
  zlen outs mod 10 <> 0 ->
  exists rs, import_outputs O cr ts outs subs = Ok rs /\
    Forall2 (fun td r => exists rnd blob, K_export O cr (table O cr subs) td rnd = Ok blob /\
                                          r = (py_slice blob 0 32, py_slice blob 32 64, py_from blob 64)) outs rs.
Proof. exact (import_ok O cr subs ts outs). Qed.
Print Assumptions C63_import_partial.
(** ... except when their number is a multiple of ten: the host then sends an empty last batch, which the device refuses *)
Theorem C63_import_refuted (O : kiops) (cr : K_creds O) (subs : list (Z * list Z)) ts outs :
  zlen outs mod 10 = 0 -> exists e, import_outputs O cr ts outs subs = Err e.
Proof. exact (import_fails O cr subs ts outs). Qed.
Print Assumptions C63_import_refuted.

(** a toy instance: history with a rejected init, a refused step, an accepted run *)
Definition toy_kops : kiops :=
  {| K_hash := fun l => le_digits 256 32 (fold_left (fun a b => a * 257 + b + 1) l 0);
     K_creds := Z; K_subs := list (Z * list Z); K_nosubs := []; K_add_subs := fun _ a i t => (a, i) :: t;
     K_export := fun cr _ td r => if out_index td <? 5 then Ok (repeat (cr + out_index td) 64 ++ repeat r 32) else Err MoneroError;
     K_enc := fun k n p => k ++ n ++ p; K_dec := fun k n c => Ok (skipn (length k + length n) c) |}.
Definition toy_td (i : Z) : transfer := {| out_key := repeat i 32; tx_pub_key := repeat 9 32; add_pub_keys := [repeat 4 32]; out_index := i |}.
Definition toy_tape (a : bool) : ktape := {| k_answer := a; k_key := repeat 77 32; k_nonce := fun n => repeat (Z.of_nat n) 12; k_rnd := fun _ => 6 |}.
Definition toy_history : list (ktape * kmsg) :=
  let y := toy_tape true in let outs := map toy_td [0; 1; 2] in
  let init := KInit 3 (chain (K_hash toy_kops) outs) [(0, [0; 1])] in
  [(toy_tape false, init); (y, KFinal); (y, KStep outs); (y, init); (y, KStep [toy_td 7]); (y, KStep outs);
   (y, init); (y, KStep [toy_td 0; toy_td 1]); (y, KStep [toy_td 2]); (y, KFinal); (y, KFinal)].
Example C29_case : map (fun e => match snd e with KInitAck => 0 | KStepAck _ => 1 | KFinalAck _ => 2 | KFailure => 3 end)
    (snd (k_run toy_kops 100 None toy_history)) = [3; 3; 3; 0; 3; 3; 0; 1; 1; 2; 3].
Proof. vm_compute. reflexivity. Qed.
Example C63_case : exists rs, import_outputs toy_kops 100 (fun _ => toy_tape true) (map toy_td [0; 1; 2]) [(0, [0; 1])] = Ok rs /\ length rs = 3%nat.
Proof. eexists. split; [vm_compute; reflexivity|reflexivity]. Qed.
