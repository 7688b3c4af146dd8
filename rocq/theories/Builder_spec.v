(** What the transaction builder is to produce: outputs that the wallet has received and can spend, destinations with the keys of the
    address asked for, and totals that add up. *)
From Verif Require Import Py Digits Addr_model Lists_model Signer_model Signer_spec Agent_model Complete_spec Addr_spec Addr_proof Ints_model Ec_model Ec_spec Rsig_model Mlsag_model Mlsag_spec Sigs_spec Wallet_model Wallet_spec Request_spec Builder_model.

(** the random numbers are in the ranges asked for; the secret of the made up transaction is not zero (then the derivation is refused) *)
Definition draws_ok (ring : Z) (d : draws) : Prop :=
  0 <= dr_oidx d <= 12 /\ dr_oidx d + 1 <= dr_cnt d <= 2 * dr_oidx d + 1 /\ 0 <= dr_index d <= Z.max 1 ring - 1 /\ (forall i, 0 <= dr_glob d i) /\
  random_scalar (dr_r d) <> 0.

Section Spec.
Context (E : ecops).
(** a source of [value] paid to sub-address (M, m) of the wallet (a, b), with its entry in the list of transfers: [P] is the
    one-time key, [x] its secret, [image] the key image *)
Definition received (a b ring value M m : Z) (s : src_entry) (t : transfer) : Prop :=
  exists real P C T adds R x mask,
    (* the ring: of the right size, all members are points, the real one is where it is said to be *)
    zlen (se_outputs s) = Z.max 1 ring /\ Forall (fun r => exists P Q, decp E (re_dest r) = Ok P /\ decp E (re_commitment r) = Ok Q) (se_outputs s) /\
    0 <= se_real_output s /\ nth_error (se_outputs s) (Z.to_nat (se_real_output s)) = Some real /\
    re_dest real = encp E P /\ re_commitment real = encp E C /\
    (* paid to the sub-address, with the transaction key or the additional key of the output *)
    decp E (se_real_out_tx_key s) = Ok T /\ mapM (decp E) (se_additional s) = Ok adds /\
    (R = T \/ nth_error adds (Z.to_nat (se_real_output_in_tx_index s)) = Some R) /\
    P = one_time_key E a b R (se_real_output_in_tx_index s) M m /\
    (* the secret, the key image, the amount *)
    scalar x /\ P = smul E (Gb E) x /\ tr_image t = encp E (smul E (Hp E (re_dest real)) x) /\
    se_amount s = value /\ scalar mask /\ se_mask s = Some (le_digits 256 32 mask) /\ C = Mlsag_spec.commit E mask value /\ se_rct s = Some true /\
    (* the entry of the transfer *)
    tr_amount t = value /\ tr_sub t = (M, m) /\ tr_mask t = le_digits 256 32 mask /\ tr_global t = re_idx real /\
    tr_index t = se_real_output_in_tx_index s /\ 0 <= tr_index t /\ nth_error (tr_vout t) (Z.to_nat (tr_index t)) = Some (re_dest real).

(** a destination of [value] with the keys of sub-address (M, m) of the wallet (a, b), and the text of the address *)
Definition pays_to (net a b value M m : Z) (pid : option (list Z)) (e : dst_entry) (text : list Z) : Prop :=
  de_amount e = value /\ de_addr e = {| spend_public_key := encp E (sub_D E a b M m); view_public_key := encp E (sub_C E a b M m) |} /\
  de_is_subaddress e = Some (negb ((M =? 0) && (m =? 0))) /\
  exists ai, decode_addr (hash E) text = Ok ai /\ ai_spend_key ai = spend_public_key (de_addr e) /\ ai_view_key ai = view_public_key (de_addr e) /\
    ai_net_type ai = net /\ ai_is_sub ai = negb ((M =? 0) && (m =? 0)) /\ ai_payment_id ai = pid.
End Spec.

(** ** what a history of calls asks for *)
(** value and sub-address of the inputs; value, wallet, sub-address and payment id of the outputs; the position of the change *)
Record plan := { pl_in : list (Z * Z * Z); pl_out : list (Z * (Z * Z) * (Z * Z) * option (list Z)); pl_change : option nat }.
Definition total_in (p : plan) : Z := zsum (map (fun x => fst (fst x)) (pl_in p)).
Definition total_out (p : plan) : Z := zsum (map (fun x => fst (fst (fst x))) (pl_out p)).
(** the change of wallet (a, b), unless it is given, is what remains of the inputs; it goes to the first address of the account.
    There is no plan when it would be negative. *)
Definition planned (E : ecops) (a b account fee : Z) (p : option plan) (c : call E) : option plan :=
  match p, c with
  | None, _ => None
  | Some p, Input _ v major m _ _ => Some {| pl_in := pl_in p ++ [(v, match major with Some M => M | None => account end, m)]; pl_out := pl_out p; pl_change := pl_change p |}
  | Some p, Output _ v dest M m pid => Some {| pl_in := pl_in p; pl_out := pl_out p ++ [(v, (cr_view E dest, cr_spend E dest), (M, m), pid)]; pl_change := pl_change p |}
  | Some p, Change _ v =>
      let x := match v with Some v => v | None => total_in p - total_out p - fee end in
      if x <? 0 then None
      else Some {| pl_in := pl_in p; pl_out := pl_out p ++ [(x, (a, b), (account, 0), None)]; pl_change := Some (length (pl_out p)) |}
  end.
Definition plan_of (E : ecops) (a b account fee : Z) (cs : list (call E)) : option plan :=
  fold_left (planned E a b account fee) cs (Some {| pl_in := []; pl_out := []; pl_change := None |}).
(** calls with sensible arguments: amounts of 64 bits, indices of 32, destinations with keys, payment ids of 8 bytes for main addresses only *)
Definition sensible (E : ecops) (a b account ring : Z) (c : call E) : Prop :=
  match c with
  | Input _ v major m _ d => let M := match major with Some M => M | None => account end in
      0 <= v < 2 ^ 64 /\ u32 M /\ u32 m /\ sub_secret E a b M m <> 0 /\ draws_ok ring d
  | Output _ v dest M m pid => 0 <= v < 2 ^ 64 /\ dest = wallet E (cr_view E dest) (cr_spend E dest) /\ scalar (cr_spend E dest) /\ u32 M /\ u32 m /\
      match pid with Some p => M = 0 /\ m = 0 /\ length p = 8%nat /\ bytes_ok p | None => True end
  | Change _ v => match v with Some v => v < 2 ^ 64 | None => True end
  end.
(** the builder holds what was asked for *)
Definition holds (E : ecops) (a b ring net : Z) (p : plan) (bl : bld E) : Prop :=
  length (bo_sources E bl) = length (pl_in p) /\ length (bo_transfers E bl) = length (pl_in p) /\
  Forall2 (fun x st => received E a b ring (fst (fst x)) (snd (fst x)) (snd x) (fst st) (snd st)) (pl_in p) (combine (bo_sources E bl) (bo_transfers E bl)) /\
  length (bo_outputs E bl) = length (pl_out p) /\ length (bo_text E bl) = length (pl_out p) /\
  Forall2 (fun x et => let '(v, w, i, pid) := x in pays_to E net (fst w) (snd w) v (fst i) (snd i) pid (fst et) (snd et)) (pl_out p) (combine (bo_outputs E bl) (bo_text E bl)) /\
  bo_selected E bl = map Z.of_nat (seq 0 (length (pl_in p))) /\ bo_change E bl = option_map Z.of_nat (pl_change p).
