(** Vocabulary of the signing-protocol properties: sessions and what can be read
    off the messages and answers of a session. *)
From Verif Require Import Py Addr_model Lists_spec Signer_model.

(** one exchange: what the call drew, the host's message, the device's answer *)
Notation event := ((tape * msg) * resp)%type.
Definition is_init (m : msg) : Prop := match m with MInit _ => True | _ => False end.

Section Spec.
  Context (C : ops).

  (** A session: an init message followed by other messages, every one of them
      answered with something other than Failure; the device was in any state before. *)
  Definition session (cr : creds C) (t0 : tape) (d : tsx_data) (r0 : resp) (tr : list event) : Prop :=
    exists st st', run C cr st ((t0, MInit d) :: map fst tr) = (st', r0 :: map snd tr) /\
      r0 <> RFailure /\ Forall (fun e => ~ is_init (snd (fst e)) /\ snd e <> RFailure) tr.
End Spec.

(** ** Message order *)
Inductive kind := KInit | KInput | KPerm | KVini | KAllIn | KOutput | KAllOut | KSign | KFinal.
Definition kind_of (r : resp) : list kind :=
  match r with
  | RInit _ _ => [KInit] | RSetInput _ _ _ _ _ _ => [KInput] | RPerm => [KPerm] | RVini => [KVini]
  | RAllIn _ => [KAllIn] | RSetOutput _ _ _ _ _ _ => [KOutput] | RAllOut _ _ _ _ _ => [KAllOut]
  | RSign _ _ => [KSign] | RFinal _ _ _ => [KFinal]
  | RFailure | ROffloaded => []
  end.
(** the complete protocol for n inputs and m outputs, with k inputs hashed in step 4 *)
Definition protocol (n k m : nat) : list kind :=
  [KInit] ++ repeat KInput n ++ [KPerm] ++ repeat KVini k ++ [KAllIn] ++ repeat KOutput m ++ [KAllOut] ++
  repeat KSign n ++ [KFinal].
Definition prefix {A} (a b : list A) : Prop := exists c, b = a ++ c.

(** ** Contents of a session *)
(** inputs, in order: source entry, the call's randomness, the answer's fields *)
Record input_ack := { ia_src : src_entry; ia_tape : tape; ia_vini : list Z; ia_tag : list Z;
                      ia_pseudo : list Z; ia_pseudo_tag : list Z; ia_alpha_ct : list Z; ia_spend_ct : list Z }.
Definition inputs (tr : list event) : list input_ack :=
  flat_map (fun e => match e with
    | (t, MSetInput s, RSetInput v tg p ptg a x) =>
        [{| ia_src := s; ia_tape := t; ia_vini := v; ia_tag := tg; ia_pseudo := p; ia_pseudo_tag := ptg;
            ia_alpha_ct := a; ia_spend_ct := x |}]
    | _ => [] end) tr.
(** the permutation message *)
Definition perms (tr : list event) : list (list Z) :=
  flat_map (fun e => match e with (_, MPerm p, RPerm) => [p] | _ => [] end) tr.
(** serialised inputs hashed in step 4, with their source entries and tags *)
Definition vinis (tr : list event) : list (src_entry * list Z * list Z) :=
  flat_map (fun e => match e with (_, MVini s v tg, RVini) => [(s, v, tg)] | _ => [] end) tr.
(** outputs: entry and tag sent, and the answer's fields *)
Record output_ack := { oa_dst : dst_entry; oa_tag : list Z; oa_tx_out : list Z; oa_rsig : option (list Z);
                       oa_out_pk : list Z; oa_ecdh : list Z }.
Definition outputs (tr : list event) : list output_ack :=
  flat_map (fun e => match e with
    | (_, MSetOutput (Some e) tg _ _, RSetOutput o _ rs _ pk ec) =>
        [{| oa_dst := e; oa_tag := tg; oa_tx_out := o; oa_rsig := rs; oa_out_pk := pk; oa_ecdh := ec |}]
    | _ => [] end) tr.
(** signatures: the host's message and the answer *)
Record sign_ack := { sa_src : src_entry; sa_vini : list Z; sa_tag : list Z; sa_pseudo : list Z; sa_pseudo_tag : list Z;
                     sa_alpha_ct : list Z; sa_spend_ct : list Z; sa_sig : list Z; sa_pseudo_out : list Z }.
Definition signs (tr : list event) : list sign_ack :=
  flat_map (fun e => match e with
    | (_, MSign s v tg (Some p) ptg (Some a) x, RSign sg po) =>
        [{| sa_src := s; sa_vini := v; sa_tag := tg; sa_pseudo := p; sa_pseudo_tag := ptg;
            sa_alpha_ct := a; sa_spend_ct := x; sa_sig := sg; sa_pseudo_out := po |}]
    | _ => [] end) tr.
(** the answers to the all-outputs-set message *)
Definition allouts (tr : list event) : list (list Z * list Z * Z * Z * list Z) :=
  flat_map (fun e => match e with (_, MAllOut, RAllOut ex ph fee ty fm) => [(ex, ph, fee, ty, fm)] | _ => [] end) tr.
(** kinds of the answers *)
Definition kinds (tr : list event) : list kind := flat_map (fun e => kind_of (snd e)) tr.
(** amounts of the inputs and outputs, random masks of the pseudo outputs *)
Definition in_amounts (tr : list event) : list Z := map (fun a => se_amount (ia_src a)) (inputs tr).
Definition out_amounts (tr : list event) : list Z := map (fun o => de_amount (oa_dst o)) (outputs tr).
Definition alphas (tr : list event) : list Z := map (fun a => rnd (ia_tape a) 0) (inputs tr).

Section History.
  Context (C : ops).
  (** a history of a device that was just started: messages with the answers they got *)
  Definition history (cr : creds C) (H : list event) : Prop := snd (run C cr None (map fst H)) = map snd H.

  (** ** HMAC forgeries *)
  (** [tag] is the tag of [m] under the session key for purpose [disc] and index [idx] *)
  Definition valid_tag (c : cfg C) (disc : list Z) (idx : Z) (m tag : list Z) : Prop :=
    exists k, build_key C (c_key_hmac C c) disc (Some idx) = Ok k /\ tag = hmac C k m.
  (** the bytes a destination tag and an input tag stand for *)
  Definition dest_payload (e : dst_entry) (x : list Z) : Prop := dump_dst e = Ok x.
  Definition in_payload (s : src_entry) (vini x : list Z) : Prop := exists b, dump_src s = Ok b /\ x = b ++ vini.

  (** The host broke a primitive in the session [tr] with parameters [c] opened by [d]: it presented
      something authentic that the device never made, or knows a hash collision.  Each case names the
      message of the session and the values involved. *)
  Inductive forgery (c : cfg C) (d : tsx_data) (tr : list event) : Prop :=
  | forged_destination i o e x y : nth_error (outputs tr) i = Some o -> nth_error (td_outputs d) i = Some e ->
      dest_payload (oa_dst o) x -> dest_payload e y -> cn_hash C x <> cn_hash C y ->
      valid_tag c d_txdest (Z.of_nat i) (cn_hash C x) (oa_tag o) -> forgery c d tr
  | forged_input s v tag i x : In (s, v, tag) (vinis tr ++ map (fun a => (sa_src a, sa_vini a, sa_tag a)) (signs tr)) -> 0 <= i ->
      in_payload s v x -> valid_tag c d_txin i (cn_hash C x) tag ->
      (forall a y, nth_error (inputs tr) (Z.to_nat i) = Some a -> in_payload (ia_src a) (ia_vini a) y -> cn_hash C x <> cn_hash C y) ->
      forgery c d tr
  | forged_pseudo_out s i a : In s (signs tr) -> nth_error (inputs tr) i = Some a ->
      valid_tag c d_txin_comm (Z.of_nat i) (sa_pseudo s) (sa_pseudo_tag s) -> sa_pseudo s <> ia_pseudo a -> forgery c d tr
  | forged_alpha s i a k p : In s (signs tr) -> nth_error (inputs tr) i = Some a ->
      build_key C (c_key_enc C c) d_txin_alpha (Some (Z.of_nat i)) = Ok k -> aead_dec C k (sa_alpha_ct s) = Ok p ->
      sa_alpha_ct s <> ia_alpha_ct a -> forgery c d tr
  | collision x y : x <> y -> cn_hash C x = cn_hash C y -> 
      ((exists i o e, nth_error (outputs tr) i = Some o /\ nth_error (td_outputs d) i = Some e /\ dest_payload (oa_dst o) x /\ dest_payload e y) \/
       (exists s v tag a, In (s, v, tag) (vinis tr ++ map (fun a => (sa_src a, sa_vini a, sa_tag a)) (signs tr)) /\ In a (inputs tr) /\
           in_payload s v x /\ in_payload (ia_src a) (ia_vini a) y)) -> forgery c d tr.
End History.

(** a destination entry as the protobuf reader delivers it *)
Definition dst_ok (e : dst_entry) : Prop :=
  0 <= de_amount e /\ bytes_ok (spend_public_key (de_addr e)) /\ bytes_ok (view_public_key (de_addr e)) /\
  match de_original e with Some l => bytes_ok l | None => True end.

Section Output.
  Context (C : ops).
  (** shared secret between the transaction and the receiver of [e]: the receiver's view key times
      the transaction's secret (the common one, or an own one for sub-addresses when the transaction has
      several); for the change the wallet's view secret times the public transaction key *)
  Definition shared_secret (c : cfg C) (e : dst_entry) (s : pt C) : Prop :=
    (change_address C c = Some (de_addr e) /\ s = key_derivation C (c_r_pub C c) (view_priv C (c_creds C c))) \/
    (change_address C c <> Some (de_addr e) /\ exists A k, dec_pt C (view_public_key (de_addr e)) = Ok A /\ s = key_derivation C A k /\
       (k = c_r C c \/ c_need_additional C c = true /\ de_is_subaddress e = Some true)).
  (** output [i] of the transaction pays [e]: its one-time key, commitment and encrypted amount *)
  Definition pays (c : cfg C) (i : Z) (e : dst_entry) (o : output_ack) : Prop :=
    exists s B mask, shared_secret c e s /\ dec_pt C (spend_public_key (de_addr e)) = Ok B /\
      oa_tx_out o = [0; 2] ++ enc_pt C (derive_pub C s i B) /\
      oa_out_pk o = enc_pt C (derive_pub C s i B) ++ enc_pt C (gen_c C mask (de_amount e)) /\
      oa_ecdh o = ecdh_bytes C c mask (de_amount e) (enc_int C (derivation_to_sc C s i)).
End Output.

(** ** Commitments *)
(** encodings of scalars and points and the authenticated encryption can be undone *)
Record codec_laws (C : ops) : Prop := {
  law_int : forall x, 0 <= x < ell -> dec_int C (enc_int C x) = x;
  law_pt : forall a x, dec_pt C (enc_pt C (gen_c C a x)) = Ok (gen_c C a x);
  law_pt_len : forall P, length (enc_pt C P) = 32%nat;
  law_aead : forall k n p, aead_dec C k (aead_enc C k n p) = Ok p;
}.
(** The commitment part of the transaction: input [j] spends amount [x_j] through the pseudo output
    [gen_c a_j x_j], output [i] commits to its amount with mask [m_i], and the masks have equal sums. *)
Definition commitments_balance (C : ops) (tr : list event) (amounts a m : list Z) : Prop :=
  map sa_pseudo_out (signs tr) = map (fun x => enc_pt C (gen_c C (fst x) (snd x))) (combine a amounts) /\
  length a = length amounts /\
  map (fun o => skipn 32 (oa_out_pk o)) (outputs tr) = map (fun x => enc_pt C (gen_c C (fst x) (snd x))) (combine m (out_amounts tr)) /\
  length m = length (out_amounts tr) /\
  zsum a mod ell = zsum m mod ell.

(** ** Range proofs *)
(** range proof [p] covers these amounts and masks: the device made it and returned it in the answer to
    a message of the session, or the host sent it with a message and the device verified it *)
Definition proof_for (C : ops) (tr : list event) (amounts masks : list Z) (p : bp C) : Prop :=
  exists t dst tg rsig offl r, In (t, MSetOutput dst tg rsig offl, r) tr /\
    ((exists bytes o vt mo pk ec, prove_bp C amounts masks (seed t) = Ok p /\ dump_rsig_bp C p = Ok bytes /\ r = RSetOutput o vt (Some bytes) mo pk ec) \/
     (exists bytes, rsig = Some bytes /\ parse_bp C bytes = Ok p /\ verify_bp C p amounts masks = Ok true)).
(** batches of amounts and masks with their proofs cover exactly the outputs of the session, whose commitments use these masks *)
Definition all_proved (C : ops) (tr : list event) (B : list (list Z * list Z * bp C)) : Prop :=
  concat (map (fun x => fst (fst x)) B) = out_amounts tr /\
  map (fun o => skipn 32 (oa_out_pk o)) (outputs tr) =
    map (fun x => enc_pt C (gen_c C (fst x) (snd x))) (combine (concat (map (fun x => snd (fst x)) B)) (out_amounts tr)) /\
  length (concat (map (fun x => snd (fst x)) B)) = length (outputs tr) /\
  Forall (fun x => proof_for C tr (fst (fst x)) (snd (fst x)) (snd x)) B.

(** ** Change *)
(** output [o] of the init message is its change: not shown to the user *)
Definition is_change (d : tsx_data) (o : dst_entry) : Prop :=
  exists ch, td_change d = Some ch /\ de_addr o = de_addr ch /\ de_amount o = de_amount ch /\ de_amount ch <> 0.

(** ** Other vocabulary *)
(** source entry and serialised input stand for the same bytes as an input the device accounted for *)
Definition same_input (s : src_entry) (v : list Z) (a : input_ack) : Prop :=
  exists x, in_payload s v x /\ in_payload (ia_src a) (ia_vini a) x.
(** sum of a list of group elements *)
Definition psum {A} (add : A -> A -> A) (zero : A) (l : list A) : A := fold_right add zero l.
(** the accepted messages so far, for n inputs and m outputs: an initial part of the protocol.  In step 4 the host
    may send any number of inputs before it closes the inputs, but then the session cannot continue. *)
Definition order_ok (n m : nat) (ks : list kind) : Prop :=
  (exists k, prefix ks ([KInit] ++ repeat KInput n ++ [KPerm] ++ repeat KVini k ++ [KAllIn])) \/ prefix ks (protocol n n m).
