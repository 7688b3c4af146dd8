(** C51: serialisation of range proofs. *)
From Verif Require Import Py Digits Ints_model Ec_model Ec_spec Ec_toy Mlsag_model Mlsag_spec Borromean_model Borromean_spec Borromean_proof Rsig_model Rsig_spec Rsig_proof.

(** The flattened Borromean proof parses back to its components, whatever follows it. *)
Theorem C51_flatten_inflate r junk : rsig_keys r -> inflate_rsig (flatten_rsig r ++ junk) = r.
Proof. apply inflate_flatten. Qed.
Print Assumptions C51_flatten_inflate.
Example C51_flatten_example : rsig_keys {| rb_s0 := repeat (repeat 1 32) 64; rb_s1 := repeat (repeat 2 32) 64; rb_ee := repeat 3 32; rb_Ci := repeat (repeat 4 32) 64 |}.
Proof.
  unfold rsig_keys. cbn [rb_s0 rb_s1 rb_ee rb_Ci]. rewrite !repeat_length. repeat split.
  apply Forall_forall. intros x Hx. rewrite !in_app_iff in Hx. destruct Hx as [Hx|[Hx|[<-|Hx]]];
    try (apply repeat_spec in Hx; subst x); apply repeat_length.
Qed.

(** End to end: the byte string of a generated proof has 193 * 32 bytes, and inflating
    and decoding it gives a proof the verifier accepts for the returned commitment. *)
Theorem C51_bytes_verify (E : ecops) : ec_laws E -> (forall P, length (encp E P) = 32%nat) ->
  forall amount lm ra al sr, 0 <= amount < 2 ^ 64 -> mask_ok lm -> scalars 64 ra -> scalars 64 al -> scalars 64 sr ->
  exists C a bs, prove_range_bytes E amount lm ra al sr = Ok (C, a, bs) /\
    length bs = (193 * 32)%nat /\ C = commit E a amount /\ ver_range_decode E (Some C) (inflate_rsig bs) = Ok true.
Proof.
  intros L Le amount lm ra al sr H1 H2 H3 H4 H5.
  destruct (orig_complete E L amount lm ra al sr H1 H2 H3 H4 H5) as (C & a & R & A1 & A2 & A3 & A4 & A5 & A6 & A7 & (N0 & F0) & (N1 & F1) & Fe & Nc).
  exists C, a, (flatten_rsig (encode_rangesig E R)). unfold prove_range_bytes.
  rewrite (mem_orig E amount lm ra al sr) by (apply H3 || apply H4 || apply H5). rewrite A1. cbn [bind].
  pose proof (encode_keys E Le R N0 N1 Nc) as K.
  split; [reflexivity|split; [|split; [exact A2|]]].
  - destruct K as (K0 & K1 & Kc & F). unfold flatten_rsig. rewrite !app_length.
    apply Forall_app in F. destruct F as [G0 F]. apply Forall_app in F. destruct F as [G1 F]. inversion F as [|? ? Ge Gc]; subst. unfold key in Ge.
    change (rb_ee (encode_rangesig E R)) with (enc_sc (rs_ee E R)). rewrite !concat_keys_len, K0, K1, Kc, Ge by assumption. reflexivity.
  - unfold ver_range_decode. replace (flatten_rsig (encode_rangesig E R)) with (flatten_rsig (encode_rangesig E R) ++ []) by apply app_nil_r.
    rewrite inflate_flatten by exact K. rewrite (decode_encode E L R F0 F1 Fe). cbn [bind]. exact A5.
Qed.
Print Assumptions C51_bytes_verify.
Example C51_bytes_example : forall P, length (encp toy P) = 32%nat.
Proof. intros P. apply le_digits_length. Qed.

(** The dumped bulletproof: with up to 127 rounds and as many R as L values, a reader of
    the wire format gets exactly the components back and consumes the whole string. *)
Theorem C51_bulletproof_dump p : bp_keys p -> (length (bp_L p) <= 127)%nat -> length (bp_R p) = length (bp_L p) ->
  exists bs, dump_rsig_bp p = Ok bs /\ read_bp bs = Ok (p, []) /\ length bs = (32 * (9 + 2 * length (bp_L p)) + 2)%nat.
Proof.
  intros K HL HR. exists (wire p ++ []). rewrite (dump_ok p K HL) by lia. rewrite HR, Nat.sub_diag.
  split; [reflexivity|split; [apply (read_dump p [] K HL); lia|]].
  unfold bp_keys in K. rewrite !Forall_app in K. destruct K as (K1 & K2 & K3 & K4).
  rewrite app_nil_r. unfold wire. rewrite app_length. cbn [length]. rewrite app_length. cbn [length].
  rewrite !concat_keys_len, app_length by (try apply Forall_app; auto). cbn [length]. lia.
Qed.
Print Assumptions C51_bulletproof_dump.
Example C51_bulletproof_example :
  let k v := repeat v 32 in
  let p := {| bp_A := k 1; bp_S := k 2; bp_T1 := k 3; bp_T2 := k 4; bp_taux := k 5; bp_mu := k 6; bp_L := [k 7; k 8]; bp_R := [k 9; k 10]; bp_a := k 11; bp_b := k 12; bp_t := k 13 |} in
  bp_keys p /\ dump_rsig_bp p = Ok (concat [k 1; k 2; k 3; k 4; k 5; k 6] ++ 2 :: concat [k 7; k 8] ++ 2 :: concat [k 9; k 10; k 11; k 12; k 13]).
Proof. split; [repeat constructor|vm_compute; reflexivity]. Qed.

(** With other shapes: more R than L values raise, more than 127 rounds raise, fewer R
    values leave zero padding at the end but the components still read back. *)
Theorem C51_bulletproof_shapes p : bp_keys p ->
  ((127 < length (bp_L p))%nat -> dump_rsig_bp p = Err ValueError) /\
  ((length (bp_L p) <= 127)%nat -> (length (bp_L p) < length (bp_R p))%nat ->
     dump_rsig_bp p = Err (if (length (bp_R p) <=? 255)%nat then IndexError else ValueError)) /\
  ((length (bp_L p) <= 127)%nat -> (length (bp_R p) < length (bp_L p))%nat ->
     exists bs, dump_rsig_bp p = Ok bs /\ read_bp bs = Ok (p, repeat 0 (32 * (length (bp_L p) - length (bp_R p))))).
Proof.
  intros K. split; [apply dump_too_long|split; [apply dump_bad_R, K|]].
  intros HL HR. eexists. rewrite (dump_ok p K HL) by lia. split; [reflexivity|]. apply read_dump; [exact K|exact HL|lia].
Qed.
Print Assumptions C51_bulletproof_shapes.
Example C51_bulletproof_shapes_example :
  let k v := repeat v 32 in
  let p := {| bp_A := k 1; bp_S := k 2; bp_T1 := k 3; bp_T2 := k 4; bp_taux := k 5; bp_mu := k 6; bp_L := [k 7]; bp_R := [k 9; k 10]; bp_a := k 11; bp_b := k 12; bp_t := k 13 |} in
  bp_keys p /\ dump_rsig_bp p = Err IndexError.
Proof. split; [repeat constructor|vm_compute; reflexivity]. Qed.
