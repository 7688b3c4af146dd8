(** A device that really stores the session between messages (hwtoken/token.py:112-130):
    the builder object is flattened into a holder after every message and rebuilt from it
    before the next.  It is compared with the device of Signer_model, which keeps the builder. *)
From Coq Require Import String Ascii.
From Verif Require Import Py Signer_model StateSave_model.
Local Open Scope string_scope.

Section Stored.
  Context (C : ops).
  (** values of plain attributes *)
  Inductive aval :=
  | AZ (z : Z) | ABytes (l : list Z) | ABool (b : bool) | AZs (l : list Z) | AByteses (l : list (list Z))
  | ADst (e : dst_entry) | ACreds (c : creds C) | APt (p : pt C) | ASubs (s : subs C) | AObj.
  Notation dict := (dict aval).
  Definition z (v : Z) := POther (AZ v).
  Definition bs (v : list Z) := POther (ABytes v).
  Definition bl (v : bool) := POther (ABool v).
  Definition zs (v : list Z) := POther (AZs v).
  Definition bss (v : list (list Z)) := POther (AByteses v).
  Definition orNone {A} (f : A -> val aval) (o : option A) : val aval := match o with Some a => f a | None => PNone end.

  (** attributes of the builder object the signing model tracks, tsx_sign_builder.py:30-82 *)
  Definition tracked (b : builder C) : dict :=
    let c := b_cfg C b in
    [("creds", POther (ACreds (c_creds C c))); ("key_hmac", bs (c_key_hmac C c)); ("key_enc", bs (c_key_enc C c));
     ("r", z (c_r C c)); ("r_pub", POther (APt (c_r_pub C c))); ("state", PState (b_state C b) false);
     ("need_additional_txkeys", bl (c_need_additional C c)); ("use_bulletproof", bl (c_use_bulletproof C c));
     ("use_simple_rct", bl (c_use_simple C c)); ("input_count", z (c_input_count C c)); ("output_count", z (c_output_count C c));
     ("output_change", orNone (fun e => POther (ADst e)) (c_change C c)); ("fee", z (c_fee C c));
     ("account_idx", orNone z (c_account C c)); ("client_version", z (c_client_version C c)); ("bp_version", z (c_bp_version C c));
     ("additional_tx_private_keys", zs (b_add_priv C b)); ("additional_tx_public_keys", bss (b_add_pub C b));
     ("inp_idx", z (b_inp_idx C b)); ("out_idx", z (b_out_idx C b)); ("is_processing_offloaded", bl (b_processing_offloaded C b));
     ("input_last_amount", z (b_input_last_amount C b)); ("summary_inputs_money", z (b_sum_in C b)); ("summary_outs_money", z (b_sum_out C b));
     ("output_pk", bss (b_output_pk C b)); ("output_amounts", orNone zs (b_amounts C b)); ("output_masks", orNone zs (b_masks C b));
     ("output_last_mask", orNone z (b_last_mask C b)); ("rsig_type", z (c_rsig_type C c)); ("rsig_grp", zs (c_rsig_grp C c));
     ("rsig_offload", bl (c_rsig_offload C c)); ("sumout", z (b_sumout C b)); ("sumpouts_alphas", z (b_sumpouts C b));
     ("subaddresses", orNone (fun s => POther (ASubs s)) (b_subs C b)); ("tx", bs (b_extra C b)); ("source_permutation", zs (b_perm C b));
     ("tx_prefix_hasher", orNone PArchive (b_prefix C b)); ("tx_prefix_hash", bs (b_prefix_hash C b));
     ("full_message_hasher", orNone (fun h => PHasher (fh_simple h) (fh_state h) (fh_master h) (fh_rsig h) (Some (fh_rct h))) (b_full C b));
     ("full_message", bs (b_full_message C b))].
  (** attributes it does not track (never read after they are set, or constant) *)
  Definition untracked : dict :=
    [("trezor", POther AObj); ("key_master", POther AObj); ("multi_sig", bl false); ("use_rct", bl true); ("mixin", POther AObj);
     ("input_secrets", POther AObj); ("input_alphas", POther AObj); ("input_pseudo_outs", POther AObj); ("output_sk", POther AObj);
     ("exp_tx_prefix_hash", PNone)].
  Definition object_of (b : builder C) : dict := (tracked b ++ untracked)%list.

  (** reading the builder back from an object *)
  Definition rd {A} (d : dict) (a : string) (f : val aval -> option A) : option A :=
    match getattr d a with Some v => f v | None => None end.
  Definition fz v := match v with POther (AZ x) => Some x | _ => None end.
  Definition fbs v := match v with POther (ABytes x) => Some x | _ => None end.
  Definition fbl v := match v with POther (ABool x) => Some x | _ => None end.
  Definition fzs v := match v with POther (AZs x) => Some x | _ => None end.
  Definition fbss v := match v with POther (AByteses x) => Some x | _ => None end.
  Definition fopt {A} (f : val aval -> option A) v := match v with PNone => Some None | _ => match f v with Some x => Some (Some x) | None => None end end.
  Notation "x <- e ;; k" := (match e with Some x => k | None => None end) (at level 61, e at next level, right associativity).
  Definition builder_of (d : dict) : option (builder C) :=
    cr <- rd d "creds" (fun v => match v with POther (ACreds x) => Some x | _ => None end) ;;
    kh <- rd d "key_hmac" fbs ;; ke <- rd d "key_enc" fbs ;; r <- rd d "r" fz ;;
    rp <- rd d "r_pub" (fun v => match v with POther (APt x) => Some x | _ => None end) ;;
    st <- rd d "state" (fun v => match v with PState s _ => Some s | _ => None end) ;;
    na <- rd d "need_additional_txkeys" fbl ;; ub <- rd d "use_bulletproof" fbl ;; us <- rd d "use_simple_rct" fbl ;;
    ic <- rd d "input_count" fz ;; oc <- rd d "output_count" fz ;;
    ch <- rd d "output_change" (fopt (fun v => match v with POther (ADst x) => Some x | _ => None end)) ;;
    fe <- rd d "fee" fz ;; ac <- rd d "account_idx" (fopt fz) ;; cv <- rd d "client_version" fz ;; bv <- rd d "bp_version" fz ;;
    ap <- rd d "additional_tx_private_keys" fzs ;; aq <- rd d "additional_tx_public_keys" fbss ;;
    ii <- rd d "inp_idx" fz ;; oi <- rd d "out_idx" fz ;; po <- rd d "is_processing_offloaded" fbl ;;
    la <- rd d "input_last_amount" fz ;; si <- rd d "summary_inputs_money" fz ;; so <- rd d "summary_outs_money" fz ;;
    pk <- rd d "output_pk" fbss ;; am <- rd d "output_amounts" (fopt fzs) ;; ma <- rd d "output_masks" (fopt fzs) ;;
    lm <- rd d "output_last_mask" (fopt fz) ;; rt <- rd d "rsig_type" fz ;; rg <- rd d "rsig_grp" fzs ;; ro <- rd d "rsig_offload" fbl ;;
    su <- rd d "sumout" fz ;; sp <- rd d "sumpouts_alphas" fz ;;
    sb <- rd d "subaddresses" (fopt (fun v => match v with POther (ASubs x) => Some x | _ => None end)) ;;
    ex <- rd d "tx" fbs ;; pe <- rd d "source_permutation" fzs ;;
    ph <- rd d "tx_prefix_hasher" (fopt (fun v => match v with PArchive x => Some x | _ => None end)) ;;
    pq <- rd d "tx_prefix_hash" fbs ;;
    fu <- rd d "full_message_hasher" (fopt (fun v => match v with
            | PHasher a b' c' e (Some g) => Some {| fh_simple := a; fh_state := b'; fh_master := c'; fh_rsig := e; fh_rct := g |}
            | _ => None end)) ;;
    fm <- rd d "full_message" fbs ;;
    Some {| b_cfg := {| c_creds := cr; c_key_hmac := kh; c_key_enc := ke; c_r := r; c_r_pub := rp; c_need_additional := na;
                        c_use_bulletproof := ub; c_use_simple := us; c_input_count := ic; c_output_count := oc; c_change := ch;
                        c_fee := fe; c_account := ac; c_client_version := cv; c_bp_version := bv; c_rsig_type := rt;
                        c_rsig_grp := rg; c_rsig_offload := ro |};
            b_state := st; b_inp_idx := ii; b_out_idx := oi; b_processing_offloaded := po; b_input_last_amount := la;
            b_sum_in := si; b_sum_out := so; b_output_pk := pk; b_amounts := am; b_masks := ma; b_last_mask := lm;
            b_sumout := su; b_sumpouts := sp; b_subs := sb; b_extra := ex; b_perm := pe; b_prefix := ph; b_prefix_hash := pq;
            b_full := fu; b_full_message := fm; b_add_priv := ap; b_add_pub := aq |}.

  (** names of the holder's attributes, tsx_sign_state_holder.py:9-55 *)
  Definition holder_names : list string :=
    ["creds"; "key_master"; "key_hmac"; "key_enc"; "r"; "r_pub"; "state"; "multi_sig"; "need_additional_txkeys"; "use_bulletproof";
     "use_rct"; "use_simple_rct"; "input_count"; "output_count"; "output_change"; "mixin"; "fee"; "account_idx";
     "additional_tx_private_keys"; "additional_tx_public_keys"; "inp_idx"; "out_idx"; "summary_inputs_money"; "summary_outs_money";
     "input_secrets"; "input_alphas"; "input_pseudo_outs"; "output_sk"; "output_pk"; "output_amounts"; "output_masks"; "rsig_type";
     "rsig_grp"; "rsig_offload"; "sumout"; "sumpouts_alphas"; "subaddresses"; "tx"; "source_permutation"; "tx_prefix_hasher";
     "tx_prefix_hash"; "full_message_hasher"; "full_message"; "exp_tx_prefix_hash"].

  (** one message through the stored state: tsx_sign.py:82-105 wake_up (a new builder object [b0], filled by state_load
      unless the message is an init or nothing is stored), sign, then state_save into a new holder [h0];
      hwtoken/token.py:118 clears the stored state first *)
  Definition tsx_sign_stored (h0 : dict) (b0 : dict) (cr : creds C) (st : option dict) (t : tape) (m : msg) : res (option dict * resp) :=
    let fresh := object_of (new_builder C cr) in
    let* obj := match m, st with
                | MInit _, _ => Ok fresh
                | _, Some holder => state_load b0 holder
                | _, None => Ok fresh
                end in
    match builder_of obj with
    | None => Err AttributeError
    | Some b =>
        match sign C t m b with
        | Err _ => Ok (None, RFailure)
        | Ok (b, r) =>
            let* st := (if is_terminal C b then Ok None else let* h := state_save h0 (object_of b) in Ok (Some h)) in
            Ok (st, match r with Some r => r | None => RFailure end)
        end
    end.
  Fixpoint run_stored (h0 b0 : dict) (cr : creds C) (st : option dict) (h : list (tape * msg)) : res (list resp) :=
    match h with
    | [] => Ok []
    | (t, m) :: h =>
        let* (st, r) := tsx_sign_stored h0 b0 cr st t m in
        let* rs := run_stored h0 b0 cr st h in
        Ok (r :: rs)
    end.
End Stored.
