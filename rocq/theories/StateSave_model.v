(** Storing the session between messages, /repo/monero_glue/protocol/tsx_sign_builder.py:29-160
    (__init__, state_load, state_save), tsx_sign_state.py:27-36, tsx_sign.py:68-105, hwtoken/token.py:112-130.
    An object is its attribute dictionary.  Values other than the state machine and the two hashers are
    kept as they are (type [V]).  Not modelled: memory tracing; the serialisation archive a KeccakXmrArchive
    may cache (keccak_hasher.py:31, a stateless wrapper of the same writer). *)
From Coq Require Import String Ascii.
From Verif Require Import Py Signer_model.
Local Open Scope string_scope.

Section Save.
  Context {V : Type}.
  (** attribute values *)
  Inductive val :=
  | PNone
  | PState (s : tstate) (in_mem : bool)                       (* a TState object *)
  | PStateTup (s : tstate) (in_mem : bool)                    (* TState.state_save(): a tuple *)
  | PArchive (ctx : list Z)                                   (* a KeccakXmrArchive around a hash context *)
  | PCtx (ctx : list Z)                                       (* a hash context (the bytes absorbed) *)
  | PHasher (simple : bool) (state : Z) (master rsig : list Z) (rct : option (list Z))    (* a PreMlsagHasher object *)
  | PHasherTup (simple : bool) (state : Z) (master rsig : list Z) (rct : option (list Z)) (* PreMlsagHasher.state_save() *)
  | POther (v : V).
  Definition dict := list (string * val).

  (** getattr / setattr *)
  Fixpoint getattr (d : dict) (a : string) : option val :=
    match d with
    | [] => None
    | (k, v) :: d => if String.eqb k a then Some v else getattr d a
    end.
  Fixpoint setattr (d : dict) (a : string) (v : val) : dict :=
    match d with
    | [] => [(a, v)]
    | (k, w) :: d => if String.eqb k a then (k, v) :: d else (k, w) :: setattr d a v
    end.
  Definition startswith (p a : string) : bool := prefix p a.

  (** tsx_sign_state_holder.py:9-55 TsxSignStateHolder.__init__: every attribute is given a default, which
      state_save overwrites; the defaults are kept abstract ([h0]) *)
  (** tsx_sign_builder.py:130-156 state_save, one attribute *)
  Definition save_attr (t : dict) (av : string * val) : res dict :=
    let '(attr, cval) := av in
    if startswith "_" attr then Ok t
    else match cval with
    | PNone => Ok (setattr t attr PNone)
    | _ =>
        if String.eqb attr "state" then
          match cval with PState s m => Ok (setattr t "state" (PStateTup s m)) | _ => Err AttributeError end
        else if String.eqb attr "trezor" then Ok t
        else if startswith "STEP" attr then Ok t
        else if String.eqb attr "tx_prefix_hasher" then
          match cval with PArchive c => Ok (setattr t "tx_prefix_hasher" (PCtx c)) | _ => Err AttributeError end
        else if String.eqb attr "full_message_hasher" then
          match cval with
          | PHasher a b c d e => Ok (setattr t "full_message_hasher" (PHasherTup a b c d e))
          | _ => Err AttributeError
          end
        else Ok (setattr t attr cval)
    end.
  Definition state_save (h0 : dict) (b : dict) : res dict := foldM save_attr b h0.

  (** tsx_sign_builder.py:100-128 state_load, one attribute *)
  Definition load_attr (b : dict) (av : string * val) : res dict :=
    let '(attr, cval) := av in
    if startswith "_" attr then Ok b
    else match cval with
    | PNone => Ok (setattr b attr PNone)
    | _ =>
        if String.eqb attr "state" then
          match cval with PStateTup s m => Ok (setattr b "state" (PState s m)) | _ => Err TypeError end
        else if String.eqb attr "tx_prefix_hasher" then
          match cval with PCtx c => Ok (setattr b "tx_prefix_hasher" (PArchive c)) | _ => Err TypeError end
        else if String.eqb attr "full_message_hasher" then
          match cval with
          | PHasherTup a b' c d e => Ok (setattr b "full_message_hasher" (PHasher a b' c d e))
          | _ => Err TypeError
          end
        else Ok (setattr b attr cval)
    end.
  (** [b0]: what __init__ sets before state_load (tsx_sign_builder.py:29-84) *)
  Definition state_load (b0 : dict) (t : dict) : res dict := foldM load_attr t b0.
End Save.
Arguments val : clear implicits.
Arguments dict : clear implicits.
