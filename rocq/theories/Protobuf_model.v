(** Model of monero_glue/protobuf.py.
    str values are represented by their UTF-8 bytes; which byte strings
    bytes.decode() accepts is a parameter [utf8_ok].
    Field names are identified with field positions of the schema. *)
From Verif Require Import Py.

(** ** Readers
    A BytesIO with [rest] unread bytes, wrapped in LimitedReaders whose remaining
    limits are [limits], innermost first (protobuf.py:213-224). *)
Record reader := { rest : list Z; limits : list Z }.

(** readinto(buf), len(buf) = n: LimitedReader raises EOFError when its limit is
    below n; the BytesIO fills as much as it has and the buffer keeps its zeros.
    Returns the buffer, the number of bytes read, the reader. *)
Definition readinto (rd : reader) (n : Z) : res (list Z * Z * reader) :=
  if existsb (fun l => l <? n) (limits rd) then Err EOFErr
  else
    let got := firstn (Z.to_nat n) (rest rd) in
    let nread := zlen got in
    Ok (got ++ repeat 0 (Z.to_nat (n - nread)), nread,
        {| rest := skipn (Z.to_nat n) (rest rd); limits := map (fun l => l - nread) (limits rd) |}).

(** protobuf.py:47-58 load_uvarint.  Recursion over the unread bytes; on
    EOFError the reader keeps what was consumed. *)
Inductive uv := UVal (n : Z) (rd : reader) | UEof (rd : reader).
Fixpoint load_uvarint_from (rst : list Z) (lims : list Z) (result shift : Z) : uv :=
  if existsb (fun l => l <? 1) lims then UEof {| rest := rst; limits := lims |}
  else match rst with
  | [] => UEof {| rest := []; limits := lims |}
  | byte :: t =>
      let lims := map (fun l => l - 1) lims in
      let result := result + Z.shiftl (Z.land byte 127) shift in
      if Z.land byte 128 =? 0 then UVal result {| rest := t; limits := lims |}
      else load_uvarint_from t lims result (shift + 7)
  end.
Definition load_uvarint (rd : reader) : uv := load_uvarint_from (rest rd) (limits rd) 0 0.
(** the same where EOFError propagates *)
Definition load_uvarint_exn (rd : reader) : res (Z * reader) :=
  match load_uvarint rd with UVal n rd => Ok (n, rd) | UEof _ => Err EOFErr end.

(** protobuf.py:61-70 dump_uvarint for any writer [wr] *)
Fixpoint dump_uvarint_loop {W} (wr : W -> list Z -> W) (fuel : nat) (w : W) (n : Z) : res W :=
  match fuel with
  | O => Err OutOfFuel
  | S fuel =>
      let shifted := Z.shiftr n 7 in
      let w := wr w [Z.lor (Z.land n 127) (if shifted =? 0 then 0 else 128)] in
      if shifted =? 0 then Ok w else dump_uvarint_loop wr fuel w shifted
  end.
Definition dump_uvarint {W} (wr : W -> list Z -> W) (w : W) (n : Z) : res W :=
  if n <? 0 then Err ValueError
  else dump_uvarint_loop wr (S (Z.to_nat (Z.log2 n))) w n.

(** a writer collecting bytes (BytesIO) and CountingWriter, protobuf.py:227-234 *)
Definition bytes_write (w : list Z) (buf : list Z) : list Z := w ++ buf.
Definition count_write (w : Z) (buf : list Z) : Z := w + zlen buf.

(** protobuf.py:93-97 sint_to_uint *)
Definition sint_to_uint (sint : Z) : Z :=
  let r := Z.shiftl sint 1 in if sint <? 0 then Z.lnot r else r.
(** protobuf.py:100-105 uint_to_sint *)
Definition uint_to_sint (uint : Z) : Z :=
  let r := Z.shiftr uint 1 in if Z.land uint 1 =? 0 then r else Z.lnot r.

(** ** Schemas and messages *)
(** protobuf.py:108-129 field types; a schema maps tags to (type, repeated) in
    the order of the dict returned by get_fields *)
Inductive ftype := TUVarint | TSVarint | TBool | TBytes | TUnicode
                 | TMsg (fields : list (Z * ftype * bool)).
Notation schema := (list (Z * ftype * bool)).

(** WIRE_TYPE class attributes *)
Definition wire_type (t : ftype) : Z :=
  match t with TUVarint | TSVarint | TBool => 0 | _ => 2 end.

(** A message is the list of its fields' contents in schema order; the content
    of a field is a list: the list itself for a repeated field, and for a
    non-repeated one [] for None and [v] for v. *)
Inductive value :=
| VInt (n : Z) | VBool (b : bool) | VBytes (l : list Z) | VStr (l : list Z)
| VMsg (fs : list (list value)).
Notation message := (list (list value)).

(** protobuf.py:299-352 dump_message, with the loop over fields and the loop over
    the items of a field.  dump_value is the body protobuf.py:318-352. *)
Fixpoint dump_value (v : value) (t : ftype) {W} (wr : W -> list Z -> W) (w : W) {struct v} : res W :=
  match t, v with
  | TUVarint, VInt n => dump_uvarint wr w n
  | TSVarint, VInt n => dump_uvarint wr w (sint_to_uint n)
  | TBool, VBool b => dump_uvarint wr w (if b then 1 else 0)
  | TBytes, VBytes l => let* w := dump_uvarint wr w (zlen l) in Ok (wr w l)
  | TUnicode, VStr l => let* w := dump_uvarint wr w (zlen l) in Ok (wr w l)
  | TMsg s, VMsg fs =>
      let dump_fields :=
        (fix dump_fields (fs : message) (s : schema) (W : Type) (wr : W -> list Z -> W) (w : W) {struct fs} : res W :=
           match fs, s with
           | f :: fs, (ftag, ft, _) :: s =>
               let fkey := Z.lor (Z.shiftl ftag 3) (wire_type ft) in
               let* w := (fix each (vs : list value) (w : W) {struct vs} : res W :=
                  match vs with
                  | [] => Ok w
                  | v :: vs =>
                      let* w := dump_uvarint wr w fkey in
                      let* w := dump_value v ft wr w in
                      each vs w
                  end) f w in
               dump_fields fs s W wr w
           | [], [] => Ok w
           | _, _ => Err TypeError
           end) in
      let* size := dump_fields fs s Z count_write 0 in
      let* w := dump_uvarint wr w size in
      dump_fields fs s W wr w
  | _, _ => Err TypeError
  end.

(** the loops again as top-level functions (dump_message of a whole message) *)
Fixpoint dump_each {W} (wr : W -> list Z -> W) (fkey : Z) (ft : ftype) (vs : list value) (w : W) : res W :=
  match vs with
  | [] => Ok w
  | v :: vs =>
      let* w := dump_uvarint wr w fkey in
      let* w := dump_value v ft wr w in
      dump_each wr fkey ft vs w
  end.
Fixpoint dump_message {W} (wr : W -> list Z -> W) (s : schema) (fs : message) (w : W) : res W :=
  match fs, s with
  | f :: fs, (ftag, ft, _) :: s =>
      let fkey := Z.lor (Z.shiftl ftag 3) (wire_type ft) in
      let* w := dump_each wr fkey ft f w in
      dump_message wr s fs w
  | [], [] => Ok w
  | _, _ => Err TypeError
  end.

(** fields.get(ftag): position, type and repeated flag *)
Fixpoint find_field (s : schema) (tag : Z) (k : nat) : option (nat * ftype * bool) :=
  match s with
  | [] => None
  | (t, ft, r) :: s => if t =? tag then Some (k, ft, r) else find_field s tag (S k)
  end.

(** msg_type(): _fill_missing, protobuf.py:195-202 *)
Definition empty_msg (s : schema) : message := map (fun _ => []) s.

(** protobuf.py:290-294 *)
Definition store (m : message) (k : nat) (rep : bool) (v : value) : message :=
  upd m k (if rep then nth k m [] ++ [v] else [v]).

Section Load.
  Variable utf8_ok : list Z -> bool.

  (** protobuf.py:240-296 load_message: the while loop, [fuel] bounds the number
      of fields read and the nesting *)
  Fixpoint load_loop (fuel : nat) (s : schema) (rd : reader) (msg : message) : res (message * reader) :=
    match fuel with
    | O => Err OutOfFuel
    | S fuel =>
        match load_uvarint rd with
        | UEof rd => Ok (msg, rd)
        | UVal fkey rd =>
            let ftag := Z.shiftr fkey 3 in
            let wtype := Z.land fkey 7 in
            match find_field s ftag 0 with
            | None =>
                if wtype =? 0 then
                  let* (_, rd) := load_uvarint_exn rd in
                  load_loop fuel s rd msg
                else if wtype =? 2 then
                  let* (ivalue, rd) := load_uvarint_exn rd in
                  let* (_, rd) := readinto rd ivalue in
                  load_loop fuel s rd msg
                else Err ValueError
            | Some (k, ft, rep) =>
                if negb (wtype =? wire_type ft) then Err TypeError
                else
                  let* (ivalue, rd) := load_uvarint_exn rd in
                  let* (fvalue, rd) :=
                    match ft with
                    | TUVarint => Ok (VInt ivalue, rd)
                    | TSVarint => Ok (VInt (uint_to_sint ivalue), rd)
                    | TBool => Ok (VBool (negb (ivalue =? 0)), rd)
                    | TBytes =>
                        let* (buf, _, rd) := readinto rd ivalue in Ok (VBytes buf, rd)
                    | TUnicode =>
                        let* (buf, _, rd) := readinto rd ivalue in
                        if utf8_ok buf then Ok (VStr buf, rd) else Err ValueError
                    | TMsg s' =>
                        let* (m, rd') := load_loop fuel s' {| rest := rest rd; limits := ivalue :: limits rd |} (empty_msg s') in
                        Ok (VMsg m, {| rest := rest rd'; limits := tl (limits rd') |})
                    end in
                  load_loop fuel s rd (store msg k rep fvalue)
            end
        end
    end.

  (** load_message(BytesIO(bs), type) *)
  Definition load_message (s : schema) (bs : list Z) : res message :=
    let* (m, _) := load_loop (S (length bs)) s {| rest := bs; limits := [] |} (empty_msg s) in Ok m.
End Load.

(** dump_message(BytesIO(), msg) *)
Definition dump_bytes (s : schema) (m : message) : res (list Z) := dump_message bytes_write s m [].
