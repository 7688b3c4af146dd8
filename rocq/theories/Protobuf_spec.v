(** The wire format of /repo's messages, written independently of the reader and
    writer code: base-128 varints, zig-zag integers, tagged fields. *)
From Verif Require Import Py Digits Protobuf_model.

(** minimal little-endian base-128 digits, high bit set on all but the last *)
Definition varint (n : Z) : list Z :=
  let k := Z.log2 n / 7 in
  map (fun d => 128 + d) (le_digits 128 (Z.to_nat k) n) ++ [n / 128 ^ k].

Definition zigzag (n : Z) : Z := if n <? 0 then - 2 * n - 1 else 2 * n.

(** bytes of one value, of one tagged field, of a whole message *)
Definition key_bytes (tag : Z) (wt : Z) : list Z := varint (tag * 8 + wt).
Fixpoint wire (v : value) (t : ftype) {struct v} : list Z :=
  match v with
  | VInt n => varint (match t with TSVarint => zigzag n | _ => n end)
  | VBool b => varint (if b then 1 else 0)
  | VBytes l | VStr l => varint (zlen l) ++ l
  | VMsg fs =>
      let body :=
        (fix body (fs : message) (s : schema) {struct fs} : list Z :=
           match fs, s with
           | f :: fs, (tag, ft, _) :: s =>
               flat_map (fun v => key_bytes tag (wire_type ft) ++ wire v ft) f ++ body fs s
           | _, _ => []
           end) fs (match t with TMsg s => s | _ => [] end) in
      varint (zlen body) ++ body
  end.
Fixpoint message_bytes (fs : message) (s : schema) : list Z :=
  match fs, s with
  | f :: fs, (tag, ft, _) :: s =>
      flat_map (fun v => key_bytes tag (wire_type ft) ++ wire v ft) f ++ message_bytes fs s
  | _, _ => []
  end.

(** tags are distinct and not negative *)
Definition tags_ok (s : schema) : Prop :=
  NoDup (map (fun e => fst (fst e)) s) /\ Forall (fun e => 0 <= fst (fst e)) s.

(** a message fits a schema: at most one value in a non-repeated field, each value
    of the field's type, recursively *)
Inductive has_type (utf8_ok : list Z -> bool) : ftype -> value -> Prop :=
| ht_uvarint n : 0 <= n -> has_type utf8_ok TUVarint (VInt n)
| ht_svarint n : has_type utf8_ok TSVarint (VInt n)
| ht_bool b : has_type utf8_ok TBool (VBool b)
| ht_bytes l : bytes_ok l -> has_type utf8_ok TBytes (VBytes l)
| ht_str l : bytes_ok l -> utf8_ok l = true -> has_type utf8_ok TUnicode (VStr l)
| ht_msg s fs :
    tags_ok s ->
    Forall2 (fun f e =>
       (snd e = false -> (length f <= 1)%nat) /\ Forall (has_type utf8_ok (snd (fst e))) f) fs s ->
    has_type utf8_ok (TMsg s) (VMsg fs).
Definition message_fits utf8_ok (s : schema) (m : message) : Prop := has_type utf8_ok (TMsg s) (VMsg m).

(** A stream of fields as another (newer) program may send it: fields of this
    schema in any order and number, and fields this schema does not know. *)
Inductive item :=
| Known (tag : Z) (ft : ftype) (v : value)
| UnknownVarint (tag n : Z)
| UnknownBytes (tag : Z) (l : list Z).
Definition item_bytes (it : item) : list Z :=
  match it with
  | Known tag ft v => key_bytes tag (wire_type ft) ++ wire v ft
  | UnknownVarint tag n => key_bytes tag 0 ++ varint n
  | UnknownBytes tag l => key_bytes tag 2 ++ varint (zlen l) ++ l
  end.
Definition item_ok utf8_ok (s : schema) (it : item) : Prop :=
  match it with
  | Known tag ft v => (exists rep, In (tag, ft, rep) s) /\ has_type utf8_ok ft v
  | UnknownVarint tag n => 0 <= tag /\ 0 <= n /\ ~ In tag (map (fun e => fst (fst e)) s)
  | UnknownBytes tag l => 0 <= tag /\ ~ In tag (map (fun e => fst (fst e)) s)
  end.
(** what the receiver should hold: repeated fields collect, others keep the last *)
Fixpoint put (s : schema) (m : message) (tag : Z) (v : value) : message :=
  match s, m with
  | (t, _, rep) :: s, f :: m =>
      (if t =? tag then (if rep then f ++ [v] else [v]) else f) :: put s m tag v
  | _, _ => m
  end.
Definition receive (s : schema) (m : message) (it : item) : message :=
  match it with Known tag _ v => put s m tag v | _ => m end.
