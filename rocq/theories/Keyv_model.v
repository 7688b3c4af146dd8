(** The key vectors of monero_glue/xmr/bulletproof.py: [KeyV] (flat or split in chunks),
    its views [KeyVSliced], the lazily evaluated [KeyVPowers] and [KeyR0].

    Simplifications.  Buffers are values: an element returned is the bytes it holds at that
    time (the code may return a reference to a buffer it overwrites at the next access).
    The garbage collector calls and the size accounting ([getsize]) are left out.  The vectors are
    not constant ([const=False]) and own their memory ([buffer=None]). *)
From Verif Require Import Py Digits Ec_model.

(** compat/utils.py:8-11: byte by byte; an index error leaves the bytes written so far *)
Fixpoint memcpy (n : nat) (dst : list Z) (doff : Z) (src : list Z) (soff : Z) : list Z * res unit :=
  match n with
  | O => (dst, Ok tt)
  | S n =>
      match py_get src soff with
      | Err e => (dst, Err e)
      | Ok b => match py_set dst doff b with
                | Err e => (dst, Err e)
                | Ok dst => memcpy n dst (doff + 1) src (soff + 1)
                end
      end
  end.

(** bulletproof.py:344-349 [idxize] *)
Definition idxize (size idx : Z) : res Z :=
  let idx := if idx <? 0 then size + idx else idx in
  let* _ := guard (negb (idx >=? size)) IndexError in
  Ok idx.

(** bulletproof.py:403-404 *)
Definition CHSIZE : Z := 32.

(** bulletproof.py:407-440: the memory of a vector; the flag [chunked] says which of the two it is *)
Inductive store := Flat (d : list Z) | Chunked (d : list (list Z)).
Record keyv := { kv_size : Z; kv_d : store }.
Definition kv_chunked (v : keyv) : bool := match kv_d v with Chunked _ => true | Flat _ => false end.

(** [bytearray(n)] *)
Definition zeros (n : Z) : list Z := repeat 0 (Z.to_nat n).
(** bulletproof.py:442-452 [_set_d] *)
Definition set_d (elems : Z) : store :=
  if (elems >? CHSIZE) && (elems mod CHSIZE =? 0)
  then Chunked (repeat (zeros (32 * CHSIZE)) (Z.to_nat (elems / CHSIZE)))
  else Flat (zeros (32 * elems)).
(** bulletproof.py:424-440 [__init__] with a number of elements *)
Definition keyv_new (elems : Z) : keyv := {| kv_size := elems; kv_d := set_d elems |}.

(** bulletproof.py:478-491 [to], into the vector's own buffer ([cur], 32 bytes, its old content does not matter:
    all 32 bytes are written or an error is raised) *)
Definition keyv_to (v : keyv) (idx : Z) : res (list Z) :=
  let* idx := idxize (kv_size v) idx in
  match kv_d v with
  | Chunked d =>
      let* c := py_get d (Z.shiftr idx 5) in
      let '(b, r) := memcpy 32 (zeros 32) 0 c (Z.shiftl (Z.land idx (CHSIZE - 1)) 5) in let* _ := r in Ok b
  | Flat d => let '(b, r) := memcpy 32 (zeros 32) 0 d (Z.shiftl idx 5) in let* _ := r in Ok b
  end.
(** bulletproof.py:458-467 [__getitem__]: a chunked vector uses [to], a flat one a slice of its memory *)
Definition keyv_get (v : keyv) (idx : Z) : res (list Z) :=
  match kv_d v with
  | Chunked _ => keyv_to v idx
  | Flat d => let* idx := idxize (kv_size v) idx in Ok (py_slice d (idx * 32) ((idx + 1) * 32))
  end.
Definition with_d (v : keyv) (d : store) : keyv := {| kv_size := kv_size v; kv_d := d |}.
(** bulletproof.py:493-498 [read]: the bytes [buff[offset:offset+32]] become the element *)
Definition keyv_read (v : keyv) (idx : Z) (buff : list Z) (offset : Z) : keyv * res unit :=
  match idxize (kv_size v) idx with
  | Err e => (v, Err e)
  | Ok idx =>
      match kv_d v with
      | Chunked d =>
          match py_get d (Z.shiftr idx 5) with
          | Err e => (v, Err e)
          | Ok c =>
              let '(c, r) := memcpy 32 c (Z.shiftl (Z.land idx (CHSIZE - 1)) 5) buff offset in
              match py_set d (Z.shiftr idx 5) c with Ok d => (with_d v (Chunked d), r) | Err e => (v, Err e) end
          end
      | Flat d => let '(d, r) := memcpy 32 d (Z.shiftl idx 5) buff offset in (with_d v (Flat d), r)
      end
  end.
(** bulletproof.py:469-476 [__setitem__]: the flat case writes into the slice returned by [__getitem__], byte by byte *)
Definition keyv_set (v : keyv) (key : Z) (value : list Z) : keyv * res unit :=
  match kv_d v with
  | Chunked _ => keyv_read v key value 0
  | Flat d =>
      match idxize (kv_size v) key with
      | Err e => (v, Err e)
      | Ok i =>
          let '(ck, r) := memcpy 32 (py_slice d (i * 32) ((i + 1) * 32)) 0 value 0 in
          (with_d v (Flat (py_upto d (i * 32) ++ ck ++ py_from d (i * 32 + zlen ck))), r)
      end
  end.

(** [del] of the last [n] elements of a list by [pop] *)
Definition pops {A} (n : Z) (d : list A) : list A := firstn (length d - Z.to_nat n) d.
(** bulletproof.py:500-545 [resize]; [realloc] only decides whether the kept bytes are copied *)
Definition keyv_resize (v : keyv) (nsize : Z) (chop realloc : bool) : keyv * res unit :=
  let size := kv_size v in
  let done d := ({| kv_size := nsize; kv_d := d |}, Ok tt) in
  if size =? nsize then (v, Ok tt) else
  match kv_d v with
  | Chunked d =>
      if nsize <=? CHSIZE then
        if (size >? nsize) && realloc || (size >? nsize) && negb chop
        then match d with c :: _ => done (Flat (py_upto c (Z.shiftl nsize 5))) | [] => (v, Err IndexError) end
        else done (Flat (zeros (Z.shiftl nsize 5)))
      else if size <? nsize then
        if negb (nsize mod CHSIZE =? 0) || realloc || chop then (v, Err ValueError)
        else done (Chunked (d ++ repeat (zeros (32 * CHSIZE)) (Z.to_nat ((nsize - size) / CHSIZE))))
      else
        if negb (nsize mod CHSIZE =? 0) then (v, Err ValueError)
        else done (Chunked (pops ((size - nsize) / CHSIZE) d))
  | Flat d =>
      if (size >? nsize) && realloc || (size >? nsize) && negb chop
      then done (Flat (py_upto d (Z.shiftl nsize 5)))
      else done (Flat (zeros (Z.shiftl nsize 5)))
  end.
(** bulletproof.py:547-556 [realloc] *)
Definition keyv_realloc (v : keyv) (nsize : Z) : keyv := keyv_new nsize.

Fixpoint copy_elems (n : nat) (i : Z) (dst src : keyv) (offset : Z) : keyv * res unit :=
  match n with
  | O => (dst, Ok tt)
  | S n =>
      match keyv_to src (i + offset) with
      | Err e => (dst, Err e)
      | Ok b => match keyv_read dst i b 0 with
                | (dst, Ok _) => copy_elems n (i + 1) dst src offset
                | (dst, Err e) => (dst, Err e)
                end
      end
  end.
(** bulletproof.py:571-579: the loop of the case flat from chunks ([i] counts up to [nsize >> 5]) *)
Fixpoint copy_chunks (n : nat) (i nsize offset : Z) (d : list Z) (src : list (list Z)) : list Z * res unit :=
  match n with
  | O => (d, Ok tt)
  | S n =>
      match py_get src (i + Z.shiftr offset 5) with
      | Err e => (d, Err e)
      | Ok c =>
          match memcpy (Z.to_nat (if i <=? Z.shiftr nsize 5 then Z.shiftl nsize 5 else Z.shiftl (Z.land nsize CHSIZE) 5))
                  d (Z.shiftl i 11) c (if i =? 0 then Z.shiftl (Z.land offset (CHSIZE - 1)) 5 else 0) with
          | (d, Ok _) => copy_chunks n (i + 1) nsize offset d src
          | (d, Err e) => (d, Err e)
          end
      end
  end.
(** bulletproof.py:558-579 [realloc_init_from] *)
Definition keyv_init_from (v : keyv) (nsize : Z) (src : keyv) (offset : Z) : keyv * res unit :=
  let v := keyv_realloc v nsize in
  match kv_d v, kv_d src with
  | Flat d, Flat s => let '(d, r) := memcpy (Z.to_nat (Z.shiftl nsize 5)) d 0 s (Z.shiftl offset 5) in (with_d v (Flat d), r)
  | Chunked _, _ => copy_elems (Z.to_nat nsize) 0 v src offset
  | Flat d, Chunked s => let '(d, r) := copy_chunks (Z.to_nat (Z.shiftr nsize 5)) 0 nsize offset d s in (with_d v (Flat d), r)
  end.

(** bulletproof.py:581-589 [sdump], [sload]: the flag is bit 60 of the size *)
Definition keyv_sdump (v : keyv) : res (store * Z) :=
  let* _ := guard (kv_size v <=? 2 ^ 60) ValueError in
  Ok (kv_d v, Z.lor (kv_size v) (Z.shiftl (if kv_chunked v then 1 else 0) 60)).
(** the state loaded: size, flag and memory *)
Definition keyv_sload (st : store * Z) : Z * bool * store :=
  (Z.land (snd st) (Z.lnot (Z.shiftl 1 60)), Z.land (snd st) (Z.shiftl 1 60) >? 0, fst st).

(** bulletproof.py:758-783 KeyVSliced: a window [start, stop) on a vector *)
Definition sliced_to (v : keyv) (start stop idx : Z) : res (list Z) :=
  let* i := idxize (stop - start) idx in keyv_to v (start + i).
Definition sliced_get (v : keyv) (start stop idx : Z) : res (list Z) :=
  let* i := idxize (stop - start) idx in keyv_get v (start + i).
Definition sliced_read (v : keyv) (start stop idx : Z) (buff : list Z) : keyv * res unit :=
  match idxize (stop - start) idx with Err e => (v, Err e) | Ok i => keyv_read v (start + i) buff 0 end.

(** One use of a vector; the result of reading operations is the element *)
Inductive kop :=
| KGet (i : Z) | KTo (i : Z) | KSet (i : Z) (b : list Z) | KRead (i : Z) (b : list Z)
| KResize (n : Z) (realloc : bool) | KRealloc (n : Z)
| KViewGet (start stop i : Z) | KViewTo (start stop i : Z) | KViewRead (start stop i : Z) (b : list Z).
Definition unit_op (r : keyv * res unit) : keyv * res (list Z) := (fst r, let* _ := snd r in Ok []).
Definition keyv_step (v : keyv) (o : kop) : keyv * res (list Z) :=
  match o with
  | KGet i => (v, keyv_get v i)
  | KTo i => (v, keyv_to v i)
  | KSet i b => unit_op (keyv_set v i b)
  | KRead i b => unit_op (keyv_read v i b 0)
  | KResize n realloc => unit_op (keyv_resize v n false realloc)
  | KRealloc n => (keyv_realloc v n, Ok [])
  | KViewGet s e i => (v, sliced_get v s e i)
  | KViewTo s e i => (v, sliced_to v s e i)
  | KViewRead s e i b => unit_op (sliced_read v s e i b)
  end.
(** a history: exceptions are caught by the caller, the vector stays as it was left *)
Fixpoint keyv_run (v : keyv) (ops : list kop) : list (res (list Z)) :=
  match ops with [] => [] | o :: ops => let '(v, r) := keyv_step v o in r :: keyv_run v ops end.
(** the vector after a history *)
Definition keyv_after (v : keyv) (ops : list kop) : keyv := fold_left (fun v o => fst (keyv_step v o)) ops v.

(** bulletproof.py:791-805 KeyVPowers *)
Record kpow := { kp_size : Z; kp_x : Z; kp_cur : Z; kp_last : Z }.
Definition kpow_new (size x : Z) : kpow := {| kp_size := size; kp_x := x; kp_cur := 0; kp_last := 0 |}.
Definition kp_with (p : kpow) (cur last : Z) : kpow := {| kp_size := kp_size p; kp_x := kp_x p; kp_cur := cur; kp_last := last |}.
(** bulletproof.py:807-833 [__getitem__]: the last index is recorded before the access is judged *)
Definition kpow_get (p : kpow) (item : Z) : kpow * res Z :=
  let prev := kp_last p in
  match idxize (kp_size p) item with
  | Err e => (p, Err e)
  | Ok item =>
      if item =? 0 then (kp_with p 1 item, Ok 1)
      else if item =? 1 then (kp_with p (kp_x p) item, Ok (kp_x p))
      else if item =? prev then (kp_with p (kp_cur p) item, Ok (kp_cur p))
      else if item =? prev + 1 then let c := sc_mul (kp_cur p) (kp_x p) in (kp_with p c item, Ok c)
      else (kp_with p (kp_cur p) item, Err IndexError)
  end.
(** bulletproof.py:838-845 [rewind] (a negative argument does nothing) *)
Fixpoint kpow_rewind (n : nat) (p : kpow) : kpow :=
  match n with O => p | S n => kpow_rewind n (kp_with p (sc_mul (kp_cur p) (kp_x p)) (kp_last p + 1)) end.
(** bulletproof.py:847-852 [set_state] *)
Definition kpow_set_state (p : kpow) (idx val : Z) : kpow := kp_with p val idx.
Inductive pop := PGet (i : Z) | PRewind (n : nat) | PSetState (idx val : Z).
Definition kpow_step (p : kpow) (o : pop) : kpow * res (option Z) :=
  match o with
  | PGet i => let '(p, r) := kpow_get p i in (p, let* v := r in Ok (Some v))
  | PRewind n => (kpow_rewind n p, Ok None)
  | PSetState i v => (kpow_set_state p i v, Ok None)
  end.
Fixpoint kpow_run (p : kpow) (ops : list pop) : list (res (option Z)) :=
  match ops with [] => [] | o :: ops => let '(p, r) := kpow_step p o in r :: kpow_run p ops end.

(** bulletproof.py:931-975 KeyR0; [kr_aR] is the vector read by [aR.to] (KeyVEval: a function of the index) *)
Record kr0 := { kr_size : Z; kr_N : Z; kr_aR : Z -> Z; kr_y : Z; kr_z : Z;
  kr_yp : Z; kr_zt : Z; kr_p2 : Z; kr_res : Z; kr_last : Z }.
Definition kr_with (r : kr0) (yp zt p2 res last : Z) : kr0 :=
  {| kr_size := kr_size r; kr_N := kr_N r; kr_aR := kr_aR r; kr_y := kr_y r; kr_z := kr_z r;
     kr_yp := yp; kr_zt := zt; kr_p2 := p2; kr_res := res; kr_last := last |}.
Definition kr0_new (size N : Z) (aR : Z -> Z) (y z : Z) : kr0 :=
  {| kr_size := size; kr_N := N; kr_aR := aR; kr_y := y; kr_z := z; kr_yp := 1; kr_zt := sc_mul z z; kr_p2 := 1; kr_res := 0; kr_last := 0 |}.
(** bulletproof.py:1003-1008: the value at [item] from the running values *)
Definition kr_eval (r : kr0) (item yp zt p2 : Z) : Z := sc_muladd zt p2 (sc_mul (sc_add (kr_aR r item) (kr_z r)) yp).
(** bulletproof.py:977-1014 [__getitem__] *)
Definition kr0_get (r : kr0) (item : Z) : kr0 * res Z :=
  let prev := kr_last r in
  match idxize (kr_size r) item with
  | Err e => (r, Err e)
  | Ok item =>
      if item =? 0 then
        let zt := sc_mul (kr_z r) (kr_z r) in
        let v := kr_eval r item 1 zt 1 in (kr_with r 1 zt 1 v item, Ok v)
      else if item =? prev + 1 then
        let yp := sc_mul (kr_yp r) (kr_y r) in
        let '(zt, p2) := (if item mod kr_N r =? 0 then (sc_mul (kr_zt r) (kr_z r), 1) else (kr_zt r, sc_mul (kr_p2 r) 2)) in
        let v := kr_eval r item yp zt p2 in (kr_with r yp zt p2 v item, Ok v)
      else if item =? prev then (kr_with r (kr_yp r) (kr_zt r) (kr_p2 r) (kr_res r) item, Ok (kr_res r))
      else (kr_with r (kr_yp r) (kr_zt r) (kr_p2 r) (kr_res r) item, Err IndexError)
  end.
(** bulletproof.py:1022-1026 [sdump] of one object, [sload] into another made with the same arguments: [res] is not in it *)
Definition kr0_reload (r : kr0) : kr0 :=
  kr_with (kr0_new (kr_size r) (kr_N r) (kr_aR r) (kr_y r) (kr_z r)) (kr_yp r) (kr_zt r) (kr_p2 r) 0 (kr_last r).
Fixpoint kr0_run (r : kr0) (is_ : list Z) : list (res Z) :=
  match is_ with [] => [] | i :: is_ => let '(r, v) := kr0_get r i in v :: kr0_run r is_ end.

(** bulletproof.py:1140-1160 [_vector_power_sum], all cases: the missing [return] for [n == 1] *)
Fixpoint psum_loop (n : nat) (s2 s3 x : Z) : Z :=
  match n with O => s3 | S n => let s2 := sc_mul s2 x in psum_loop n s2 (sc_add s3 s2) x end.
Definition power_sum_code (x : Z) (n : nat) : Z :=
  match n with O => 0 | _ => psum_loop (n - 2) x (sc_add 1 x) x end.
