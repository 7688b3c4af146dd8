(** Model of monero_glue/misc/b58_mnr.py (Monero's block-wise base58). *)
From Verif Require Import Py.

(** b58_mnr.py:20-22 __alphabet, as ASCII codes *)
Definition alphabet : list Z :=
  [49;50;51;52;53;54;55;56;57;
   65;66;67;68;69;70;71;72;74;75;76;77;78;80;81;82;83;84;85;86;87;88;89;90;
   97;98;99;100;101;102;103;104;105;106;107;109;110;111;112;113;114;115;116;117;118;119;120;121;122].

(** b58_mnr.py:23-27 module constants *)
Definition b58base : Z := 58.
Definition UINT64MAX : Z := 2 ^ 64.
Definition encodedBlockSizes : list Z := [0; 2; 3; 5; 6; 7; 9; 10; 11].
Definition fullBlockSize : Z := 8.
Definition fullEncodedBlockSize : Z := 11.

(** The block functions return either the buffer or, on error, a str
    (b58_mnr.py:97,160,164,171,175,181).  A str buffer supports no item
    assignment (TypeError), and bytes(str) is a TypeError. *)
Inductive pybuf := PBuf (l : list Z) | PStr.

(** buf[i] = v on such a buffer *)
Definition buf_set (b : pybuf) (i v : Z) : res pybuf :=
  match b with
  | PBuf l => let* l' := py_set l i v in Ok (PBuf l')
  | PStr => Err TypeError
  end.

(** bytes(buf): b58_mnr.py:153,236 *)
Definition buf_bytes (b : pybuf) : res (list Z) :=
  match b with
  | PBuf l => if bytes_okb l then Ok l else Err ValueError
  | PStr => Err TypeError
  end.

(** value of one hex digit; int(x, 16) on two characters, b58_mnr.py:33.
    Simplification: Python's int() also accepts blanks, signs and "_"; those
    spellings are rejected here (hexlify never produces them). *)
Definition hex_digit (c : Z) : res Z :=
  if (48 <=? c) && (c <=? 57) then Ok (c - 48)
  else if (97 <=? c) && (c <=? 102) then Ok (c - 87)
  else if (65 <=? c) && (c <=? 70) then Ok (c - 55)
  else Err ValueError.

(** b58_mnr.py:30-33 _hexToBin; the odd-length branch returns a str, over
    which the caller then computes and fails: modelled as TypeError. *)
Fixpoint hexToBin (hex : list Z) : res (list Z) :=
  match hex with
  | [] => Ok []
  | [_] => Err TypeError
  | a :: b :: t =>
      let* x := hex_digit a in
      let* y := hex_digit b in
      let* r := hexToBin t in
      Ok (16 * x + y :: r)
  end.

(** binascii.hexlify (used at xmr/crypto.py:113) *)
Definition hex_char (d : Z) : Z := if d <? 10 then 48 + d else 87 + d.
Definition hexlify (l : list Z) : list Z :=
  flat_map (fun b => [hex_char (b / 16); hex_char (b mod 16)]) l.

(** b58_mnr.py:50-77 _uint8be_to_64: every reachable branch of the switch is
    [res << 8 | data[i]].  None: the "Invalid input length" string. *)
Definition uint8be_to_64 (data : list Z) : option Z :=
  if (zlen data <? 1) || (8 <? zlen data) then None
  else Some (fold_left (fun r d => Z.lor (Z.shiftl r 8) d) data 0).

(** b58_mnr.py:80-90 _uint64_to_8be: fills res[size-1], ..., res[0] *)
Fixpoint uint64_fill (res_ : list Z) (i : nat) (num : Z) : list Z :=
  match i with
  | O => res_
  | S i => uint64_fill (upd res_ i (num mod 256)) i (num / 256)
  end.
Definition uint64_to_8be (num : Z) (size : nat) : list Z :=
  uint64_fill (repeat 0 size) size num.

(** b58_mnr.py:102-106, the while loop of encode_block *)
Fixpoint encode_loop (fuel : nat) (num : Z) (buf : pybuf) (index i : Z) : res pybuf :=
  if num >? 0 then
    match fuel with
    | O => Err OutOfFuel
    | S fuel =>
        let* c := py_get alphabet (num mod b58base) in
        let* buf' := buf_set buf (index + i) c in
        encode_loop fuel (num / b58base) buf' index (i - 1)
    end
  else Ok buf.

(** b58_mnr.py:93-108 encode_block *)
Definition encode_block (data : list Z) (buf : pybuf) (index : Z) : res pybuf :=
  if (zlen data <? 1) || (fullEncodedBlockSize <? zlen data) then Ok PStr
  else match uint8be_to_64 data with
       | None => Err TypeError (* comparison of a str with 0 *)
       | Some num =>
           let* e := py_get encodedBlockSizes (zlen data) in
           encode_loop (S (Z.to_nat (Z.log2 num))) num buf index (e - 1)
       end.

(** b58_mnr.py:120-153, body of b58encode after the input selection *)
Definition b58encode_data (data : list Z) : res (list Z) :=
  let l_data := zlen data in
  if l_data =? 0 then Ok []
  else
    let full_block_count := l_data / fullBlockSize in
    let last_block_size := l_data mod fullBlockSize in
    let* e := py_get encodedBlockSizes last_block_size in
    let res_size := full_block_count * fullEncodedBlockSize + e in
    let* a0 := py_get alphabet 0 in
    let buf := PBuf (repeat a0 (Z.to_nat res_size)) in
    let* buf := foldM (fun buf i =>
        encode_block (py_slice data (i * fullBlockSize) (i * fullBlockSize + fullBlockSize))
                     buf (i * fullEncodedBlockSize))
      (zrange full_block_count) buf in
    let* buf :=
      if last_block_size >? 0 then
        encode_block (py_slice data (full_block_count * fullBlockSize)
                        (full_block_count * fullBlockSize + last_block_size))
                     buf (full_block_count * fullEncodedBlockSize)
      else Ok buf in
    buf_bytes buf.

(** b58_mnr.py:111-153 b58encode(data_bin=...): an empty data_bin is falsy, so
    the hex branch runs on None *)
Definition b58encode_bin (data : list Z) : res (list Z) :=
  match data with [] => Err TypeError | _ => b58encode_data data end.
(** b58_mnr.py:111-153 b58encode(data_hex) *)
Definition b58encode_hex (hex : list Z) : res (list Z) :=
  let* data := hexToBin hex in b58encode_data data.

(** b58_mnr.py:166-178, the loop of decode_block, from the last symbol to the
    first.  [Ok None] is the "Overflow" string. *)
Fixpoint decode_loop (rdata : list Z) (res_num order : Z) : res (option Z) :=
  match rdata with
  | [] => Ok (Some res_num)
  | c :: t =>
      let* digit := py_index alphabet c in
      let product := order * digit + res_num in
      if product >? UINT64MAX then Ok None
      else decode_loop t product (order * b58base)
  end.

(** b58_mnr.py:156-187 decode_block *)
Definition decode_block (data : list Z) (buf : pybuf) (index : Z) : res pybuf :=
  if (zlen data <? 1) || (fullEncodedBlockSize <? zlen data) then Err TypeError (* str + int *)
  else
    let* res_size := py_index encodedBlockSizes (zlen data) in
    if res_size <=? 0 then Ok PStr
    else
      let* r := decode_loop (rev data) 0 1 in
      match r with
      | None => Ok PStr
      | Some res_num =>
          if (res_size <? fullBlockSize) && (2 ^ (8 * res_size) <=? res_num) then Ok PStr
          else
            let tmp := uint64_to_8be res_num (Z.to_nat res_size) in
            foldM (fun buf i => let* v := py_get tmp i in buf_set buf (i + index) v)
                  (zrange (zlen tmp)) buf
      end.

(** b58_mnr.py:199-236, body of b58decode after the input selection *)
Definition b58decode_data (enc : list Z) : res (list Z) :=
  let l_enc := zlen enc in
  if l_enc =? 0 then Ok []
  else
    let full_block_count := l_enc / fullEncodedBlockSize in
    let last_block_size := l_enc mod fullEncodedBlockSize in
    let* last_dec := py_index encodedBlockSizes last_block_size in
    let data_size := full_block_count * fullBlockSize + last_dec in
    let buf := PBuf (repeat 0 (Z.to_nat data_size)) in
    let* buf := foldM (fun buf i =>
        decode_block (py_slice enc (i * fullEncodedBlockSize)
                        (i * fullEncodedBlockSize + fullEncodedBlockSize))
                     buf (i * fullBlockSize))
      (zrange full_block_count) buf in
    let* buf :=
      if last_block_size >? 0 then
        decode_block (py_slice enc (full_block_count * fullEncodedBlockSize)
                        (full_block_count * fullEncodedBlockSize + last_block_size))
                     buf (full_block_count * fullBlockSize)
      else Ok buf in
    buf_bytes buf.

(** b58_mnr.py:190-236 b58decode(data_bin=...) *)
Definition b58decode_bin (enc : list Z) : res (list Z) :=
  match enc with [] => Err TypeError | _ => b58decode_data enc end.
(** b58_mnr.py:190-236 b58decode(data_hex): the string is taken character by character *)
Definition b58decode_str (enc : list Z) : res (list Z) := b58decode_data enc.
