(** monero_glue/xmr/core/backend/keccak2.py: the Keccak hash used everywhere.
    Only the width b = 1600 (64-bit lanes, 24 rounds) is modelled; all presets
    (keccak2.py:367-370) have that width.  Lanes are integers. *)
From Verif Require Import Py.

(** keccak2.py:7-32 *)
Definition RoundConstants : list Z :=
  [ 0x0000000000000001; 0x0000000000008082; 0x800000000000808A; 0x8000000080008000;
    0x000000000000808B; 0x0000000080000001; 0x8000000080008081; 0x8000000000008009;
    0x000000000000008A; 0x0000000000000088; 0x0000000080008009; 0x000000008000000A;
    0x000000008000808B; 0x800000000000008B; 0x8000000000008089; 0x8000000000008003;
    0x8000000000008002; 0x8000000000000080; 0x000000000000800A; 0x800000008000000A;
    0x8000000080008081; 0x8000000000008080; 0x0000000080000001; 0x8000000080008008 ].
(** keccak2.py:34-40 *)
Definition RotationConstants : list (list Z) :=
  [ [0; 1; 62; 28; 27]; [36; 44; 6; 55; 20]; [3; 10; 43; 25; 39]; [41; 45; 15; 21; 8]; [18; 2; 61; 56; 14] ].
Definition lanew : Z := 64.

(** keccak2.py:42: Masks[i] = (1 << i) - 1 *)
Definition Mask (i : Z) : Z := Z.shiftl 1 i - 1.
(** keccak2.py:49-56 *)
Definition rol (value left bits : Z) : Z :=
  let top := Z.shiftr value (bits - left) in
  let bot := Z.shiftl (Z.land value (Mask (bits - left))) left in
  Z.lor bot top.

(** keccak2.py:69-80 *)
Definition multirate_padding (used align : Z) : list Z :=
  let padlen := align - used in
  let padlen := if padlen =? 0 then align else padlen in
  if padlen =? 1 then [0x81] else [0x01] ++ repeat 0 (Z.to_nat (padlen - 2)) ++ [0x80].

(** tables A[x][y]: list of five columns of five lanes (keccak2.py:130-144) *)
Definition table := list (list Z).
Definition rangeW : list nat := [0; 1; 2; 3; 4]%nat.
Definition at_ (A : table) (x y : nat) : Z := nth y (nth x A []) 0.
Definition set_at (A : table) (x y : nat) (v : Z) : table := upd A x (upd (nth x A []) y v).
Definition zero_table : table := repeat (repeat 0 5) 5.

(** keccak2.py:95-101 theta: D[x] only uses C, which is computed before the loop *)
Definition theta (A : table) : table :=
  let C := map (fun x => fold_left Z.lxor (tl (nth x A [])) (hd 0 (nth x A []))) rangeW in
  map (fun x =>
    let D := Z.lxor (nth ((x + 4) mod 5) C 0) (rol (nth ((x + 1) mod 5) C 0) 1 lanew) in
    map (fun y => Z.lxor (at_ A x y) D) rangeW) rangeW.

(** keccak2.py:103-109 rho and pi: writes into a zero table *)
Definition rho_pi (A : table) : table :=
  fold_left (fun B x =>
    fold_left (fun B y =>
      set_at B (y mod 5) ((2 * x + 3 * y) mod 5) (rol (at_ A x y) (nth x (nth y RotationConstants []) 0) lanew))
      rangeW B)
    rangeW zero_table.

(** keccak2.py:111-114 chi *)
Definition chi (B : table) : table :=
  map (fun x => map (fun y =>
    Z.lxor (at_ B x y) (Z.land (Z.lnot (at_ B ((x + 1) mod 5) y)) (at_ B ((x + 2) mod 5) y))) rangeW) rangeW.

(** keccak2.py:116-117 iota *)
Definition iota (A : table) (RC : Z) : table := set_at A 0 0 (Z.lxor (at_ A 0 0) RC).

(** keccak2.py:89-117 *)
Definition round (A : table) (RC : Z) : table := iota (chi (rho_pi (theta A))) RC.
(** keccak2.py:119-123: 12 + 2 * 6 rounds *)
Definition keccak_f (A : table) : table := fold_left round RoundConstants A.

(** keccak2.py:163-172 with w = 64 *)
Definition lane2bytes (s : Z) : list Z := map (fun i => Z.land (Z.shiftr s (8 * Z.of_nat i)) 255) (seq 0 8).
(** keccak2.py:174-182 *)
Definition bytes2lane (bb : list Z) : Z := fold_left (fun r b => Z.lor (Z.shiftl r 8) b) (rev bb) 0.

(** the loop order "for y, for x" with i += 8: lane number 5*y + x *)
Definition lane_order : list (nat * nat) := flat_map (fun y => map (fun x => (x, y)) rangeW) rangeW.

(** keccak2.py:214-226: block of [rate] bytes, zero-extended to 200 bytes *)
Definition st_absorb (rate : Z) (A : table) (bb : list Z) : res table :=
  if negb (zlen bb =? rate) then Err AssertionError
  else
    let bb := bb ++ repeat 0 (Z.to_nat (200 - rate)) in
    Ok (fold_left (fun A (p : nat * (nat * nat)) =>
          let '(i, (x, y)) := p in
          set_at A x y (Z.lxor (at_ A x y) (bytes2lane (firstn 8 (skipn (8 * i) bb)))))
        (combine (seq 0 25) lane_order) A).
(** keccak2.py:234-245 *)
Definition get_bytes (A : table) : list Z := flat_map (fun p : nat * nat => lane2bytes (at_ A (fst p) (snd p))) lane_order.
(** keccak2.py:228-232 *)
Definition st_squeeze (rate : Z) (A : table) : list Z := firstn (Z.to_nat rate) (get_bytes A).

(** keccak2.py:259-264 *)
Record sponge := { sp_rate : Z; sp_state : table; sp_buf : list Z }.
(** keccak2.py:269-272 *)
Definition absorb_block (s : sponge) (bb : list Z) : res sponge :=
  let* A := st_absorb (sp_rate s) (sp_state s) bb in
  Ok {| sp_rate := sp_rate s; sp_state := keccak_f A; sp_buf := sp_buf s |}.
(** keccak2.py:277-279 *)
Fixpoint absorb_loop (fuel : nat) (s : sponge) : res sponge :=
  match fuel with
  | O => Err OutOfFuel
  | S fuel =>
      if sp_rate s <=? zlen (sp_buf s) then
        let* s' := absorb_block s (py_upto (sp_buf s) (sp_rate s)) in
        absorb_loop fuel {| sp_rate := sp_rate s'; sp_state := sp_state s'; sp_buf := py_from (sp_buf s) (sp_rate s) |}
      else Ok s
  end.
(** keccak2.py:274-279 *)
Definition sp_absorb (s : sponge) (d : list Z) : res sponge :=
  let s := {| sp_rate := sp_rate s; sp_state := sp_state s; sp_buf := sp_buf s ++ d |} in
  absorb_loop (S (length (sp_buf s))) s.
(** keccak2.py:281-284 *)
Definition absorb_final (s : sponge) : res sponge :=
  let padded := sp_buf s ++ multirate_padding (zlen (sp_buf s)) (sp_rate s) in
  let* s := absorb_block s padded in
  Ok {| sp_rate := sp_rate s; sp_state := sp_state s; sp_buf := [] |}.
(** keccak2.py:286-289 *)
Definition squeeze_once (s : sponge) : sponge * list Z :=
  ({| sp_rate := sp_rate s; sp_state := keccak_f (sp_state s); sp_buf := sp_buf s |}, st_squeeze (sp_rate s) (sp_state s)).
(** keccak2.py:291-295 *)
Fixpoint squeeze_loop (fuel : nat) (s : sponge) (out : list Z) (n : Z) : res (sponge * list Z) :=
  match fuel with
  | O => Err OutOfFuel
  | S fuel =>
      if zlen out <? n then
        let '(s, o) := squeeze_once s in squeeze_loop fuel s (out ++ o) n
      else Ok (s, py_upto out n)
  end.
Definition sp_squeeze (s : sponge) (n : Z) : res (sponge * list Z) :=
  let '(s, o) := squeeze_once s in squeeze_loop (S (Z.to_nat n)) s o n.

(** keccak2.py:298-315 *)
Record khash := { kh_rate : Z; kh_out : Z; kh_sponge : sponge }.
Definition kh_new (rate out : Z) : khash :=
  {| kh_rate := rate; kh_out := out; kh_sponge := {| sp_rate := rate; sp_state := zero_table; sp_buf := [] |} |}.
(** keccak2.py:328-331 *)
Definition kh_reset (h : khash) : khash := kh_new (kh_rate h) (kh_out h).
(** keccak2.py:333-334 *)
Definition kh_update (h : khash) (d : list Z) : res khash :=
  let* s := sp_absorb (kh_sponge h) d in Ok {| kh_rate := kh_rate h; kh_out := kh_out h; kh_sponge := s |}.
(** keccak2.py:336-345: works on a copy of the sponge; the hasher is returned as
    it is left behind *)
Definition kh_digest (h : khash) : res (khash * list Z) :=
  let* fin := absorb_final (kh_sponge h) in
  let* (fin, d) := sp_squeeze fin (kh_out h) in
  Ok (h, d).
(** keccak2.py:367-370, in bytes *)
Definition Keccak224 : khash := kh_new 144 28.
Definition Keccak256 : khash := kh_new 136 32.
Definition Keccak384 : khash := kh_new 104 48.
Definition Keccak512 : khash := kh_new 72 64.
(** ec_py.py:815-823 cn_fast_hash, ec_py.py:194-202 keccak_hash *)
Definition cn_fast_hash (d : list Z) : res (list Z) :=
  let* h := kh_update Keccak256 d in let* (_, r) := kh_digest h in Ok r.

(** a history of calls on one hasher object: update (keccak2.py:333), digest
    (336), reset (328); the result lists the digests returned *)
Inductive kop := KUpdate (d : list Z) | KDigest | KReset.
Fixpoint run_kops (h : khash) (ops : list kop) : res (list (list Z)) :=
  match ops with
  | [] => Ok []
  | KUpdate d :: ops => let* h := kh_update h d in run_kops h ops
  | KDigest :: ops => let* (h, d) := kh_digest h in let* ds := run_kops h ops in Ok (d :: ds)
  | KReset :: ops => run_kops (kh_reset h) ops
  end.
