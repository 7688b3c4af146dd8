(** The inner product argument of monero_glue/xmr/bulletproof.py as the code runs it: every function works in the global
    working registers of lines 72-92, the vectors are 32-byte buffers folded in place (Keyv_model), and in the first
    round the generators are evaluated on demand, which itself writes registers.

    Simplifications.  Points and scalars in registers are values; the registers [_tmp_bf_2] and
    [_tmp_bf_exp] are only written or not used here and are left out.  A zero challenge makes the code return a
    marker its caller ignores; here it raises (as in Bp_model). *)
From Verif Require Import Py Digits Ints_model Protobuf_spec Ec_model Mlsag_model Bp_model Keyv_model.

Section Regs.
Context (E : ecops) (gs : gens E).
Local Notation pt := (pt E).

(** bulletproof.py:79-92 *)
Record regs := { p1 : pt; p2 : pt; p3 : pt; p4 : pt; c1 : Z; c2 : Z; c3 : Z; c4 : Z; b0 : list Z; b1 : list Z }.
Definition set_p1 (r : regs) (x : pt) : regs := {| p1 := x; p2 := p2 r; p3 := p3 r; p4 := p4 r; c1 := c1 r; c2 := c2 r; c3 := c3 r; c4 := c4 r; b0 := b0 r; b1 := b1 r |}.
Definition set_p2 (r : regs) (x : pt) : regs := {| p1 := p1 r; p2 := x; p3 := p3 r; p4 := p4 r; c1 := c1 r; c2 := c2 r; c3 := c3 r; c4 := c4 r; b0 := b0 r; b1 := b1 r |}.
Definition set_p3 (r : regs) (x : pt) : regs := {| p1 := p1 r; p2 := p2 r; p3 := x; p4 := p4 r; c1 := c1 r; c2 := c2 r; c3 := c3 r; c4 := c4 r; b0 := b0 r; b1 := b1 r |}.
Definition set_p4 (r : regs) (x : pt) : regs := {| p1 := p1 r; p2 := p2 r; p3 := p3 r; p4 := x; c1 := c1 r; c2 := c2 r; c3 := c3 r; c4 := c4 r; b0 := b0 r; b1 := b1 r |}.
Definition set_c1 (r : regs) (x : Z) : regs := {| p1 := p1 r; p2 := p2 r; p3 := p3 r; p4 := p4 r; c1 := x; c2 := c2 r; c3 := c3 r; c4 := c4 r; b0 := b0 r; b1 := b1 r |}.
Definition set_c2 (r : regs) (x : Z) : regs := {| p1 := p1 r; p2 := p2 r; p3 := p3 r; p4 := p4 r; c1 := c1 r; c2 := x; c3 := c3 r; c4 := c4 r; b0 := b0 r; b1 := b1 r |}.
Definition set_c3 (r : regs) (x : Z) : regs := {| p1 := p1 r; p2 := p2 r; p3 := p3 r; p4 := p4 r; c1 := c1 r; c2 := c2 r; c3 := x; c4 := c4 r; b0 := b0 r; b1 := b1 r |}.
Definition set_c4 (r : regs) (x : Z) : regs := {| p1 := p1 r; p2 := p2 r; p3 := p3 r; p4 := p4 r; c1 := c1 r; c2 := c2 r; c3 := c3 r; c4 := x; b0 := b0 r; b1 := b1 r |}.
Definition set_b0 (r : regs) (x : list Z) : regs := {| p1 := p1 r; p2 := p2 r; p3 := p3 r; p4 := p4 r; c1 := c1 r; c2 := c2 r; c3 := c3 r; c4 := c4 r; b0 := x; b1 := b1 r |}.
Definition set_b1 (r : regs) (x : list Z) : regs := {| p1 := p1 r; p2 := p2 r; p3 := p3 r; p4 := p4 r; c1 := c1 r; c2 := c2 r; c3 := c3 r; c4 := c4 r; b0 := b0 r; b1 := x |}.

(** The vectors of points of a round.  [Precomp]: bulletproof.py:724-751, 1938-1946, the generators.
    [Scaled]: bulletproof.py:598-630, 3218-3227, the generators H times powers of [1/y]; [own] says whether the
    evaluation has a point register of its own (HprimeR) or uses [_tmp_pt_1] (HprimeL). *)
Inductive vec := Stored (v : keyv) | Precomp (size : Z) (isG : bool) | Scaled (size : Z) (pw : kpow) (own : bool).
(** bulletproof.py:30-47: the first 256 generators are constants *)
Definition BP_PRE : Z := 256.
Definition gen (isG : bool) (i : Z) : pt := if isG then gG E gs (Z.to_nat i) else gH E gs (Z.to_nat i).
(** bulletproof.py:313-325, 739-751: a computed generator passes through [_tmp_bf_1] and [_tmp_pt_4] *)
Definition pre_to (size : Z) (isG : bool) (i : Z) (r : regs) : res (regs * list Z) :=
  let* i := idxize size i in
  let P := gen isG i in
  if i <? BP_PRE then Ok (r, encp E P)
  else Ok (set_p4 (set_b1 r (hash E (encp E (Hb E) ++ BP_SALT ++ varint (i * 2 + if isG then 1 else 0)))) P, encp E P).
(** [to] of a vector: the vector afterwards, the registers, the element *)
Definition vec_to (v : vec) (i : Z) (r : regs) : res (vec * regs * list Z) :=
  match v with
  | Stored k => let* b := keyv_to k i in Ok (v, r, b)
  | Precomp size isG => let* (r, b) := pre_to size isG i r in Ok (v, r, b)
  | Scaled size pw own =>
      let* i := idxize size i in
      let* (r, hb) := pre_to size false i r in
      let '(pw, e) := kpow_get pw i in
      let* e := e in
      let* P := decp E hb in
      let Q := scalarmult E P e in
      Ok (Scaled size pw own, if own then r else set_p1 r Q, encp E Q)
  end.
(** bulletproof.py:780-781: [to] of a window *)
Definition view_to (v : vec) (start stop i : Z) (r : regs) : res (vec * regs * list Z) :=
  let* i := idxize (stop - start) i in vec_to v (start + i) r.

(** bulletproof.py:1163-1180 [_inner_product] of two windows *)
Fixpoint ip_loop (n : nat) (i : Z) (a : keyv) (sa ea : Z) (b : keyv) (sb eb : Z) (r : regs) : res regs :=
  match n with
  | O => Ok r
  | S n =>
      let* x := sliced_to a sa ea i in
      let r := set_c2 r (le_val 256 x) in
      let* y := sliced_to b sb eb i in
      let r := set_c3 r (le_val 256 y) in
      ip_loop n (i + 1) a sa ea b sb eb (set_c1 r (sc_muladd (c2 r) (c3 r) (c1 r)))
  end.
Definition ip_code (a : keyv) (sa ea : Z) (b : keyv) (sb eb : Z) (r : regs) : res (regs * list Z) :=
  let* _ := guard (ea - sa =? eb - sb) ValueError in
  let* r := ip_loop (Z.to_nat (ea - sa)) 0 a sa ea b sb eb (set_c1 r 0) in
  Ok (r, enc_sc (c1 r)).

(** bulletproof.py:1089-1113 [_vector_exponent_custom] of windows, result in [_tmp_bf_0] *)
Fixpoint vexp_loop (n : nat) (i : Z) (A : vec) (sA eA : Z) (B : vec) (sB eB : Z) (a : keyv) (sa ea : Z) (b : keyv) (sb eb : Z) (r : regs) : res (vec * vec * regs) :=
  match n with
  | O => Ok (A, B, r)
  | S n =>
      let* x := sliced_to a sa ea i in
      let r := set_c1 r (le_val 256 x) in
      match view_to A sA eA i r with
      | Err e => Err e
      | Ok (A, r, k) =>
          let* P := decp E k in
          let r := set_p3 r P in
          let* y := sliced_to b sb eb i in
          let r := set_c2 r (le_val 256 y) in
          match view_to B sB eB i r with
          | Err e => Err e
          | Ok (B, r, k) =>
              let* Q := decp E k in
              let r := set_p4 r Q in
              let r := set_p1 r (add_keys3 E (c1 r) (p3 r) (c2 r) (p4 r)) in
              let r := set_p2 r (point_add E (p2 r) (p1 r)) in
              vexp_loop n (i + 1) A sA eA B sB eB a sa ea b sb eb r
          end
      end
  end.
Definition vexp_code (A : vec) (sA eA : Z) (B : vec) (sB eB : Z) (a : keyv) (sa ea : Z) (b : keyv) (sb eb : Z) (r : regs) : res (vec * vec * regs) :=
  match vexp_loop (Z.to_nat (ea - sa)) 0 A sA eA B sB eB a sa ea b sb eb (set_p2 r (pid E)) with
  | Err e => Err e
  | Ok (A, B, r) => Ok (A, B, set_b0 r (encp E (p2 r)))
  end.

(** bulletproof.py:3305-3308 (and 3322-3325) after the sum in [_tmp_bf_0]: [_sc_mul] (209-218), [_scalarmultH] (171-176),
    [_add_keys] (259-265), [_scalarmult_key] (161-168) by 1/8 *)
Definition close_code (c x : list Z) (r : regs) : res regs :=
  let r := set_c1 r (le_val 256 c) in let r := set_c2 r (le_val 256 x) in let r := set_c3 r (sc_mul (c1 r) (c2 r)) in
  let tmp := enc_sc (c3 r) in
  let r := set_c1 r (le_val 256 tmp mod l) in let r := set_p1 r (scalarmult E (Hb E) (c1 r)) in
  let k1 := encp E (p1 r) in
  let* P := decp E (b0 r) in let r := set_p1 r P in
  let* Q := decp E k1 in let r := set_p2 r Q in
  let r := set_p3 r (point_add E (p1 r) (p2 r)) in let r := set_b0 r (encp E (p3 r)) in
  let* P := decp E (b0 r) in let r := set_p1 r P in
  let r := set_c1 r inv_eight in let r := set_p1 r (scalarmult E (p1 r) (c1 r)) in
  Ok (set_b0 r (encp E (p1 r))).

(** bulletproof.py:1237-1257 [_scalar_fold] in place, followed by the [resize] of its callers *)
Fixpoint sfold_loop (n : nat) (i h : Z) (v : keyv) (r : regs) : res (keyv * regs) :=
  match n with
  | O => Ok (v, r)
  | S n =>
      let* x := keyv_to v i in let r := set_c3 r (le_val 256 x) in
      let* y := keyv_to v (h + i) in let r := set_c4 r (le_val 256 y) in
      let r := set_c3 r (sc_mul (c3 r) (c1 r)) in
      let r := set_c4 r (sc_mul (c4 r) (c2 r)) in
      let r := set_c3 r (sc_add (c3 r) (c4 r)) in
      let r := set_b0 r (enc_sc (c3 r)) in
      match keyv_read v i (b0 r) 0 with
      | (_, Err e) => Err e
      | (v, Ok _) => sfold_loop n (i + 1) h v r
      end
  end.
Definition sfold_code (v : keyv) (a b : list Z) (n : Z) (r : regs) : res (keyv * regs) :=
  let h := kv_size v / 2 in
  let r := set_c2 (set_c1 r (le_val 256 a)) (le_val 256 b) in
  let* (v, r) := sfold_loop (Z.to_nat h) 0 h v r in
  match keyv_resize v n false false with (_, Err e) => Err e | (v, Ok _) => Ok (v, r) end.

(** the number of elements *)
Definition vec_size (v : vec) : Z := match v with Stored k => kv_size k | Precomp n _ => n | Scaled n _ _ => n end.
(** bulletproof.py:1182-1202 [_hadamard_fold]; the second halves come from [vR] if given, the results go to [into] or back into [v] *)
Fixpoint hfold_loop (n : nat) (i h : Z) (v : vec) (vR : option vec) (into : option keyv) (r : regs) : res (vec * option keyv * regs) :=
  match n with
  | O => Ok (v, into, r)
  | S n =>
      match vec_to v i r with
      | Err e => Err e
      | Ok (v, r, k) =>
          let* P := decp E k in let r := set_p1 r P in
          match (match vR with
                 | None => match vec_to v (h + i) r with Ok (v, r, k) => Ok (v, None, r, k) | Err e => Err e end
                 | Some w => match vec_to w (i + h) r with Ok (w, r, k) => Ok (v, Some w, r, k) | Err e => Err e end
                 end) with
          | Err e => Err e
          | Ok (v, vR, r, k) =>
              let* Q := decp E k in let r := set_p2 r Q in
              let r := set_p3 r (add_keys3 E (c1 r) (p1 r) (c2 r) (p2 r)) in
              let r := set_b0 r (encp E (p3 r)) in
              match into, v with
              | Some d, _ => match keyv_read d i (b0 r) 0 with (_, Err e) => Err e | (d, Ok _) => hfold_loop n (i + 1) h v vR (Some d) r end
              | None, Stored d => match keyv_read d i (b0 r) 0 with (_, Err e) => Err e | (d, Ok _) => hfold_loop n (i + 1) h (Stored d) vR None r end
              | None, _ => Err AttributeError
              end
          end
      end
  end.
Definition hfold_code (v : vec) (vR : option vec) (into : option keyv) (a b : list Z) (n : Z) (r : regs) : res (vec * regs) :=
  let h := vec_size v / 2 in
  let r := set_c2 (set_c1 r (le_val 256 a)) (le_val 256 b) in
  match hfold_loop (Z.to_nat h) 0 h v vR into r with
  | Err e => Err e
  | Ok (v, into, r) =>
      match into, v with
      | Some d, _ | None, Stored d => match keyv_resize d n false false with (_, Err e) => Err e | (d, Ok _) => Ok (Stored d, r) end
      | None, _ => Err AttributeError
      end
  end.

(** bulletproof.py:1378-1392 [_hash_cache_mash]: the new running hash, which is also the challenge *)
Definition mash_code (hc : list Z) (args : list (list Z)) (r : regs) : regs * list Z :=
  let r := set_c1 r (le_val 256 (hash E (hc ++ concat args)) mod l) in (r, enc_sc (c1 r)).
(** bulletproof.py:149-158 [_invert] *)
Definition invert_code (x : list Z) (r : regs) : regs * list Z :=
  let r := set_c1 r (le_val 256 x) in let r := set_c2 r (sc_inv (c1 r)) in (r, enc_sc (c2 r)).

(** the prover in a round *)
Record mach := { m_r : regs; m_a : keyv; m_b : keyv; m_G : vec; m_H : vec; m_HR : option vec; m_hc : list Z; m_L : keyv; m_R : keyv }.
(** bulletproof.py:3301-3303: in the first round the powers at the end of the first half are handed to HprimeR *)
Definition hand_over (H : vec) (HR : option vec) : option vec :=
  match H, HR with Scaled _ pl _, Some (Scaled s pr o) => Some (Scaled s (kpow_set_state pr (kp_last pl) (kp_cur pl)) o) | _, w => w end.
(** bulletproof.py:3253-3382 [_phase2_loop_body]; the first round is the one with an HprimeR *)
Definition body_code (x : list Z) (round n : Z) (m : mach) : res mach :=
  let n2 := n * 2 in
  let* (r, cL) := ip_code (m_a m) 0 n (m_b m) n n2 (m_r m) in
  let* (r, cR) := ip_code (m_a m) n n2 (m_b m) 0 n r in
  match vexp_code (m_G m) n n2 (m_H m) 0 n (m_a m) 0 n (m_b m) n n2 r with Err e => Err e | Ok (G, H, r) =>
  let HR := hand_over H (m_HR m) in
  let* r := close_code cL x r in
  match keyv_read (m_L m) round (b0 r) 0 with (_, Err e) => Err e | (L, Ok _) =>
  match vexp_code G 0 n H n n2 (m_a m) n n2 (m_b m) 0 n r with Err e => Err e | Ok (G, H, r) =>
  let* r := close_code cR x r in
  match keyv_read (m_R m) round (b0 r) 0 with (_, Err e) => Err e | (R, Ok _) =>
  let* Lk := keyv_to L round in
  let* Rk := keyv_to R round in
  let '(r, w) := mash_code (m_hc m) [Lk; Rk] r in
  let* _ := guard (negb (le_val 256 w =? 0)) AttributeError in
  let '(r, winv) := invert_code w r in
  let* (a, r) := sfold_code (m_a m) w winv n r in
  let* (b, r) := sfold_code (m_b m) winv w n r in
  let first := match HR with Some _ => true | None => false end in
  let into := if first then Some (keyv_new n) else None in
  let* (G, r) := hfold_code G None into winv w n r in
  let* (H, r) := hfold_code H HR into w winv n r in
  Ok {| m_r := r; m_a := a; m_b := b; m_G := G; m_H := H; m_HR := None; m_hc := w; m_L := L; m_R := R |}
  end end end end.
(** bulletproof.py:3408-3412: [while nprime >= 1]; the vectors have 2 ^ rounds elements *)
Fixpoint rounds_code (rounds : nat) (round : Z) (x : list Z) (m : mach) : res mach :=
  match rounds with
  | O => Ok m
  | S k => let* m := body_code x round (2 ^ Z.of_nat k) m in rounds_code k (round + 1) x m
  end.
(** bulletproof.py:3384-3415 [_prove_loop] with 3207-3235: [lv], [rv] the vectors l, r; [y], [x_ip], the running hash as bytes *)
Definition loop_code (logMN : nat) (lv rv : keyv) (y x_ip hc : list Z) (r : regs) : res (keyv * keyv * list Z * list Z) :=
  let MN := 2 ^ Z.of_nat logMN in
  let '(r, yi) := invert_code y r in
  let r := set_b0 r yi in
  let pw := kpow_new MN (le_val 256 (b0 r)) in
  let* m := rounds_code logMN 0 x_ip
    {| m_r := r; m_a := lv; m_b := rv; m_G := Precomp MN true; m_H := Scaled MN pw false; m_HR := Some (Scaled MN pw true); m_hc := hc;
       m_L := keyv_new (Z.of_nat logMN); m_R := keyv_new (Z.of_nat logMN) |} in
  let* a := keyv_to (m_a m) 0 in
  let* b := keyv_to (m_b m) 0 in
  Ok (m_L m, m_R m, a, b).

(** bulletproof.py:2560-2575: the vectors l and r written one key after another *)
Fixpoint writes (i : Z) (xs : list Z) : list kop := match xs with [] => [] | x :: xs => KRead i (enc_sc x) :: writes (i + 1) xs end.
Definition written (xs : list Z) : keyv := keyv_after (keyv_new (zlen xs)) (writes 0 xs).
(** the keys of a vector, as they are copied into the message (bulletproof.py:2422-2427) *)
Definition keys_of (v : keyv) : res (list (list Z)) := mapM (keyv_to v) (map Z.of_nat (seq 0 (Z.to_nat (kv_size v)))).

(** bulletproof.py:2342-2428 [prove_batch] with the loop of the inner product argument at the level of registers and buffers;
    the first phase is that of Bp_model, [r] the registers it leaves behind *)
Definition prove_batch_code (sv gamma : list Z) (rd : prand) (r : regs) : res bproof :=
  let* _ := guard (Nat.eqb (length sv) (length gamma)) ValueError in
  let* _ := guard (negb (Nat.eqb (length sv) 0)) ValueError in
  let* (M, logM) := bp_blocks (length sv) in
  let MN := (Z.to_nat M * BP_N)%nat in
  let svb := map enc_sc sv in
  let V := map2 (fun v g => inv8 E (add_keys2 E g v (Hb E))) sv gamma in
  let aL := map (e_xL svb true) (seq 0 MN) in
  let aR := map (e_xL svb false) (seq 0 MN) in
  let G := map (gG E gs) (seq 0 MN) in
  let H := map (gH E gs) (seq 0 MN) in
  let hc := hash_vct E V in
  let A := inv8 E (point_add E (vector_exponent E (pid E) G H aL aR) (scalarmult_base E (r_alpha rd))) in
  let S := inv8 E (point_add E (vector_exponent E (pid E) G H (r_sL rd) (r_sR rd)) (scalarmult_base E (r_rho rd))) in
  let y := mash E hc [A; S] in
  let* _ := guard (negb (y =? 0)) AttributeError in
  let z := hash_to_scalar E (enc_sc y) in
  let* _ := guard (negb (z =? 0)) AttributeError in
  let l0 := map (fun a => sc_sub a z) aL in
  let r0 := keyr0 aR 0 1 (sc_mul z z) 1 y z in
  let r1 := map2 sc_mul (r_sR rd) (powers MN 1 y) in
  let '(t1, t2) := cross_inner_product 0 0 l0 r0 (r_sL rd) r1 in
  let T1 := inv8 E (add_keys2 E (r_tau1 rd) t1 (Hb E)) in
  let T2 := inv8 E (add_keys2 E (r_tau2 rd) t2 (Hb E)) in
  let x := mash E z [enc_sc z; T1; T2] in
  let* _ := guard (negb (x =? 0)) AttributeError in
  let lv := map2 (fun c a => sc_muladd x c a) (r_sL rd) l0 in
  let rv := map2 (fun d b => sc_muladd x d b) r1 r0 in
  let t := inner_product 0 lv rv in
  let taux := taux_loop gamma (sc_muladd (r_tau2 rd) (sc_mul x x) (sc_mul (r_tau1 rd) x)) (sc_mul z z) z in
  let mu := sc_muladd x (r_rho rd) (r_alpha rd) in
  let x_ip := mash E x [enc_sc x; enc_sc taux; enc_sc mu; enc_sc t] in
  let* _ := guard (negb (x_ip =? 0)) AttributeError in
  match loop_code (Z.to_nat (logM + 6)) (written lv) (written rv) (enc_sc y) (enc_sc x_ip) (enc_sc x_ip) r with
  | Err e => Err e
  | Ok (L, R, a, b) =>
      let* Lk := keys_of L in
      let* Rk := keys_of R in
      Ok {| bp_V := V; bp_A := A; bp_S := S; bp_T1 := T1; bp_T2 := T2; bp_taux := enc_sc taux; bp_mu := enc_sc mu;
            bp_L := Lk; bp_R := Rk; bp_a := a; bp_b := b; bp_t := enc_sc t |}
  end.
End Regs.
