(** Bulletproofs: monero_glue/xmr/bulletproof.py, the in-memory prover
    [prove_batch] and the verifier [verify_batch], with the wrappers of
    monero_glue/xmr/ring_ct.py.

    Simplifications.  The code keeps intermediate points and scalars in 32-byte
    buffers which it decodes before every operation; here intermediate points
    are points and intermediate scalars integers ([decodepoint] after
    [encodepoint] is the identity, C45_roundtrip; every scalar operation returns a
    reduced value).  What is hashed or returned is encoded.  The lazily
    evaluated vectors (KeyVEval, KeyVPowers, KeyR0, KeyVPrecomp, KeyVSliced) are the lists
    of the values they return in index order; KeyVPowers and KeyR0 keep the running state of
    the code.  The prover's random values are arguments.  A zero challenge makes the
    code return a marker its caller ignores; here it raises.  The offloaded prover
    ([prove_batch_off]) and the older [prove_batch_] are not modelled. *)
From Verif Require Import Py Digits Ints_model Protobuf_spec Ec_model Mlsag_model.

(** bulletproof.py:18-20 *)
Definition BP_N : nat := 64.
Definition BP_M : Z := 16.
(** the salt of line 315 *)
Definition BP_SALT : list Z := [98; 117; 108; 108; 101; 116; 112; 114; 111; 111; 102].
(** [_BP_IP12]: inner product of the ones and the powers of two, line 56 *)
Definition BP_IP12 : Z := le_val 256 (repeat 255 8 ++ repeat 0 24).

Fixpoint map2 {A B C} (f : A -> B -> C) (x : list A) (y : list B) : list C :=
  match x, y with a :: x, b :: y => f a b :: map2 f x y | _, _ => [] end.

(** ec_py.py:76-78, 557-563: [pow(v, l - 2, l)] *)
Fixpoint pow_pos (m b : Z) (e : positive) : Z :=
  match e with
  | xH => b mod m
  | xO e => let r := pow_pos m b e in (r * r) mod m
  | xI e => let r := pow_pos m b e in ((r * r) mod m * b) mod m
  end.
Definition sc_inv (v : Z) : Z := match l - 2 with Zpos e => pow_pos l v e | _ => 0 end.

(** monero_serialize Bulletproof: what is sent, as 32-byte strings *)
Record bproof := { bp_V : list (list Z); bp_A : list Z; bp_S : list Z; bp_T1 : list Z; bp_T2 : list Z;
  bp_taux : list Z; bp_mu : list Z; bp_L : list (list Z); bp_R : list (list Z); bp_a : list Z; bp_b : list Z; bp_t : list Z }.

(** bulletproof.py:2326-2332 and 3462-3466: the number of blocks, [fuel] iterations suffice because of the bound 16 *)
Fixpoint comp_m (fuel : nat) (M logM ln : Z) : res (Z * Z) :=
  if (M <=? BP_M) && (M <? ln) then
    match fuel with O => Err OutOfFuel | S fuel => comp_m fuel (Z.shiftl 1 (logM + 1)) (logM + 1) ln end
  else Ok (M, logM).
Definition bp_blocks (ln : nat) : res (Z * Z) := comp_m 6 1 0 (Z.of_nat ln).

(** bulletproof.py:1638-1650 [_e_xL]: bit [idx mod 64] of amount [idx / 64] and that bit minus one *)
Definition e_xL (sv : list (list Z)) (is_a : bool) (idx : nat) : Z :=
  let j := Nat.div idx BP_N in
  let i := Z.of_nat (Nat.modulo idx BP_N) in
  if Nat.leb (length sv) j then (if is_a then 0 else l - 1)
  else if negb (Z.land (nth (Z.to_nat (i / 8)) (nth j sv []) 0) (Z.shiftl 1 (i mod 8)) =? 0)
  then (if is_a then 1 else 0) else (if is_a then 0 else l - 1).

(** bulletproof.py:791-831 KeyVPowers, [n] values from the current one on *)
Fixpoint powers (n : nat) (cur x : Z) : list Z := match n with O => [] | S n => cur :: powers n (sc_mul cur x) x end.
(** bulletproof.py:931-1014 KeyR0: [i] the index, [yp], [zt], [p2] the running values *)
Fixpoint keyr0 (aR : list Z) (i : nat) (yp zt p2 y z : Z) : list Z :=
  match aR with
  | [] => []
  | ar :: aR =>
      sc_muladd zt p2 (sc_mul (sc_add ar z) yp) ::
      (if Nat.eqb (Nat.modulo (S i) BP_N) 0 then keyr0 aR (S i) (sc_mul yp y) (sc_mul zt z) 1 y z
       else keyr0 aR (S i) (sc_mul yp y) zt (sc_mul p2 2) y z)
  end.
(** bulletproof.py:1163-1179 *)
Fixpoint inner_product (acc : Z) (a b : list Z) : Z :=
  match a, b with x :: a, y :: b => inner_product (sc_muladd x y acc) a b | _, _ => acc end.
(** bulletproof.py:1260-1283 *)
Fixpoint cross_inner_product (t1 t2 : Z) (l0 r0 l1 r1 : list Z) : Z * Z :=
  match l0, r0, l1, r1 with
  | a :: l0, b :: r0, c :: l1, d :: r1 => cross_inner_product (sc_muladd c b (sc_muladd a d t1)) (sc_muladd c d t2) l0 r0 l1 r1
  | _, _, _, _ => (t1, t2)
  end.
(** bulletproof.py:1237-1257, the halves of the vector being [v1], [v2] *)
Definition scalar_fold (v1 v2 : list Z) (a b : Z) : list Z := map2 (fun x y => sc_add (sc_mul x a) (sc_mul y b)) v1 v2.
(** bulletproof.py:1140-1160, for n >= 2 (there is a missing return for n = 1) *)
Fixpoint power_sum (n : nat) (acc cur x : Z) : Z :=
  match n with O => acc | S n => let cur := sc_mul cur x in power_sum n (sc_add acc cur) cur x end.
Definition vector_power_sum (x : Z) (n : nat) : Z := power_sum (n - 2) (sc_add 1 x) x x.
(** bulletproof.py:2632-2635: [taux] accumulates the weighted masks *)
Fixpoint taux_loop (gamma : list Z) (taux zpow z : Z) : Z :=
  match gamma with [] => taux | g :: gamma => taux_loop gamma (sc_muladd zpow g taux) (sc_mul zpow z) z end.

Section Bp.
Context (E : ecops).
Local Notation pt := (pt E).

(** bulletproof.py:313-325, 1938-1946: the generators *)
Definition get_exponent (idx : Z) : pt := Hp E (hash E (encp E (Hb E) ++ BP_SALT ++ varint idx)).
(** the vectors [Gprec], [Hprec]: 256 constants followed by computed values; any vectors here *)
Record gens := { gG : nat -> pt; gH : nat -> pt }.
Definition computed_gens : gens := {| gG := fun i => get_exponent (Z.of_nat i * 2 + 1); gH := fun i => get_exponent (Z.of_nat i * 2) |}.

(** bulletproof.py:301-310 *)
Definition hash_vct (V : list (list Z)) : Z := hash_to_scalar E (concat V).
(** bulletproof.py:1378-1392: the new value of the running hash, which is also the challenge *)
Definition mash (hc : Z) (args : list (list Z)) : Z := hash_to_scalar E (enc_sc hc ++ concat args).
(** bulletproof.py:1089-1113 *)
Fixpoint vector_exponent (acc : pt) (A B : list pt) (a b : list Z) : pt :=
  match A, B, a, b with
  | P :: A, Q :: B, x :: a, y :: b => vector_exponent (point_add E acc (add_keys3 E x P y Q)) A B a b
  | _, _, _, _ => acc
  end.
(** bulletproof.py:1182-1202 *)
Definition hadamard_fold (v1 v2 : list pt) (a b : Z) : list pt := map2 (fun P Q => add_keys3 E a P b Q) v1 v2.
(** the recurring "add and divide by eight": 2343-2347, 2437-2440, 2484-2488 *)
Definition inv8 (P : pt) : list Z := encp E (scalarmult E P inv_eight).

Record lstate := { s_a : list Z; s_b : list Z; s_G : list pt; s_H : list pt; s_hc : Z; s_L : list (list Z); s_R : list (list Z) }.
(** bulletproof.py:3253-3382: one round, [n] half the length of the vectors *)
Definition loop_body (x_ip : Z) (n : nat) (s : lstate) : res lstate :=
  let a1 := firstn n (s_a s) in let a2 := skipn n (s_a s) in
  let b1 := firstn n (s_b s) in let b2 := skipn n (s_b s) in
  let G1 := firstn n (s_G s) in let G2 := skipn n (s_G s) in
  let H1 := firstn n (s_H s) in let H2 := skipn n (s_H s) in
  let cL := inner_product 0 a1 b2 in
  let cR := inner_product 0 a2 b1 in
  let L := inv8 (point_add E (vector_exponent (pid E) G2 H1 a1 b2) (scalarmult E (Hb E) (sc_mul cL x_ip))) in
  let R := inv8 (point_add E (vector_exponent (pid E) G1 H2 a2 b1) (scalarmult E (Hb E) (sc_mul cR x_ip))) in
  let w := mash (s_hc s) [L; R] in
  let* _ := guard (negb (w =? 0)) AttributeError in
  let winv := sc_inv w in
  Ok {| s_a := scalar_fold a1 a2 w winv; s_b := scalar_fold b1 b2 winv w;
        s_G := hadamard_fold G1 G2 winv w; s_H := hadamard_fold H1 H2 w winv;
        s_hc := w; s_L := s_L s ++ [L]; s_R := s_R s ++ [R] |}.
(** bulletproof.py:3408-3412: [while nprime >= 1]; the length is 2 ^ rounds *)
Fixpoint prove_loop (rounds : nat) (x_ip : Z) (s : lstate) : res lstate :=
  match rounds with
  | O => Ok s
  | S r => let* s := loop_body x_ip (Nat.pow 2 r) s in prove_loop r x_ip s
  end.

(** the prover's randomness: [alpha], [rho], [tau1], [tau2] and the mask vectors *)
Record prand := { r_alpha : Z; r_rho : Z; r_tau1 : Z; r_tau2 : Z; r_sL : list Z; r_sR : list Z }.

(** bulletproof.py:2342-2367, 2403-2428, 2455-2565, 2616-2650, 3384-3415: [prove_batch] *)
Definition prove_batch (gs : gens) (sv gamma : list Z) (rd : prand) : res bproof :=
  let* _ := guard (Nat.eqb (length sv) (length gamma)) ValueError in
  let* _ := guard (negb (Nat.eqb (length sv) 0)) ValueError in
  let* (M, logM) := bp_blocks (length sv) in
  let MN := (Z.to_nat M * BP_N)%nat in
  let svb := map enc_sc sv in
  let V := map2 (fun v g => inv8 (add_keys2 E g v (Hb E))) sv gamma in
  let aL := map (e_xL svb true) (seq 0 MN) in
  let aR := map (e_xL svb false) (seq 0 MN) in
  let G := map (gG gs) (seq 0 MN) in
  let H := map (gH gs) (seq 0 MN) in
  let hc := hash_vct V in
  let A := inv8 (point_add E (vector_exponent (pid E) G H aL aR) (scalarmult_base E (r_alpha rd))) in
  let S := inv8 (point_add E (vector_exponent (pid E) G H (r_sL rd) (r_sR rd)) (scalarmult_base E (r_rho rd))) in
  let y := mash hc [A; S] in
  let* _ := guard (negb (y =? 0)) AttributeError in
  let z := hash_to_scalar E (enc_sc y) in
  let* _ := guard (negb (z =? 0)) AttributeError in
  let l0 := map (fun a => sc_sub a z) aL in
  let r0 := keyr0 aR 0 1 (sc_mul z z) 1 y z in
  let r1 := map2 sc_mul (r_sR rd) (powers MN 1 y) in
  let '(t1, t2) := cross_inner_product 0 0 l0 r0 (r_sL rd) r1 in
  let T1 := inv8 (add_keys2 E (r_tau1 rd) t1 (Hb E)) in
  let T2 := inv8 (add_keys2 E (r_tau2 rd) t2 (Hb E)) in
  let x := mash z [enc_sc z; T1; T2] in
  let* _ := guard (negb (x =? 0)) AttributeError in
  let lv := map2 (fun c a => sc_muladd x c a) (r_sL rd) l0 in
  let rv := map2 (fun d b => sc_muladd x d b) r1 r0 in
  let t := inner_product 0 lv rv in
  let taux := taux_loop gamma (sc_muladd (r_tau2 rd) (sc_mul x x) (sc_mul (r_tau1 rd) x)) (sc_mul z z) z in
  let mu := sc_muladd x (r_rho rd) (r_alpha rd) in
  let x_ip := mash x [enc_sc x; enc_sc taux; enc_sc mu; enc_sc t] in
  let* _ := guard (negb (x_ip =? 0)) AttributeError in
  let H' := map2 (fun P e => scalarmult E P e) H (powers MN 1 (sc_inv y)) in
  let* s := prove_loop (Z.to_nat (logM + 6)) x_ip
    {| s_a := lv; s_b := rv; s_G := G; s_H := H'; s_hc := x_ip; s_L := []; s_R := [] |} in
  let* a := getn (s_a s) 0 in
  let* b := getn (s_b s) 0 in
  Ok {| bp_V := V; bp_A := A; bp_S := S; bp_T1 := T1; bp_T2 := T2; bp_taux := enc_sc taux; bp_mu := enc_sc mu;
        bp_L := s_L s; bp_R := s_R s; bp_a := enc_sc a; bp_b := enc_sc b; bp_t := enc_sc t |}.

(** ec_py.py:450-453 [sc_init]; ring_ct.py:63-71 *)
Definition bp_sc_init (x : Z) : res Z := if x >=? 2 ^ 64 then Err ValueError else Ok (x mod l).
Definition prove_range_bp_batch (gs : gens) (amounts masks : list Z) (rd : prand) : res bproof :=
  let* sv := mapM bp_sc_init amounts in
  prove_batch gs sv masks rd.

(** bulletproof.py:50: the module's generator, with the constant seed of 32 zeros; 186-192 [_sc_gen].
    One proof draws alpha, rho, tau1, tau2 in this order (2465, 2478, 2512). *)
Definition bp_prng : prng := prng_new (repeat 0 32).
Definition sc_gen (p : prng) : res (prng * Z) :=
  let* (p, b) := prng_next (hash E) p 32 in Ok (p, le_val 256 b mod l).
Definition draw4 (p : prng) : res (prng * (Z * Z * (Z * Z))) :=
  let* (p, alpha) := sc_gen p in
  let* (p, rho) := sc_gen p in
  let* (p, tau1) := sc_gen p in
  let* (p, tau2) := sc_gen p in
  Ok (p, (alpha, rho, (tau1, tau2))).
(** the values drawn for the proof number [n] (counted from 0) made by a process *)
Fixpoint draws (n : nat) (p : prng) : res (Z * Z * (Z * Z)) :=
  let* (p, r) := draw4 p in match n with O => Ok r | S n => draws n p end.

(** ** Verification *)
(** bulletproof.py:1420-1421 *)
Definition is_reduced (s : list Z) : bool := zlist_eqb (enc_sc (le_val 256 s mod l)) s.
(** bulletproof.py:1536-1572 MultiExpSequential: scalars times encoded points, added up *)
Fixpoint multiexp (acc : pt) (data : list (Z * list Z)) : res pt :=
  match data with
  | [] => Ok acc
  | (s, k) :: data => let* P := decp E k in multiexp (point_add E acc (scalarmult E P s)) data
  end.
(** bulletproof.py:3427-3436 *)
Definition bp_check (p : bproof) : res unit :=
  let* _ := guard (is_reduced (bp_taux p)) ValueError in
  let* _ := guard (is_reduced (bp_mu p)) ValueError in
  let* _ := guard (is_reduced (bp_a p)) ValueError in
  let* _ := guard (is_reduced (bp_b p)) ValueError in
  let* _ := guard (is_reduced (bp_t p)) ValueError in
  let* _ := guard (negb (Nat.eqb (length (bp_V p)) 0)) ValueError in
  let* _ := guard (Nat.eqb (length (bp_L p)) (length (bp_R p))) ValueError in
  guard (negb (Nat.eqb (length (bp_L p)) 0)) ValueError.
(** bulletproof.py:3538-3542: the challenges of the rounds *)
Fixpoint round_challenges (hc : Z) (LR : list (list Z * list Z)) : res (list Z) :=
  match LR with
  | [] => Ok []
  | (L, R) :: LR =>
      let w := mash hc [L; R] in
      let* _ := guard (negb (w =? 0)) ValueError in
      let* ws := round_challenges w LR in Ok (w :: ws)
  end.
(** bulletproof.py:3563-3572: [j] counts down from rounds - 1, [J = rounds - j - 1] counts up *)
Fixpoint fold_scalar (ws : list Z) (i : Z) (g h : Z) : Z * Z :=
  match ws with
  | [] => (g, h)
  | w :: ws =>
      let j := Z.of_nat (length ws) in
      let winv := sc_inv w in
      if Z.land i (Z.shiftl 1 j) =? 0 then fold_scalar ws i (sc_mul g winv) (sc_mul h w)
      else fold_scalar ws i (sc_mul g w) (sc_mul h winv)
  end.
(** bulletproof.py:3559-3601: the scalars of the generators with index [i], [i + 1], ... ([n] of them) *)
Fixpoint gh_scalars (n i : nat) (ws zpow : list Z) (a b z y yinv ypow yinvpow : Z) : list (Z * Z) :=
  match n with
  | O => []
  | S n =>
      let '(g, h) := fold_scalar ws (Z.of_nat i) a (sc_mul b yinvpow) in
      let g := sc_add g z in
      let tmp := sc_mul (nth (2 + Nat.div i BP_N) zpow 0) (2 ^ Z.of_nat (Nat.modulo i BP_N)) in
      let tmp := sc_muladd z ypow tmp in
      let h := sc_mulsub tmp yinvpow h in
      (g, h) :: gh_scalars n (S i) ws zpow a b z y yinv (sc_mul ypow y) (sc_mul yinvpow yinv)
  end.
(** bulletproof.py:3491-3494 *)
Fixpoint k_loop (n j : nat) (zpow : list Z) (k : Z) : Z :=
  match n with O => k | S n => k_loop n (S j) zpow (sc_mulsub (nth (j + 2) zpow 0) BP_IP12 k) end.
(** bulletproof.py:3585-3595, single proof: subtract from the accumulator *)
Fixpoint sub_gens (acc : pt) (gs : gens) (i : nat) (wz : Z) (gh : list (Z * Z)) : pt :=
  match gh with
  | [] => acc
  | (g, h) :: gh =>
      let acc := point_sub E acc (scalarmult E (gG gs i) (sc_mul g wz)) in
      let acc := point_sub E acc (scalarmult E (gH gs i) (sc_mul h wz)) in
      sub_gens acc gs (S i) wz gh
  end.
(** bulletproof.py:3582-3584: or accumulate the scalars *)
Fixpoint sub_scalars (wz : Z) (zs : list (Z * Z)) (gh : list (Z * Z)) : list (Z * Z) :=
  match zs, gh with
  | (z4, z5) :: zs, (g, h) :: gh => (sc_mulsub g wz z4, sc_mulsub h wz z5) :: sub_scalars wz zs gh
  | zs, _ => zs
  end.
(** bulletproof.py:3640-3648: all generators, at the end *)
Fixpoint add_gens (acc : pt) (gs : gens) (i : nat) (zs : list (Z * Z)) : pt :=
  match zs with
  | [] => acc
  | (z4, z5) :: zs => add_gens (point_add E (point_add E acc (scalarmult E (gG gs i) z4)) (scalarmult E (gH gs i) z5)) gs (S i) zs
  end.

Record vstate := { v_acc : pt; v_z1 : Z; v_z3 : Z; v_y0 : Z; v_y1 : Z; v_zs : list (Z * Z) }.
(** bulletproof.py:3460-3628: one proof with its two random weights *)
Definition verify_step (gs : gens) (single : bool) (st : vstate) (pw : bproof * (Z * Z)) : res vstate :=
  let '(p, (wy, wz)) := pw in
  let* (M, logM) := bp_blocks (length (bp_V p)) in
  let* _ := guard (Z.of_nat (length (bp_L p)) =? 6 + logM) ValueError in
  let MN := (Z.to_nat M * BP_N)%nat in
  let hc := hash_vct (bp_V p) in
  let y := mash hc [bp_A p; bp_S p] in
  let* _ := guard (negb (y =? 0)) ValueError in
  let z := hash_to_scalar E (enc_sc y) in
  let* _ := guard (negb (z =? 0)) ValueError in
  let x := mash z [enc_sc z; bp_T1 p; bp_T2 p] in
  let* _ := guard (negb (x =? 0)) ValueError in
  let x_ip := mash x [enc_sc x; bp_taux p; bp_mu p; bp_t p] in
  let* _ := guard (negb (x_ip =? 0)) ValueError in
  let taux := le_val 256 (bp_taux p) in let mu := le_val 256 (bp_mu p) in let t := le_val 256 (bp_t p) in
  let a := le_val 256 (bp_a p) in let b := le_val 256 (bp_b p) in
  let y0 := sc_mulsub taux wy (v_y0 st) in
  let zpow := powers (Z.to_nat M + 3) 1 z in
  let ip1y := vector_power_sum y MN in
  let k := k_loop (Z.to_nat M) 1 zpow (sc_mulsub (nth 2 zpow 0) ip1y 0) in
  let y1 := sc_muladd (sc_sub t (sc_muladd z ip1y k)) wy (v_y1 st) in
  let wy8 := sc_mul wy 8 in
  let wz8 := sc_mul wz 8 in
  let* zV := mapM (fun j => let* zj := getn zpow (j + 2) in Ok (sc_mul zj wy8)) (seq 0 (length (bp_V p))) in
  let* m1 := multiexp (pid E) (combine zV (bp_V p) ++
    [(sc_mul x wy8, bp_T1 p); (sc_mul (sc_mul x x) wy8, bp_T2 p); (wz8, bp_A p); (sc_mul x wz8, bp_S p)]) in
  let acc := point_add E (v_acc st) m1 in
  let* ws := round_challenges x_ip (combine (bp_L p) (bp_R p)) in
  let gh := gh_scalars MN 0 ws zpow a b z y (sc_inv y) 1 1 in
  let acc := if single then sub_gens acc gs 0 wz gh else acc in
  let zs := if single then v_zs st else sub_scalars wz (v_zs st) gh in
  let z1 := sc_muladd mu wz (v_z1 st) in
  let* m2 := multiexp (pid E) (concat (map2 (fun w LR =>
    [(sc_mul (sc_mul w w) wz8, fst LR); (sc_mul (sc_mul (sc_inv w) (sc_inv w)) wz8, snd LR)]) ws (combine (bp_L p) (bp_R p)))) in
  let acc := point_add E acc m2 in
  let z3 := sc_muladd (sc_mul (sc_mulsub a b t) x_ip) wz (v_z3 st) in
  Ok {| v_acc := acc; v_z1 := z1; v_z3 := z3; v_y0 := y0; v_y1 := y1; v_zs := zs |}.
(** bulletproof.py:3420-3653; [weights] are the random scalars drawn for the proofs.  The result is [True] or an exception. *)
Definition verify_batch (gs : gens) (proofs : list bproof) (weights : list (Z * Z)) (single_optim : bool) : res bool :=
  let* _ := mapM bp_check proofs in
  let max_length := fold_left (fun m p => Nat.max m (length (bp_L p))) proofs 0%nat in
  let* _ := guard (Nat.ltb max_length 32) ValueError in
  let single := Nat.eqb (length proofs) 1 && single_optim in
  let zs := if single then [] else repeat (0, 0) (Nat.pow 2 max_length) in
  let* st := foldM (verify_step gs single) (combine proofs weights)
    {| v_acc := pid E; v_z1 := 0; v_z3 := 0; v_y0 := 0; v_y1 := 0; v_zs := zs |} in
  let check2 := point_add E (scalarmult E (Hb E) (sc_sub (v_z3 st) (v_y1 st))) (scalarmult_base E (sc_sub (v_y0 st) (v_z1 st))) in
  let acc := point_add E (v_acc st) check2 in
  let acc := if single then acc else add_gens acc gs 0 (v_zs st) in
  if pt_eqb E acc (pid E) then Ok true else Err ValueError.
End Bp.
