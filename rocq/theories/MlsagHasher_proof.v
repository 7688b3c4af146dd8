(** The piecewise hasher refines a pure record of the bytes fed. *)
From Verif Require Import Py PyLemmas Protobuf_model Protobuf_spec Protobuf_proof.
From Verif Require Import Keccak_model Keccak_spec Keccak_proof Keccak_proof2 Keccak_proof3.
From Verif Require Import MlsagHasher_model MlsagHasher_spec.

Definition kf := kfed 136 32.
(** the digest as a function *)
Definition K (m : list Z) : list Z := match cn_fast_hash m with Ok d => d | Err _ => [] end.

Lemma kf_new : kf Keccak256 []. Proof. apply kh_new_fed. lia. Qed.
Lemma kf_update h m d : kf h m -> bytes_ok d -> exists h', kh_update h d = Ok h' /\ kf h' (m ++ d).
Proof. intros F B. apply kh_update_fed; [lia|exact F|exact B]. Qed.
Lemma K_spec m : bytes_ok m -> is_keccak 136 32 m (K m).
Proof.
  intros B. destruct (kf_update _ _ m kf_new B) as (h & E & F). cbn [app] in F.
  destruct (kh_digest_fed 136 32 h m ltac:(lia) ltac:(lia) F) as (d & E' & I).
  unfold K, cn_fast_hash. rewrite E. cbn [bind]. rewrite E'. cbn [bind]. exact I.
Qed.
Lemma kf_digest h m : bytes_ok m -> kf h m -> kh_digest h = Ok (h, K m).
Proof.
  intros B F. destruct (kh_digest_fed 136 32 h m ltac:(lia) ltac:(lia) F) as (d & E' & I).
  rewrite E'. rewrite (is_keccak_unique 136 32 m d (K m) ltac:(lia) I (K_spec m B)). reflexivity.
Qed.
Lemma K_bytes m : bytes_ok m -> bytes_ok (K m). Proof. intros B. apply (K_spec m B). Qed.
Lemma hw_ok h m d : kf h m -> bytes_ok d -> exists h', hw_update h d = Ok h' /\ kf h' (m ++ d).
Proof.
  intros F B. unfold hw_update. destruct (zlen d =? 0) eqn:E.
  - destruct d; [|rewrite zlen_cons in E; pose proof (zlen_nonneg d); lia]. exists h. rewrite app_nil_r. auto.
  - apply kf_update; assumption.
Qed.
Lemma hws_ok l : Forall bytes_ok l -> forall h m, kf h m -> exists h', foldM hw_update l h = Ok h' /\ kf h' (m ++ concat l).
Proof.
  induction 1 as [|d l Hd Hl IH]; intros h m F; cbn [foldM concat].
  - exists h. rewrite app_nil_r. auto.
  - destruct (hw_ok h m d F Hd) as (h1 & E & F1). rewrite E. cbn [bind].
    destruct (IH h1 _ F1) as (h2 & E2 & F2). exists h2. rewrite app_assoc. auto.
Qed.
Lemma updates_ok l : Forall bytes_ok l -> forall h m, kf h m -> exists h', updates h l = Ok h' /\ kf h' (m ++ concat l).
Proof.
  induction 1 as [|d l Hd Hl IH]; intros h m F; unfold updates; cbn [foldM concat].
  - exists h. rewrite app_nil_r. auto.
  - destruct (kf_update h m d F Hd) as (h1 & E & F1). rewrite E. cbn [bind].
    destruct (IH h1 _ F1) as (h2 & E2 & F2). exists h2. rewrite app_assoc. auto.
Qed.

(** proofs *)
Lemma bytes_concat l : bytes_ok (concat l) <-> Forall bytes_ok l.
Proof.
  induction l as [|a l IH]; cbn [concat].
  - split; intros; constructor.
  - rewrite bytes_ok_app, Forall_cons_iff, IH. reflexivity.
Qed.
Lemma rsig_chunks_ok r : bytes_ok (proof_bytes r) -> proof_wf r ->
  exists cs, rsig_chunks r = Ok cs /\ Forall bytes_ok cs /\ concat cs = proof_bytes r.
Proof.
  intros B W. assert (exists cs, rsig_chunks r = Ok cs /\ concat cs = proof_bytes r) as (cs & E & C).
  { destruct r as [l|b|p|r]; cbn [rsig_chunks proof_bytes].
    - exists l. auto.
    - exists [b]. cbn. rewrite app_nil_r. auto.
    - eexists. split; [reflexivity|]. unfold bp_chunks. rewrite !concat_app. cbn [concat].
      rewrite !app_nil_r, <- !app_assoc. reflexivity.
    - destruct W as (W0 & W1 & W2). unfold rs_chunks, first64. rewrite W0, W1, W2.
      change (64 <? 64)%nat with false. cbv iota. cbn [bind]. eexists. split; [reflexivity|].
      rewrite !firstn_all2 by lia. rewrite !concat_app. cbn [concat]. rewrite app_nil_r. reflexivity. }
  exists cs. split; [exact E|]. split; [|exact C]. apply bytes_concat. rewrite C. exact B.
Qed.

(** abstract state: phase, message bytes, proof bytes, base bytes *)
Definition R (h : pmh) (st : Z) (m p : list Z) (b : option (list Z)) : Prop :=
  h_state h = st /\ kf (h_master h) m /\ bytes_ok m /\ bytes_ok p /\
  (exists k, h_rsig h = Some k /\ kf k p) /\
  match b with
  | Some b => bytes_ok b /\ exists k, h_rct h = Some k /\ kf k b
  | None => h_rct h = None
  end.
Lemma R_new : R pmh_new 0 [] [] (Some []).
Proof.
  split; [reflexivity|]. split; [exact kf_new|]. split; [constructor|]. split; [constructor|].
  split; [exists Keccak256; split; [reflexivity|exact kf_new]|].
  split; [constructor|]. exists Keccak256. split; [reflexivity|exact kf_new].
Qed.
Lemma rct_write_ok h st m p b st' l : R h st m p (Some b) -> Forall bytes_ok l ->
  exists h', rct_write h st' l = Ok h' /\ R h' st' m p (Some (b ++ concat l)).
Proof.
  intros (E & F & Bm & Bp & P & Bb & k & Ek & Fk) Hl. unfold rct_write. rewrite Ek.
  destruct (hws_ok l Hl k b Fk) as (k' & E' & F'). rewrite E'. cbn [bind]. eexists. split; [reflexivity|].
  unfold R; cbn [h_state h_master h_rsig h_rct]. repeat (split; [assumption||reflexivity|]).
  split; [apply bytes_ok_app; split; [assumption|apply bytes_concat, Hl]|]. exists k'. auto.
Qed.

(** phase automaton of the base calls and their bytes *)
Definition base_step (st : Z) (o : pop) : option Z :=
  match o with
  | PInit _ => if st =? 0 then Some 1 else None
  | PTypeFee _ f => if (st =? 1) && (0 <=? f) then Some 2 else None
  | PPseudo _ => if (st =? 2) || (st =? 3) then Some 3 else None
  | PEcdh _ => if (st =? 2) || (st =? 3) || (st =? 4) then Some 4 else None
  | POutPk _ _ => if (st =? 4) || (st =? 5) then Some 5 else None
  | _ => None
  end.
Lemma base_step_ok h st m p b o st' : R h st m p (Some b) -> pop_ok o -> base_step st o = Some st' ->
  exists h', pstep h o = Ok (h', []) /\ R h' st' m p (Some (b ++ base_bytes o)).
Proof.
  intros HR Ho Hs. assert (Est : h_state h = st) by apply HR.
  destruct o as [s|x|t f|x|e|pk mask| |r| |]; cbn [base_step] in Hs; try discriminate Hs; cbn [pstep base_bytes].
  - destruct (st =? 0) eqn:E; [|discriminate]. injection Hs as <-. unfold p_init. rewrite Est, E. cbn [guard bind].
    eexists. split; [reflexivity|]. rewrite app_nil_r. destruct HR as (_ & HR). split; [reflexivity|]. exact HR.
  - destruct ((st =? 1) && (0 <=? f)) eqn:E; [|discriminate]. injection Hs as <-. apply andb_true_iff in E. destruct E as [E1 E2].
    unfold p_type_fee. rewrite Est, E1. cbn [guard bind]. rewrite dump_uvarint_bytes.
    replace (f <? 0) with false by lia. cbn [bind].
    destruct (rct_write_ok h st m p b 2 [[t]; varint f] HR) as (h' & E' & R').
    { repeat constructor; try apply Ho. apply varint_bytes. lia. }
    rewrite E'. cbn [bind]. exists h'. split; [reflexivity|]. cbn [concat] in R'. rewrite app_nil_r in R'. exact R'.
  - destruct ((st =? 2) || (st =? 3)) eqn:E; [|discriminate]. injection Hs as <-.
    unfold p_pseudo. rewrite Est, E. cbn [guard bind].
    destruct (rct_write_ok h st m p b 3 [x] HR ltac:(repeat constructor; exact Ho)) as (h' & E' & R').
    rewrite E'. cbn [bind]. exists h'. split; [reflexivity|]. cbn [concat] in R'. rewrite app_nil_r in R'. exact R'.
  - destruct ((st =? 2) || (st =? 3) || (st =? 4)) eqn:E; [|discriminate]. injection Hs as <-.
    unfold p_ecdh. rewrite Est, E. cbn [guard bind].
    assert (exists h', match e with ERaw b0 => rct_write h 4 [b0] | EInfo m0 a => rct_write h 4 [m0; a] end = Ok h' /\
       R h' 4 m p (Some (b ++ ecdh_bytes e))) as (h' & E' & R').
    { destruct e as [x|x y]; cbn [pop_ok ecdh_bytes] in *.
      - destruct (rct_write_ok h st m p b 4 [x] HR ltac:(repeat constructor; exact Ho)) as (h' & E' & R').
        cbn [concat] in R'. rewrite app_nil_r in R'. eauto.
      - apply bytes_ok_app in Ho. destruct Ho. destruct (rct_write_ok h st m p b 4 [x; y] HR ltac:(repeat constructor; assumption)) as (h' & E' & R').
        cbn [concat] in R'. rewrite app_nil_r in R'. eauto. }
    rewrite E'. cbn [bind]. eauto.
  - destruct ((st =? 4) || (st =? 5)) eqn:E; [|discriminate]. injection Hs as <-.
    unfold p_out_pk. rewrite Est, E. cbn [guard bind]. destruct Ho as [H1 H2].
    set (x := match mask with Some (b0 :: t) => b0 :: t | _ => pk end).
    assert (Bx : bytes_ok x) by (unfold x; destruct mask as [[|]|]; assumption).
    destruct (rct_write_ok h st m p b 5 [x] HR ltac:(repeat constructor; exact Bx)) as (h' & E' & R').
    rewrite E'. cbn [bind]. exists h'. split; [reflexivity|]. cbn [concat] in R'. rewrite app_nil_r in R'. exact R'.
Qed.

(** calls outside the base part *)
Lemma free_step_ok h st m p b o : R h st m p b -> st <> 8 -> pop_ok o -> is_base o = false ->
  exists h', pstep h o = Ok (h', []) /\
    R h' st (m ++ messages [o]) (p ++ concat (map proof_bytes (proofs [o]))) b.
Proof.
  intros HR Hst Ho Hb. destruct HR as (Est & F & Bm & Bp & (k & Ek & Fk) & Hr).
  destruct o as [s|x|t f|x|e|pk mask| |r| |]; cbn [is_base] in Hb; try discriminate Hb; cbn [pstep];
    unfold messages, proofs; cbn [map concat flat_map app]; rewrite ?app_nil_r.
  - unfold p_message. destruct (hw_ok _ _ x F Ho) as (k' & E' & F'). rewrite E'. cbn [bind]. eexists. split; [reflexivity|].
    split; [exact Est|]. split; [exact F'|]. split; [apply bytes_ok_app; split; assumption|]. split; [exact Bp|].
    split; [exists k; auto|exact Hr].
  - destruct Ho as [H1 H2]. unfold p_rsig. rewrite Est. replace (st =? 8) with false by lia. cbn [negb guard bind]. rewrite Ek.
    destruct (rsig_chunks_ok r H1 H2) as (cs & Ec & Bc & Cc). rewrite Ec. cbn [bind].
    destruct (updates_ok cs Bc k p Fk) as (k' & E' & F'). rewrite E'. cbn [bind]. eexists. split; [reflexivity|].
    rewrite <- Cc. split; [reflexivity|]. split; [exact F|]. split; [exact Bm|].
    split; [apply bytes_ok_app; split; [exact Bp|rewrite Cc; exact H1]|]. split; [exists k'; auto|exact Hr].
  - eexists. split; [reflexivity|]. split; [exact Est|]. split; [exact F|]. split; [exact Bm|]. split; [exact Bp|].
    split; [exists k; auto|exact Hr].
Qed.

Fixpoint base_run (st : Z) (l : list pop) : option Z :=
  match l with
  | [] => Some st
  | o :: l => match base_step st o with Some st => base_run st l | None => None end
  end.
Lemma base_run_small l : forall st st', base_run st l = Some st' -> 0 <= st <= 5 -> 0 <= st' <= 5.
Proof.
  induction l as [|o l IH]; intros st st' E H; cbn [base_run] in E; [injection E as <-; exact H|].
  destruct (base_step st o) as [s1|] eqn:S; [|discriminate]. apply (IH s1); [exact E|].
  destruct o; cbn [base_step] in S; try discriminate;
  match type of S with (if ?c then _ else _) = _ => destruct c; [injection S as <-; lia|discriminate] end.
Qed.
Lemma prun_pre l : forall h st m p b st', R h st m p (Some b) -> 0 <= st <= 5 -> Forall pop_ok l ->
  base_run st (base_calls l) = Some st' ->
  exists h', prun h l = Ok (h', []) /\
   R h' st' (m ++ messages l) (p ++ concat (map proof_bytes (proofs l))) (Some (b ++ concat (map base_bytes (base_calls l)))).
Proof.
  induction l as [|o l IH]; intros h st m p b st' HR Hst Hl Hs.
  - cbn in Hs. injection Hs as <-. exists h. split; [reflexivity|]. cbn. rewrite !app_nil_r. exact HR.
  - apply Forall_cons_iff in Hl. destruct Hl as [Ho Hl]. cbn [base_calls filter] in Hs. cbn [prun].
    destruct (is_base o) eqn:Eb.
    + cbn [base_run] in Hs. destruct (base_step st o) as [s1|] eqn:S; [|discriminate].
      destruct (base_step_ok h st m p b o s1 HR Ho S) as (h1 & E1 & R1). rewrite E1. cbn [bind].
      assert (Hs1 : 0 <= s1 <= 5) by (apply (base_run_small [o] st); [cbn [base_run]; rewrite S; reflexivity|exact Hst]).
      destruct (IH h1 s1 m p _ st' R1 Hs1 Hl Hs) as (h2 & E2 & R2). rewrite E2. cbn [bind app].
      exists h2. split; [reflexivity|].
      assert (Q1 : messages (o :: l) = messages l) by (destruct o; try discriminate Eb; reflexivity).
      assert (Q2 : proofs (o :: l) = proofs l) by (destruct o; try discriminate Eb; reflexivity).
      rewrite Q1, Q2. cbn [base_calls filter]. rewrite Eb. cbn [map concat]. rewrite app_assoc. exact R2.
    + destruct (free_step_ok h st m p (Some b) o HR ltac:(lia) Ho Eb) as (h1 & E1 & R1). rewrite E1. cbn [bind].
      destruct (IH h1 st _ _ b st' R1 Hst Hl Hs) as (h2 & E2 & R2). rewrite E2. cbn [bind app].
      exists h2. split; [reflexivity|]. cbn [base_calls filter]. rewrite Eb.
      assert (Q1 : messages (o :: l) = messages [o] ++ messages l) by (unfold messages; cbn [map concat]; rewrite app_nil_r; reflexivity).
      assert (Q2 : proofs (o :: l) = proofs [o] ++ proofs l) by (unfold proofs; cbn [flat_map]; rewrite app_nil_r; reflexivity).
      rewrite Q1, Q2, map_app, concat_app, !app_assoc. exact R2.
Qed.
Lemma prun_mid l : forall h m p, R h 6 m p None -> Forall pop_ok l -> base_calls l = [] ->
  exists h', prun h l = Ok (h', []) /\ R h' 6 (m ++ messages l) (p ++ concat (map proof_bytes (proofs l))) None.
Proof.
  induction l as [|o l IH]; intros h m p HR Hl Hs.
  - exists h. split; [reflexivity|]. cbn. rewrite !app_nil_r. exact HR.
  - apply Forall_cons_iff in Hl. destruct Hl as [Ho Hl]. cbn [base_calls filter] in Hs. cbn [prun].
    destruct (is_base o) eqn:Eb; [discriminate|].
    destruct (free_step_ok h 6 m p None o HR ltac:(lia) Ho Eb) as (h1 & E1 & R1). rewrite E1. cbn [bind].
    destruct (IH h1 _ _ R1 Hl Hs) as (h2 & E2 & R2). rewrite E2. cbn [bind app].
    exists h2. split; [reflexivity|].
    assert (Q1 : messages (o :: l) = messages [o] ++ messages l) by (unfold messages; cbn [map concat]; rewrite app_nil_r; reflexivity).
    assert (Q2 : proofs (o :: l) = proofs [o] ++ proofs l) by (unfold proofs; cbn [flat_map]; rewrite app_nil_r; reflexivity).
    rewrite Q1, Q2, map_app, concat_app, !app_assoc. exact R2.
Qed.
Lemma base_done_ok h m p b : R h 5 m p (Some b) -> exists h', pstep h PBaseDone = Ok (h', []) /\ R h' 6 (m ++ K b) p None.
Proof.
  intros (Est & F & Bm & Bp & P & Bb & k & Ek & Fk). cbn [pstep]. unfold p_base_done. rewrite Est. cbn [Z.eqb Pos.eqb guard bind].
  rewrite Ek. rewrite (kf_digest k b Bb Fk). cbn [bind].
  destruct (hw_ok _ _ (K b) F (K_bytes b Bb)) as (k' & E' & F'). rewrite E'. cbn [bind]. eexists. split; [reflexivity|].
  split; [reflexivity|]. split; [exact F'|]. split; [apply bytes_ok_app; split; [exact Bm|apply K_bytes, Bb]|].
  split; [exact Bp|]. split; [exact P|reflexivity].
Qed.
Lemma digest_ok h m p : R h 6 m p None -> exists h', pstep h PDigest = Ok (h', [K (m ++ K p)]).
Proof.
  intros (Est & F & Bm & Bp & (k & Ek & Fk) & _). cbn [pstep]. unfold p_digest. rewrite Est. cbn [Z.eqb Pos.eqb guard bind].
  rewrite Ek. rewrite (kf_digest k p Bp Fk). cbn [bind].
  destruct (hw_ok _ _ (K p) F (K_bytes p Bp)) as (k' & E' & F'). rewrite E'. cbn [bind].
  rewrite (kf_digest k' (m ++ K p)); [|apply bytes_ok_app; split; [exact Bm|apply K_bytes, Bp]|exact F'].
  cbn [bind]. eexists. reflexivity.
Qed.
Lemma prun_app l1 : forall h l2, prun h (l1 ++ l2) =
  let* (h1, d1) := prun h l1 in let* (h2, d2) := prun h1 l2 in Ok (h2, d1 ++ d2).
Proof.
  induction l1 as [|o l1 IH]; intros h l2; cbn [app prun].
  - cbn [bind]. destruct (prun h l2) as [[h2 d2]|]; reflexivity.
  - destruct (pstep h o) as [[h1 d1]|]; [|reflexivity]. cbn [bind]. rewrite IH.
    destruct (prun h1 l1) as [[h2 d2]|]; [|reflexivity]. cbn [bind].
    destruct (prun h2 l2) as [[h3 d3]|]; [|reflexivity]. cbn [bind]. rewrite app_assoc. reflexivity.
Qed.

(** the whole run *)
Lemma run_ok pre mid : Forall pop_ok pre -> Forall pop_ok mid -> base_run 0 (base_calls pre) = Some 5 -> base_calls mid = [] ->
  exists h, prun pmh_new (pre ++ PBaseDone :: mid ++ [PDigest]) =
    Ok (h, [K (messages pre ++ K (concat (map base_bytes (base_calls pre))) ++ messages mid ++
               K (concat (map proof_bytes (proofs pre ++ proofs mid))))]).
Proof.
  intros H1 H2 Hb Hm. destruct (prun_pre pre _ _ _ _ _ 5 R_new ltac:(lia) H1 Hb) as (h1 & E1 & R1). cbn [app] in R1.
  rewrite prun_app, E1. cbn [bind]. 
  destruct (base_done_ok _ _ _ _ R1) as (h2 & E2 & R2). cbn [prun]. rewrite E2. cbn [bind].
  destruct (prun_mid mid _ _ _ R2 H2 Hm) as (h3 & E3 & R3). rewrite prun_app, E3. cbn [bind].
  destruct (digest_ok _ _ _ R3) as (h4 & E4). cbn [prun]. rewrite E4. cbn [bind app].
  exists h4. rewrite map_app, concat_app, <- !app_assoc. reflexivity.
Qed.

(** the prescribed order drives the automaton to the end *)
Lemma base_run_app l1 : forall st l2, base_run st (l1 ++ l2) = match base_run st l1 with Some s => base_run s l2 | None => None end.
Proof. induction l1 as [|o l1 IH]; intros st l2; [reflexivity|]. cbn [app base_run]. destruct (base_step st o); [apply IH|reflexivity]. Qed.
Lemma run_pseudo l : forall st, st = 2 \/ st = 3 -> base_run st (map PPseudo l) = Some (match l with [] => st | _ => 3 end).
Proof.
  induction l as [|x l IH]; intros st H; [reflexivity|]. cbn [map base_run base_step].
  replace ((st =? 2) || (st =? 3)) with true by lia. rewrite IH by (right; reflexivity). destruct l; reflexivity.
Qed.
Lemma run_ecdh l : forall st, st = 2 \/ st = 3 \/ st = 4 -> base_run st (map PEcdh l) = Some (match l with [] => st | _ => 4 end).
Proof.
  induction l as [|x l IH]; intros st H; [reflexivity|]. cbn [map base_run base_step].
  replace ((st =? 2) || (st =? 3) || (st =? 4)) with true by lia. rewrite IH by lia. destruct l; reflexivity.
Qed.
Lemma run_outs outs xs : Forall2 out_call outs xs -> forall st, st = 4 \/ st = 5 ->
  base_run st outs = Some (match outs with [] => st | _ => 5 end) /\ map base_bytes outs = xs.
Proof.
  induction 1 as [|o x outs xs Ho H IH]; intros st Hst; [split; reflexivity|].
  destruct (IH 5 ltac:(right; reflexivity)) as [I1 I2]. cbn [map base_run]. rewrite I2.
  destruct Ho as [->|(pk & -> & Nx)]; cbn [base_step base_bytes];
    replace ((st =? 4) || (st =? 5)) with true by lia; rewrite I1; (split; [destruct outs; reflexivity|]).
  - reflexivity.
  - destruct x; [congruence|reflexivity].
Qed.
Lemma base_spelled v simple outs : rctsig_ok v -> Forall2 out_call outs (v_outpk v) ->
  let l := [PInit simple; PTypeFee (v_type v) (v_fee v)] ++
      (if v_type v =? 2 then map PPseudo (v_pseudo v) else []) ++ map PEcdh (v_ecdh v) ++ outs in
  base_run 0 l = Some 5 /\
  exists cs, base_chunks v = Ok cs /\ Forall bytes_ok cs /\ concat cs = concat (map base_bytes l).
Proof.
  intros (Vm & Vt & Vf & Vp & Ve & Vo & Vl & Vn & Vr) Ho l. subst l.
  set (ps := if v_type v =? 2 then v_pseudo v else []).
  assert (EP : (if v_type v =? 2 then map PPseudo (v_pseudo v) else []) = map PPseudo ps) by (unfold ps; destruct (v_type v =? 2); reflexivity).
  assert (Bps : Forall bytes_ok ps) by (unfold ps; destruct (v_type v =? 2); [exact Vp|constructor]).
  rewrite EP. destruct (run_outs outs (v_outpk v) Ho 4 ltac:(left; reflexivity)) as [O1 O2].
  assert (No : outs <> []) by (intros ->; cbn [map] in O2; rewrite <- O2 in Vl; destruct (v_ecdh v); [congruence|discriminate]).
  split.
  - cbn [app base_run base_step]. replace ((0 =? 0)) with true by reflexivity. cbn [base_run base_step].
    replace ((1 =? 1) && (0 <=? v_fee v)) with true by lia.
    rewrite !base_run_app. rewrite run_pseudo by (left; reflexivity).
    rewrite base_run_app. rewrite run_ecdh by (destruct ps; auto).
    destruct (v_ecdh v) as [|e es]; [congruence|]. rewrite O1. destruct outs; [congruence|reflexivity].
  - unfold base_chunks. replace (v_type v =? 0) with false by lia. replace ((1 <=? v_type v) && (v_type v <=? 4)) with true by lia.
    cbn [negb]. unfold zlen. rewrite Vl, Z.eqb_refl. cbn [negb]. rewrite dump_uvarint_bytes.
    replace (v_fee v <? 0) with false by lia. cbn [bind]. eexists. split; [reflexivity|]. fold ps.
    assert (EC : forall es, concat (flat_map ecdh_chunks es) = concat (map base_bytes (map PEcdh es))).
    { induction es as [|e es IH]; [reflexivity|]. cbn [flat_map map concat]. rewrite concat_app, IH.
      destruct e; cbn [ecdh_chunks concat base_bytes ecdh_bytes]; rewrite app_nil_r; reflexivity. }
    split.
    + apply bytes_concat. rewrite !concat_app. cbn [concat]. rewrite app_nil_r. 
      apply bytes_ok_app. split; [apply bytes_ok_app; split; [repeat constructor; lia|apply varint_bytes, Vf]|].
      apply bytes_ok_app. split; [apply bytes_concat, Bps|]. apply bytes_ok_app. split; [|apply bytes_concat, Vo].
      rewrite EC. apply bytes_concat. rewrite map_map. apply Forall_map. exact Ve.
    + rewrite !map_app, !concat_app. rewrite O2. cbn [map concat base_bytes app]. rewrite !app_nil_r. cbn [app]. f_equal. f_equal.
      f_equal; [|f_equal; apply EC]. rewrite map_map. cbn [base_bytes]. rewrite map_id. reflexivity.
Qed.

(** the one-shot function *)
Lemma oneshot_ok v cs : rctsig_ok v -> base_chunks v = Ok cs -> Forall bytes_ok cs ->
  get_pre_mlsag_hash v = Ok (K (v_message v ++ K (concat cs) ++ K (concat (map proof_bytes (v_proofs v))))).
Proof.
  intros (Vm & Vt & Vf & Vp & Ve & Vo & Vl & Vn & Vr) Ec Bc. unfold get_pre_mlsag_hash.
  destruct (hw_ok _ _ (v_message v) kf_new Vm) as (m & E1 & F1). rewrite E1. cbn [bind app] in *. rewrite Ec. cbn [bind].
  destruct (hws_ok cs Bc _ _ kf_new) as (k & E2 & F2). rewrite E2. cbn [bind app] in *.
  assert (Bb : bytes_ok (concat cs)) by (apply bytes_concat, Bc).
  rewrite (kf_digest k _ Bb F2). cbn [bind].
  destruct (hw_ok _ _ (K (concat cs)) F1 (K_bytes _ Bb)) as (m2 & E3 & F3). rewrite E3. cbn [bind].
  set (kc := if (v_type v =? 3) || (v_type v =? 4) then _ else _).
  assert (exists kk, kc = Ok kk /\ kf kk (concat (map proof_bytes (v_proofs v)))) as (kk & E4 & F4).
  { unfold kc, v_proofs, is_bulletproof in *. destruct ((v_type v =? 3) || (v_type v =? 4)).
    - clear kc. assert (G : forall l, Forall (fun r => bytes_ok (proof_bytes r) /\ proof_wf r) (map RBp l) -> forall h b, kf h b ->
         exists kk, foldM (fun k p => updates k (bp_chunks p)) l h = Ok kk /\ kf kk (b ++ concat (map proof_bytes (map RBp l)))).
      { induction l as [|p l IH]; intros Hl h b F; cbn [map foldM concat]; [exists h; rewrite app_nil_r; auto|].
        cbn [map] in Hl. apply Forall_cons_iff in Hl. destruct Hl as [[Hb Hw] Hl].
        destruct (rsig_chunks_ok (RBp p) Hb Hw) as (c & Ep & Bp & Cp). cbn [rsig_chunks] in Ep. injection Ep as ->.
        destruct (updates_ok _ Bp h b F) as (h1 & Eu & Fu). rewrite Eu. cbn [bind]. rewrite Cp in Fu.
        destruct (IH Hl h1 _ Fu) as (h2 & E5 & F5). exists h2. rewrite app_assoc. auto. }
      apply (G _ Vr _ _ kf_new).
    - clear kc. assert (G : forall l, Forall (fun r => bytes_ok (proof_bytes r) /\ proof_wf r) (map RBorro l) -> forall h b, kf h b ->
         exists kk, foldM (fun k r => let* cs := rs_chunks r in updates k cs) l h = Ok kk /\ kf kk (b ++ concat (map proof_bytes (map RBorro l)))).
      { induction l as [|p l IH]; intros Hl h b F; cbn [map foldM concat]; [exists h; rewrite app_nil_r; auto|].
        cbn [map] in Hl. apply Forall_cons_iff in Hl. destruct Hl as [[Hb Hw] Hl].
        destruct (rsig_chunks_ok (RBorro p) Hb Hw) as (c & Ep & Bp & Cp). cbn [rsig_chunks] in Ep. rewrite Ep. cbn [bind].
        destruct (updates_ok _ Bp h b F) as (h1 & Eu & Fu). rewrite Eu. cbn [bind]. rewrite Cp in Fu.
        destruct (IH Hl h1 _ Fu) as (h2 & E5 & F5). exists h2. rewrite app_assoc. auto. }
      apply (G _ Vr _ _ kf_new). }
  rewrite E4. cbn [bind]. clear E4 kc.
  assert (Bp : bytes_ok (concat (map proof_bytes (v_proofs v)))).
  { apply bytes_concat. apply Forall_map. revert Vr. apply Forall_impl. tauto. }
  rewrite (kf_digest kk _ Bp F4). cbn [bind].
  destruct (hw_ok _ _ _ F3 (K_bytes _ Bp)) as (m3 & E5 & F5). rewrite E5. cbn [bind].
  assert (B5 : bytes_ok ((v_message v ++ K (concat cs)) ++ K (concat (map proof_bytes (v_proofs v))))).
  { apply bytes_ok_app; split; [apply bytes_ok_app; split; [exact Vm|apply K_bytes, Bb]|apply K_bytes, Bp]. }
  rewrite (kf_digest m3 _ B5 F5).
  cbn [bind]. rewrite <- !app_assoc. reflexivity.
Qed.

Lemma incremental_is_oneshot pre mid v : rctsig_ok v -> Forall pop_ok pre -> Forall pop_ok mid -> spells pre mid v ->
  exists h d, prun pmh_new (pre ++ PBaseDone :: mid ++ [PDigest]) = Ok (h, [d]) /\ get_pre_mlsag_hash v = Ok d.
Proof.
  intros V H1 H2 ((simple & outs & Ho & Hb) & Hm & M1 & M2 & HP).
  destruct (base_spelled v simple outs V Ho) as (B1 & cs & Ec & Bc & Cc). rewrite <- Hb in B1, Cc.
  destruct (run_ok pre mid H1 H2 B1 Hm) as (h & E). exists h. eexists. split; [exact E|].
  rewrite (oneshot_ok v cs V Ec Bc). rewrite Cc, M1, M2, HP. reflexivity.
Qed.

(** Every accepted history has that form. *)
Lemma base_step_inv h st m p b o h' ds : R h st m p (Some b) -> 0 <= st <= 5 -> is_base o = true -> o <> PBaseDone ->
  pstep h o = Ok (h', ds) -> exists st', base_step st o = Some st'.
Proof.
  intros HR Hst Hb Hd E. assert (Est : h_state h = st) by apply HR.
  destruct o as [s|x|t f|x|e|pk mask| |r| |]; cbn [is_base] in Hb; try discriminate Hb; try congruence; cbn [pstep base_step] in *.
  - unfold p_init in E. rewrite Est in E. destruct (st =? 0); [eauto|discriminate E].
  - unfold p_type_fee in E. rewrite Est in E. destruct (st =? 1); [|discriminate E]. cbn [guard bind] in E.
    rewrite dump_uvarint_bytes in E. destruct (f <? 0) eqn:Ef; [discriminate E|]. replace (0 <=? f) with true by lia. cbn. eauto.
  - unfold p_pseudo in E. rewrite Est in E. destruct ((st =? 2) || (st =? 3)); [eauto|discriminate E].
  - unfold p_ecdh in E. rewrite Est in E. destruct ((st =? 2) || (st =? 3) || (st =? 4)); [eauto|discriminate E].
  - unfold p_out_pk in E. rewrite Est in E. destruct ((st =? 4) || (st =? 5)); [eauto|discriminate E].
  - unfold p_digest in E. rewrite Est in E. replace (st =? 6) with false in E by lia. discriminate E.
Qed.
Lemma base_step6 h m p b o h' ds : R h 6 m p b -> is_base o = true -> o <> PDigest -> pstep h o = Ok (h', ds) -> False.
Proof.
  intros HR Hb Hd E. assert (Est : h_state h = 6) by apply HR.
  destruct o as [s|x|t f|x|e|pk mask| |r| |]; cbn [is_base] in Hb; try discriminate Hb; try congruence; cbn [pstep] in E;
  unfold p_init, p_type_fee, p_pseudo, p_ecdh, p_out_pk, p_base_done in E; rewrite Est in E; cbn in E; discriminate E.
Qed.
Lemma digested_state l : forall h h' ds, h_state h = 8 -> prun h l = Ok (h', ds) -> ds = [].
Proof.
  induction l as [|o l IH]; intros h h' ds H E; cbn [prun] in E; [injection E as _ <-; reflexivity|].
  destruct (pstep h o) as [[h1 d1]|] eqn:E1; [|discriminate E]. cbn [bind] in E.
  destruct (prun h1 l) as [[h2 d2]|] eqn:E2; [|discriminate E]. cbn [bind] in E. injection E as <- <-.
  assert (h_state h1 = 8 /\ d1 = []) as [G1 G2].
  { destruct o as [s|x|t f|x|e|pk mask| |r| |]; cbn [pstep] in E1;
      unfold p_init, p_type_fee, p_pseudo, p_ecdh, p_out_pk, p_base_done, p_digest, p_rsig, p_message in E1;
      try (rewrite H in E1; cbn in E1; discriminate E1).
    - destruct (hw_update (h_master h) x); [|discriminate E1]. cbn [bind] in E1. injection E1 as <- <-. auto.
    - injection E1 as <- <-. auto. }
  rewrite (IH _ _ _ G1 E2), G2. reflexivity.
Qed.
Lemma pre_inv l : forall h st m p b h' ds, R h st m p (Some b) -> 0 <= st <= 5 -> Forall pop_ok l ->
  prun h l = Ok (h', ds) -> ds <> [] ->
  exists pre rest, l = pre ++ PBaseDone :: rest /\ base_run st (base_calls pre) = Some 5.
Proof.
  induction l as [|o l IH]; intros h st m p b h' ds HR Hst Hl E Nd; cbn [prun] in E; [injection E as _ <-; congruence|].
  apply Forall_cons_iff in Hl. destruct Hl as [Ho Hl].
  destruct (is_base o) eqn:Eb.
  - destruct (pstep h o) as [[h1 d1]|] eqn:E1; [|discriminate E]. cbn [bind] in E.
    assert (D : o = PBaseDone \/ o <> PBaseDone) by (destruct o; (left; reflexivity) || (right; discriminate)).
    destruct D as [->|Nb].
    + assert (Est : h_state h = st) by apply HR. cbn [pstep] in E1. unfold p_base_done in E1. rewrite Est in E1.
      destruct (st =? 5) eqn:E5; [|discriminate E1]. apply Z.eqb_eq in E5. exists [], l. split; [reflexivity|]. cbn. congruence.
    + destruct (base_step_inv h st m p b o h1 d1 HR Hst Eb Nb E1) as (s1 & S).
      destruct (base_step_ok h st m p b o s1 HR Ho S) as (h2 & E2 & R2). rewrite E1 in E2. injection E2 as -> ->.
      destruct (prun h2 l) as [[h3 d3]|] eqn:E3; [|discriminate E]. cbn [bind app] in E. injection E as <- <-.
      assert (Hs1 : 0 <= s1 <= 5) by (apply (base_run_small [o] st); [cbn [base_run]; rewrite S; reflexivity|exact Hst]).
      destruct (IH _ _ _ _ _ _ _ R2 Hs1 Hl E3 Nd) as (pre & rest & -> & B).
      exists (o :: pre), rest. split; [reflexivity|]. cbn [base_calls filter]. rewrite Eb. cbn [base_run]. rewrite S. exact B.
  - destruct (free_step_ok h st m p (Some b) o HR ltac:(lia) Ho Eb) as (h1 & E1 & R1). rewrite E1 in E. cbn [bind] in E.
    destruct (prun h1 l) as [[h3 d3]|] eqn:E3; [|discriminate E]. cbn [bind app] in E. injection E as <- <-.
    destruct (IH _ _ _ _ _ _ _ R1 Hst Hl E3 Nd) as (pre & rest & -> & B).
    exists (o :: pre), rest. split; [reflexivity|]. cbn [base_calls filter]. rewrite Eb. exact B.
Qed.
Lemma mid_inv l : forall h m p h' ds, R h 6 m p None -> Forall pop_ok l -> prun h l = Ok (h', ds) -> ds <> [] ->
  exists mid post, l = mid ++ PDigest :: post /\ base_calls mid = [].
Proof.
  induction l as [|o l IH]; intros h m p h' ds HR Hl E Nd; cbn [prun] in E; [injection E as _ <-; congruence|].
  apply Forall_cons_iff in Hl. destruct Hl as [Ho Hl].
  destruct (is_base o) eqn:Eb.
  - destruct (pstep h o) as [[h1 d1]|] eqn:E1; [|discriminate E].
    assert (D : o = PDigest \/ o <> PDigest) by (destruct o; (left; reflexivity) || (right; discriminate)).
    destruct D as [->|Nb]; [exists [], l; auto|]. destruct (base_step6 _ _ _ _ _ _ _ HR Eb Nb E1).
  - destruct (free_step_ok h 6 m p None o HR ltac:(lia) Ho Eb) as (h1 & E1 & R1). rewrite E1 in E. cbn [bind] in E.
    destruct (prun h1 l) as [[h3 d3]|] eqn:E3; [|discriminate E]. cbn [bind app] in E. injection E as <- <-.
    destruct (IH _ _ _ _ _ R1 Hl E3 Nd) as (mid & post & -> & B).
    exists (o :: mid), post. split; [reflexivity|]. cbn [base_calls filter]. rewrite Eb. exact B.
Qed.

(** shape of the base calls accepted *)
Lemma shape5 l : base_run 5 l = Some 5 -> Forall is_out l.
Proof.
  induction l as [|o l IH]; intros E; [constructor|]. cbn [base_run] in E.
  destruct o; cbn [base_step] in E; try discriminate E. constructor; [eexists; eexists; reflexivity|]. apply IH, E.
Qed.
Lemma shape4 l : base_run 4 l = Some 5 -> exists es outs, l = map PEcdh es ++ outs /\ Forall is_out outs /\ outs <> [].
Proof.
  induction l as [|o l IH]; intros E; [discriminate E|]. cbn [base_run] in E.
  destruct o as [s|x|t f|x|e|pk mask| |r| |]; cbn [base_step] in E; try discriminate E.
  - destruct (IH E) as (es & outs & -> & H). exists (e :: es), outs. split; [reflexivity|exact H].
  - exists [], (POutPk pk mask :: l). split; [reflexivity|]. split; [|discriminate].
    constructor; [eexists; eexists; reflexivity|]. apply shape5, E.
Qed.
Lemma shape23 l : forall st, st = 2 \/ st = 3 -> base_run st l = Some 5 ->
  exists ps es outs, l = map PPseudo ps ++ map PEcdh es ++ outs /\ es <> [] /\ Forall is_out outs /\ outs <> [].
Proof.
  induction l as [|o l IH]; intros st Hst E; [cbn in E; injection E as ->; lia|]. cbn [base_run] in E.
  destruct o as [s|x|t f|x|e|pk mask| |r| |]; cbn [base_step] in E; try discriminate E;
    try (destruct Hst as [-> | ->]; discriminate E).
  - assert (E3 : base_run 3 l = Some 5) by (destruct Hst as [-> | ->]; exact E).
    destruct (IH 3 ltac:(right; reflexivity) E3) as (ps & es & outs & -> & H). exists (x :: ps), es, outs. split; [reflexivity|exact H].
  - assert (E4 : base_run 4 l = Some 5) by (destruct Hst as [-> | ->]; exact E).
    destruct (shape4 l E4) as (es & outs & -> & H). exists [], (e :: es), outs. split; [reflexivity|]. split; [discriminate|exact H].
Qed.
Lemma shape0 l : base_run 0 l = Some 5 -> exists s t f ps es outs,
  l = PInit s :: PTypeFee t f :: map PPseudo ps ++ map PEcdh es ++ outs /\ 0 <= f /\ es <> [] /\ Forall is_out outs /\ outs <> [].
Proof.
  destruct l as [|o l]; intros E; [discriminate E|]. cbn [base_run] in E.
  destruct o as [s|x|t f|x|e|pk mask| |r| |]; cbn [base_step] in E; try discriminate E.
  destruct l as [|o l]; [discriminate E|]. cbn [Z.eqb base_run] in E.
  destruct o as [s1|x|t f|x|e|pk mask| |r| |]; cbn [base_step] in E; try discriminate E.
  destruct (0 <=? f) eqn:Ef; [|discriminate E]. cbn in E.
  destruct (shape23 l 2 ltac:(left; reflexivity) E) as (ps & es & outs & -> & H).
  exists s, t, f, ps, es, outs. split; [reflexivity|]. split; [lia|exact H].
Qed.

Lemma history_form l h ds : Forall pop_ok l -> prun pmh_new l = Ok (h, ds) -> ds <> [] ->
  exists pre mid post, l = pre ++ PBaseDone :: mid ++ PDigest :: post /\
    (exists s t f ps es outs, base_calls pre = PInit s :: PTypeFee t f :: map PPseudo ps ++ map PEcdh es ++ outs /\
       0 <= f /\ es <> [] /\ Forall is_out outs /\ outs <> []) /\
    base_calls mid = [] /\
    (bytes_ok (messages pre) /\ bytes_ok (concat (map base_bytes (base_calls pre))) /\ bytes_ok (messages mid) /\
     bytes_ok (concat (map proof_bytes (proofs pre ++ proofs mid)))) /\
    ds = [K (messages pre ++ K (concat (map base_bytes (base_calls pre))) ++ messages mid ++
               K (concat (map proof_bytes (proofs pre ++ proofs mid))))].
Proof.
  intros Hl E Nd. destruct (pre_inv l _ _ _ _ _ _ _ R_new ltac:(lia) Hl E Nd) as (pre & rest & -> & B).
  apply Forall_app in Hl. destruct Hl as [Hp Hr]. apply Forall_cons_iff in Hr. destruct Hr as [_ Hr].
  destruct (prun_pre pre _ _ _ _ _ 5 R_new ltac:(lia) Hp B) as (h1 & E1 & R1).
  destruct (base_done_ok _ _ _ _ R1) as (h2 & E2 & R2).
  assert (E0 := E). rewrite prun_app, E1 in E. cbn [bind prun] in E. rewrite E2 in E. cbn [bind] in E.
  destruct (prun h2 rest) as [[h3 d3]|] eqn:E3; [|discriminate E]. cbn [bind app] in E. injection E as -> ->.
  destruct (mid_inv rest _ _ _ _ _ R2 Hr E3 Nd) as (mid & post & -> & Bm).
  apply Forall_app in Hr. destruct Hr as [Hm _].
  exists pre, mid, post. split; [reflexivity|]. split; [apply shape0, B|]. split; [exact Bm|].
  split.
  { destruct R1 as (_ & _ & Bm1 & Bp1 & _ & Bb1 & _). cbn [app] in Bm1, Bp1, Bb1.
    destruct (prun_mid mid _ _ _ R2 Hm Bm) as (h6 & _ & R6). destruct R6 as (_ & _ & Bm2 & Bp2 & _).
    apply bytes_ok_app in Bm2. rewrite map_app, concat_app. tauto. }
  destruct (run_ok pre mid Hp Hm B Bm) as (h4 & E4).
  replace (pre ++ PBaseDone :: mid ++ PDigest :: post) with ((pre ++ PBaseDone :: mid ++ [PDigest]) ++ post) in E0
    by (rewrite <- app_assoc; cbn [app]; rewrite <- app_assoc; reflexivity).
  rewrite prun_app, E4 in E0. cbn [bind] in E0.
  destruct (prun h4 post) as [[h5 d5]|] eqn:E5; [|discriminate E0]. cbn [bind] in E0. injection E0 as _ <-.
  assert (S8 : h_state h4 = 8).
  { replace (pre ++ PBaseDone :: mid ++ [PDigest]) with ((pre ++ PBaseDone :: mid) ++ [PDigest]) in E4 by (rewrite <- app_assoc; reflexivity).
    rewrite prun_app in E4. destruct (prun pmh_new (pre ++ PBaseDone :: mid)) as [[h6 d6]|]; [|discriminate E4]. cbn [bind prun] in E4.
    destruct (pstep h6 PDigest) as [[h7 d7]|] eqn:E7; [|discriminate E4]. cbn [bind] in E4. injection E4 as <- _.
    cbn [pstep] in E7. unfold p_digest in E7. destruct (guard _ _); [|discriminate E7]. cbn [bind] in E7.
    destruct (h_rsig h6); [|discriminate E7]. destruct (kh_digest k) as [[? c]|]; [|discriminate E7]. cbn [bind] in E7.
    destruct (hw_update (h_master h6) c) as [k2|]; [|discriminate E7]. cbn [bind] in E7.
    destruct (kh_digest k2) as [[? c2]|]; [|discriminate E7]. cbn [bind] in E7. injection E7 as <- _. reflexivity. }
  rewrite (digested_state _ _ _ _ S8 E5). reflexivity.
Qed.
