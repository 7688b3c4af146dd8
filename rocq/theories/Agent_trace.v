(** The exchanges of the honest agent: whenever sign_transaction_data returns, they form one complete session of the
    device, and the transaction is put together from its messages and answers. *)
From Coq Require Import Permutation Sorted.
From Verif Require Import Py PyLemmas Addr_model Addr_proof Lists_model Lists_spec Lists_proof Signer_model Signer_spec Signer_base Signer_inv Signer_step Signer_inv2 Signer_props2 Signer_props3 Agent_model Complete_proof1.

Section Trace.
  Context {C : ops} (cr : creds C) (tp : nat -> tape) (hs : nat -> Z).
  Notation conn := (conn C).

  (** the answer has the kind of the message *)
  Definition shape (m : msg) (r : resp) : Prop :=
    match m with
    | MInit _ => True
    | MSetInput _ => exists v tg p pt al sp, r = RSetInput v tg p pt al sp
    | MPerm _ => r = RPerm
    | MVini _ _ _ => r = RVini
    | MAllIn => exists o, r = RAllIn o
    | MSetOutput (Some _) _ _ false => r = ROffloaded \/ exists o vt rs mo pk ec, r = RSetOutput o vt rs mo pk ec
    | MSetOutput _ _ _ _ => r = ROffloaded
    | MAllOut => exists ex ph fee ty fm, r = RAllOut ex ph fee ty fm
    | MSign _ _ _ _ _ _ _ => exists sg po, r = RSign sg (enc_pt C po)
    | MFinal => exists a b c, r = RFinal a b c
    end.
  Lemma step_shape c b t m r b' : step (C := C) c b t m r b' -> shape m r.
  Proof.
    destruct 1; cbn [shape]; eauto 10.
    destruct dst; [destruct offl|]; auto.
  Qed.

  (** connection [s] of an agent that opened the session with [d] in state [st0] of the device *)
  Definition linked (st0 : option (builder C)) (d : tsx_data) (r0 : resp) (s : conn) (tr : list event) : Prop :=
    snd s = (tp 0%nat, MInit d, r0) :: tr /\ run C cr st0 (map fst (snd s)) = (fst s, map snd (snd s)) /\ r0 <> RFailure /\
    Forall (fun e => ~ is_init (snd (fst e)) /\ snd e <> RFailure /\ exists n, fst (fst e) = tp n) tr.

  Lemma run1 st t m : run C cr st [(t, m)] = (fst (tsx_sign C cr st t m), [snd (tsx_sign C cr st t m)]).
  Proof. cbn [run]. now destruct (tsx_sign C cr st t m). Qed.

  Lemma call_link st0 d r0 s tr m s' r : linked st0 d r0 s tr -> call C cr tp m s = Ok (s', r) -> ~ is_init m ->
    exists n, linked st0 d r0 s' (tr ++ [(tp n, m, r)]) /\ shape m r.
  Proof.
    intros (E1 & E2 & E3 & E4) H Hm. destruct s as [st ev]. cbn [fst snd] in *. unfold call in H. set (t := tp (length ev)) in *.
    destruct (tsx_sign C cr st t m) as [st' r'] eqn:E. assert (H' : r' <> RFailure /\ (st', ev ++ [(t, m, r')]) = s' /\ r' = r).
    { destruct r'; try discriminate; apply Ok_inj in H; apply pair_inj in H; destruct H as [<- <-]; (split; [discriminate|split; reflexivity]). }
    destruct H' as (Hr & <- & ->). exists (length ev). split.
    - unfold linked. cbn [fst snd]. split; [fold t; rewrite E1 at 1; reflexivity|]. split.
      + rewrite !map_app. cbn [map fst snd]. rewrite run_app, E2, run1. fold t. rewrite E. reflexivity.
      + split; [exact E3|]. apply Forall_app. split; [exact E4|]. constructor; [|constructor]. cbn [fst snd]. split; [exact Hm|]. split; [exact Hr|]. eauto.
    - apply tsx_sign_ok in E; [|exact Hr]. destruct E as (b & b' & Hs & _). eapply step_shape. apply sign_step; [exact Hm|exact Hs].
  Qed.
  Lemma linked_session st0 d r0 s tr : linked st0 d r0 s tr -> session C cr (tp 0%nat) d r0 tr.
  Proof.
    intros (E1 & E2 & E3 & E4). rewrite E1 in E2. exists st0, (fst s). split; [exact E2|]. split; [exact E3|]. eapply Forall_impl; [|exact E4]. intros e (H1 & H2 & _). auto.
  Qed.

  (** what the agent keeps of an input is what the device answered *)
  Definition same_in (i : in_data) (a : input_ack) : Prop :=
    id_src i = ia_src a /\ id_vini i = ia_vini a /\ id_tag i = ia_tag a /\ id_pseudo i = ia_pseudo a /\ id_pseudo_tag i = ia_pseudo_tag a /\
    id_alpha i = ia_alpha_ct a /\ id_spend i = ia_spend_ct a.
  (** the other contents are unchanged *)
  Definition keeps_in (tr tr' : list event) : Prop := inputs tr' = inputs tr.
  Definition keeps_pv (tr tr' : list event) : Prop := perms tr' = perms tr /\ vinis tr' = vinis tr.
  Definition keeps_out (tr tr' : list event) : Prop := outputs tr' = outputs tr /\ allouts tr' = allouts tr.

  Lemma inputs_trace st0 d r0 srcs : forall s acc tr s' ins, linked st0 d r0 s tr -> Forall2 same_in acc (inputs tr) ->
    foldM (fun '(s, acc) src =>
      let* (s, r) := call C cr tp (MSetInput src) s in
      match r with
      | RSetInput vini tag po ptag al sp =>
          Ok (s, acc ++ [{| id_src := src; id_vini := vini; id_tag := tag; id_pseudo := po; id_pseudo_tag := ptag; id_alpha := al; id_spend := sp |}])
      | _ => Err TypeError
      end) srcs (s, acc) = Ok (s', ins) ->
    exists tr', linked st0 d r0 s' tr' /\ Forall2 same_in ins (inputs tr') /\ map ia_src (inputs tr') = map ia_src (inputs tr) ++ srcs /\
      keeps_pv tr tr' /\ keeps_out tr tr' /\ signs tr' = signs tr /\ (forall det, sent det tr' = sent det tr).
  Proof.
    induction srcs as [|src srcs IH]; intros s acc tr s' ins HL HF H; cbn [foldM] in H.
    - apply Ok_inj in H. apply pair_inj in H. destruct H as [<- <-]. exists tr. rewrite app_nil_r. unfold keeps_pv, keeps_out. auto 10.
    - bnd H y Hy. bnd Hy z Hz. destruct z as [s1 r]. destruct (call_link _ _ _ _ _ _ _ _ HL Hz (fun x => x)) as (n & HL1 & Hsh).
      cbn [shape] in Hsh. destruct Hsh as (v & tg & po & ptg & al & sp & ->). apply Ok_inj in Hy. subst y.
      apply (IH _ _ _ _ _ HL1) in H.
      + destruct H as (tr' & A1 & A2 & A3 & A4 & A5 & A6 & A7). exists tr'. split; [exact A1|]. split; [exact A2|].
        setoid_rewrite sent_app in A7. cbn [sent flat_map] in A7. setoid_rewrite app_nil_r in A7.
        unfold keeps_pv, keeps_out in *. revert A3 A4 A5 A6. hist. rewrite map_app. cbn [map ia_src]. rewrite <- app_assoc. cbn [app]. auto.
      + hist. apply Forall2_app; [exact HF|]. constructor; [|constructor]. unfold same_in. cbn. auto 10.
  Qed.

  Lemma vinis_trace st0 d r0 ins : forall acks s tr s', Forall2 same_in ins acks -> linked st0 d r0 s tr ->
    foldM (fun s i => let* (s, _) := call C cr tp (MVini (id_src i) (id_vini i) (id_tag i)) s in Ok s) ins s = Ok s' ->
    exists tr', linked st0 d r0 s' tr' /\ vinis tr' = vinis tr ++ map (fun a => (ia_src a, ia_vini a, ia_tag a)) acks /\
      keeps_in tr tr' /\ perms tr' = perms tr /\ keeps_out tr tr' /\ signs tr' = signs tr /\ (forall det, sent det tr' = sent det tr).
  Proof.
    induction ins as [|i ins IH]; intros acks s tr s' HF HL H; inversion HF as [|? a ? l Ha Hl]; subst; cbn [foldM] in H.
    - apply Ok_inj in H. subst s'. exists tr. cbn [map]. rewrite app_nil_r. unfold keeps_in, keeps_out. auto 10.
    - bnd H y Hy. bnd Hy z Hz. destruct z as [s1 r]. destruct (call_link _ _ _ _ _ _ _ _ HL Hz (fun x => x)) as (n & HL1 & Hsh).
      cbn [shape] in Hsh. subst r. apply Ok_inj in Hy. subst y. apply (IH _ _ _ _ Hl HL1) in H.
      destruct H as (tr' & A1 & A2 & A3 & A4 & A5 & A6 & A7). exists tr'. split; [exact A1|].
      setoid_rewrite sent_app in A7. cbn [sent flat_map] in A7. setoid_rewrite app_nil_r in A7.
      unfold keeps_in, keeps_out in *. revert A2 A3 A4 A5 A6. hist. destruct Ha as (-> & -> & -> & _). cbn [map]. rewrite <- app_assoc. auto 10.
  Qed.

  Lemma signs_trace st0 d r0 x ins : forall acks s acc tr s' sigs, Forall2 same_in ins acks -> linked st0 d r0 s tr ->
    foldM (fun '(s, acc) i =>
      let* (s, r) := call C cr tp (MSign (id_src i) (id_vini i) (id_tag i) (Some (id_pseudo i)) (id_pseudo_tag i) (Some (id_alpha i)) (id_spend i)) s in
      match r with
      | RSign sig po =>
          Ok (s, acc ++ [(sig, if (0 <? tc_client_version x) && (0 <? zlen po) then po else id_pseudo i)])
      | _ => Err TypeError
      end) ins (s, acc) = Ok (s', sigs) ->
    exists tr' sg, (exists q, tr' = tr ++ q) /\ linked st0 d r0 s' tr' /\ signs tr' = signs tr ++ sg /\
      Forall2 (fun s a => sa_src s = ia_src a /\ sa_vini s = ia_vini a /\ sa_tag s = ia_tag a /\ sa_pseudo s = ia_pseudo a /\
        sa_pseudo_tag s = ia_pseudo_tag a /\ sa_alpha_ct s = ia_alpha_ct a /\ sa_spend_ct s = ia_spend_ct a) sg acks /\
      Forall (fun s => exists P, sa_pseudo_out s = enc_pt C P) sg /\
      sigs = acc ++ map (fun s => (sa_sig s, if (0 <? tc_client_version x) && (0 <? zlen (sa_pseudo_out s)) then sa_pseudo_out s else sa_pseudo s)) sg /\
      keeps_in tr tr' /\ keeps_pv tr tr' /\ keeps_out tr tr'.
  Proof.
    induction ins as [|i ins IH]; intros acks s acc tr s' sigs HF HL H; inversion HF as [|? a ? l Ha Hl]; subst; cbn [foldM] in H.
    - apply Ok_inj in H. apply pair_inj in H. destruct H as [<- <-]. exists tr, []. split; [exists []; now rewrite app_nil_r|]. cbn [map]. rewrite !app_nil_r. unfold keeps_in, keeps_pv, keeps_out. auto 15.
    - bnd H y Hy. bnd Hy z Hz. destruct z as [s1 r]. destruct (call_link _ _ _ _ _ _ _ _ HL Hz (fun x => x)) as (n & HL1 & Hsh).
      cbn [shape] in Hsh. destruct Hsh as (sg & po & ->). apply Ok_inj in Hy. subst y. apply (IH _ _ _ _ _ _ Hl HL1) in H.
      destruct H as (tr' & sgs & (q & Eq) & A1 & A2 & A3 & A4 & A5 & A6 & A7 & A8). exists tr'.
      match type of A2 with _ = signs (_ ++ [(_, ?m, ?r)]) ++ _ => exists ({| sa_src := id_src i; sa_vini := id_vini i; sa_tag := id_tag i; sa_pseudo := id_pseudo i; sa_pseudo_tag := id_pseudo_tag i;
            sa_alpha_ct := id_alpha i; sa_spend_ct := id_spend i; sa_sig := sg; sa_pseudo_out := enc_pt C po |} :: sgs) end.
      split; [rewrite <- app_assoc in Eq; eexists; exact Eq|]. split; [exact A1|]. split; [rewrite A2; hist; rewrite <- app_assoc; reflexivity|]. split; [constructor; [exact Ha|exact A3]|].
      split; [constructor; [eexists; reflexivity|exact A4]|]. split; [rewrite A5; cbn [map sa_sig sa_pseudo_out sa_pseudo]; rewrite <- app_assoc; reflexivity|].
      unfold keeps_in, keeps_pv, keeps_out in *. revert A6 A7 A8. hist. auto.
  Qed.

  (** position in the batches; after a full batch its proof was the last message *)
  Definition in_batches (batches n : list Z) (o : out_st C) (tr : list event) : Prop :=
    exists k, os_batch C o = Z.of_nat k /\ (k <= length batches)%nat /\ zsum (firstn k batches) + os_in_batch C o = zlen n /\ 0 <= os_in_batch C o /\
      (forall g, nth_error batches k = Some g -> os_in_batch C o < g) /\
      (os_in_batch C o = 0 -> n <> [] -> exists tr0 t m, tr = tr0 ++ [(t, m, ROffloaded)]).
  (** the outputs put together so far are those of the session *)
  (** the range proofs put together so far: those returned by the device, or those sent to it if it returned none *)
  Definition returned (tr : list event) : list (list Z) :=
    flat_map (fun o => match oa_rsig o with Some (x :: bs) => [x :: bs] | _ => [] end) (outputs tr).
  Definition proofs_of (x : construction) (offload : bool) (o : out_st C) (tr : list event) : Prop :=
    if offload then forall det, (det = true -> 1 <= tc_client_version x) -> returned tr = [] -> os_rsigs C o = sent det tr
    else os_rsigs C o = returned tr.
  Lemma dump_cons p bs : dump_rsig_bp C p = Ok bs -> exists y t, bs = y :: t.
  Proof.
    unfold dump_rsig_bp. destruct (bp_parts C p) as [[[hd L] R] tl]. intros H. bnd_guard H G. apply Ok_inj in H. subst bs. destruct (concat hd); cbn [app]; eauto.
  Qed.
  Lemma offload_cons dsts batches idx o bs : rct_offload C hs dsts batches idx o = Ok (Some bs) -> exists y t, bs = y :: t.
  Proof.
    unfold rct_offload. intros H. bnd H g Hg. destruct (os_in_batch C o <? g); [discriminate|]. bnd H a Ha. bnd H b Hb. bnd H p Hp. bnd H bs' Hbs. apply Ok_inj in H. apply Some_inj in H. subst bs'.
    eapply dump_cons. exact Hbs.
  Qed.
  Definition outs_of (x : construction) (offload : bool) (batches n : list Z) (o : out_st C) (tr : list event) : Prop :=
    proofs_of x offload o tr /\ Forall2 (fun i a => py_get (tc_dsts x) i = Ok (oa_dst a)) n (outputs tr) /\
    os_vout C o = map oa_tx_out (outputs tr) /\ os_ecdh C o = map oa_ecdh (outputs tr) /\ os_out_pk C o = map oa_out_pk (outputs tr) /\
    ((1 <=? tc_client_version x) && offload = true -> Forall (fun g => 0 < g) batches -> in_batches batches n o tr).
  Lemma output_trace st0 d r0 x tags offload batches o idx o' tr n : linked st0 d r0 (os_conn C o) tr -> outs_of x offload batches n o tr ->
    agent_output C cr tp hs x tags offload batches o idx = Ok o' ->
    exists tr', linked st0 d r0 (os_conn C o') tr' /\ outs_of x offload batches (n ++ [idx]) o' tr' /\
      keeps_in tr tr' /\ keeps_pv tr tr' /\ allouts tr' = allouts tr /\ signs tr' = signs tr.
  Proof.
    intros HL (O0 & O1 & O2 & O3 & O4 & O5) H. unfold agent_output in H. bnd H dst Hd. bnd H tag Ht. bnd H pre Hp. bnd H z Hz. destruct z as [s1 r].
    match type of Hz with call _ _ _ ?m (os_conn _ ?oo) = _ => assert (E : os_conn C oo = os_conn C o) by (destruct pre; reflexivity); rewrite E in Hz;
      assert (EB : os_batch C oo = os_batch C o /\ os_in_batch C oo = os_in_batch C o + 1) by (destruct pre; split; reflexivity);
      set (o1 := oo) in * end.
    destruct (call_link _ _ _ _ _ _ _ _ HL Hz (fun x => x)) as (k & HL1 & Hsh). cbn [shape] in Hsh.
    destruct Hsh as [->|(t_o & vt & rs & mo & pk & ec & ->)]; [discriminate|].
    set (e1 := (tp k, MSetOutput (Some dst) tag pre false, RSetOutput t_o vt rs mo pk ec)) in *.
    assert (Q : exists tr', linked st0 d r0 (os_conn C o') tr' /\ (tr' = tr ++ [e1] \/ exists k2 bs, tr' = (tr ++ [e1]) ++ [(tp k2, MSetOutput None [] (Some bs) true, ROffloaded)]) /\
        ((1 <=? tc_client_version x) && offload = true -> Forall (fun g => 0 < g) batches -> in_batches batches (n ++ [idx]) o' tr') /\ proofs_of x offload o' tr').
    { assert (Hpre : os_rsigs C o1 = os_rsigs C o ++ match pre with Some bs => [bs] | None => [] end /\
        match pre with Some bs => (tc_client_version x =? 0) && offload = true /\ exists y t, bs = y :: t | None => True end).
      { subst o1. destruct pre as [bs|]; cbn [os_rsigs]; [|split; [symmetry; apply app_nil_r|exact I]]. split; [reflexivity|].
        destruct ((tc_client_version x =? 0) && offload); [|discriminate]. split; [reflexivity|]. exact (offload_cons _ _ _ _ _ Hp). }
      assert (Hret : forall tr', returned (tr ++ e1 :: tr') = [] -> returned tr = [] /\ (forall y ys, rs <> Some (y :: ys))).
      { intros tr'. unfold returned, e1. hist. rewrite flat_map_app. cbn [flat_map oa_rsig]. intros X. apply app_eq_nil in X. destruct X as [X Y]. split; [exact X|]. intros y ys ->. discriminate. }
      destruct Hpre as [Hpre Hpn].
      destruct ((1 <=? tc_client_version x) && offload) eqn:Ebo.
      - assert (Hin : forall (o2 : out_st C) q, os_batch C o2 = os_batch C o -> os_in_batch C o2 = os_in_batch C o + 1 ->
            rct_offload C hs (tc_dsts x) batches idx o2 = Ok q -> Forall (fun g => 0 < g) batches ->
            exists k, os_batch C o = Z.of_nat k /\ (k < length batches)%nat /\ zsum (firstn k batches) + os_in_batch C o = zlen n /\ 0 <= os_in_batch C o /\
              (match q with None => forall g, nth_error batches k = Some g -> os_in_batch C o + 1 < g | Some _ => nth_error batches k = Some (os_in_batch C o + 1) end)).
        { intros o2 q B1 B2 Hq Hg. destruct (O5 eq_refl Hg) as (i & I1 & I2 & I3 & I4 & I5 & I6). exists i. unfold rct_offload in Hq. bnd Hq g Hgg.
          rewrite B1, I1 in Hgg. apply py_get_nat in Hgg. rewrite B2 in Hq. split; [exact I1|].
          split; [apply nth_error_Some; congruence|]. split; [exact I3|]. split; [exact I4|]. specialize (I5 _ Hgg).
          destruct (os_in_batch C o + 1 <? g) eqn:El.
          - apply Ok_inj in Hq. subst q. intros g' Hg'. assert (g' = g) by congruence. subst. now apply Z.ltb_lt.
          - apply Z.ltb_ge in El. bnd Hq a Ha. bnd Hq b Hb. bnd Hq c Hc. bnd Hq e He. apply Ok_inj in Hq. subst q. rewrite Hgg. f_equal. lia. }
        bnd H q Hq. pose proof (fun E1 E2 => Hin _ q E1 E2 Hq) as Hi. specialize (Hi (proj1 EB) (proj2 EB)). clear Hin. destruct q as [bs|].
        + bnd H z Hz2. destruct z as [s2 r2]. destruct (call_link _ _ _ _ _ _ _ _ HL1 Hz2 (fun x => x)) as (k2 & HL2 & Hs2). cbn [shape] in Hs2. subst r2.
          apply Ok_inj in H. eexists. split; [rewrite <- H; exact HL2|]. split; [right; eexists _, _; reflexivity|]. split; cycle 1.
          { destruct (offload_cons _ _ _ _ _ Hq) as (y & ys & ->). unfold proofs_of in *. destruct offload; [|rewrite andb_false_r in Ebo; discriminate]. intros det Hdet Hr. rewrite <- app_assoc in Hr. destruct (Hret _ Hr) as [Hr' _].
            rewrite <- H. cbn [os_rsigs]. rewrite Hpre. rewrite !sent_app. rewrite <- (O0 det Hdet Hr'). destruct pre as [pb|]; [destruct Hpn as [Hpn _]; lia|]. rewrite !app_nil_r. reflexivity. }
          intros _ Hg. destruct (Hi Hg) as (i & I1 & I2 & I3 & I4 & I5). exists (S i). rewrite <- H. cbn [os_batch os_in_batch]. rewrite (proj1 EB).
          split; [lia|]. split; [lia|]. split; [rewrite (zsum_firstn_S _ _ _ I5); unfold zlen in *; rewrite app_length; cbn [length]; lia|].
          split; [lia|]. split; [intros g Hgg; rewrite Forall_forall in Hg; apply Hg; eapply nth_error_In; exact Hgg|]. intros _ _. eexists _, _, _. reflexivity.
        + apply Ok_inj in H. exists (tr ++ [e1]). split; [rewrite <- H; exact HL1|]. split; [left; reflexivity|]. split; cycle 1.
          { unfold proofs_of in *. destruct offload; [|rewrite andb_false_r in Ebo; discriminate]. intros det Hdet Hr. destruct (Hret _ Hr) as [Hr' _].
            rewrite <- H. cbn [os_rsigs]. rewrite Hpre. rewrite sent_app. rewrite <- (O0 det Hdet Hr'). destruct pre as [pb|]; [destruct Hpn as [Hpn _]; lia|]. reflexivity. }
          intros _ Hg. destruct (Hi Hg) as (i & I1 & I2 & I3 & I4 & I5). exists i. rewrite <- H. cbn [os_batch os_in_batch]. rewrite (proj1 EB), (proj2 EB).
          split; [exact I1|]. split; [lia|]. split; [unfold zlen in *; rewrite app_length; cbn [length]; lia|]. split; [lia|]. split; [exact I5|]. intros X. lia.
      - exists (tr ++ [e1]). split; [destruct rs as [[|b bs]|]; apply Ok_inj in H; subst o'; exact HL1|]. split; [left; reflexivity|]. split; [discriminate|].
        unfold proofs_of in *. destruct offload.
        + intros det Hdet Hr. destruct (Hret _ Hr) as [Hr' Hn].
          assert (Eo' : os_rsigs C o' = os_rsigs C o1) by (destruct rs as [[|y ys]|]; [|now destruct (Hn y ys)|]; apply Ok_inj in H; subst o'; reflexivity).
          rewrite Eo', Hpre, sent_app, <- (O0 det Hdet Hr'). f_equal. destruct pre as [bs|]; [|reflexivity]. destruct Hpn as [Hpn (y & ys & ->)].
          destruct det; [specialize (Hdet eq_refl); lia|reflexivity].
        + assert (pre = None) as -> by (destruct pre as [bs|]; [destruct Hpn as [Hpn _]; rewrite andb_false_r in Hpn; discriminate|reflexivity]).
          rewrite app_nil_r in Hpre. unfold returned, e1. hist. rewrite flat_map_app. cbn [flat_map oa_rsig]. fold (returned tr). rewrite <- O0, <- Hpre.
          destruct rs as [[|y ys]|]; apply Ok_inj in H; subst o'; cbn [os_rsigs]; rewrite ?app_nil_r; reflexivity. }
    assert (V : os_vout C o' = os_vout C o ++ [t_o] /\ os_ecdh C o' = os_ecdh C o ++ [ec] /\ os_out_pk C o' = os_out_pk C o ++ [pk]).
    { clear Q. subst o1. destruct ((1 <=? tc_client_version x) && offload).
      - bnd H q Hq. destruct q as [bs|]; [|apply Ok_inj in H; subst o'; destruct pre; auto].
        bnd H z Hz2. destruct z as [s2 r2]. apply Ok_inj in H. subst o'. destruct pre; auto.
      - destruct rs as [[|b bs]|]; apply Ok_inj in H; subst o'; destruct pre; auto. }
    destruct V as (V1 & V2 & V3). destruct Q as (tr' & Q1 & Q2 & Q3 & Q4). exists tr'. split; [exact Q1|].
    assert (Eo : outputs tr' = outputs tr ++ [{| oa_dst := dst; oa_tag := tag; oa_tx_out := t_o; oa_rsig := rs; oa_out_pk := pk; oa_ecdh := ec |}] /\
      inputs tr' = inputs tr /\ perms tr' = perms tr /\ vinis tr' = vinis tr /\ allouts tr' = allouts tr /\ signs tr' = signs tr).
    { destruct Q2 as [->|(k2 & bs & ->)]; unfold e1; hist; auto 10. }
    destruct Eo as (Eo & E1 & E2 & E3 & E4 & E5). split; [|unfold keeps_in, keeps_pv; auto].
    unfold outs_of. split; [exact Q4|]. rewrite V1, V2, V3, Eo, O2, O3, O4, !map_app. split; [apply Forall2_app; [exact O1|]; constructor; [exact Hd|constructor]|]. auto.
  Qed.
  Lemma outputs_trace st0 d r0 x tags offload batches l : forall o o' tr n, linked st0 d r0 (os_conn C o) tr -> outs_of x offload batches n o tr ->
    foldM (agent_output C cr tp hs x tags offload batches) l o = Ok o' ->
    exists tr', linked st0 d r0 (os_conn C o') tr' /\ outs_of x offload batches (n ++ l) o' tr' /\
      keeps_in tr tr' /\ keeps_pv tr tr' /\ allouts tr' = allouts tr /\ signs tr' = signs tr.
  Proof.
    induction l as [|i l IH]; intros o o' tr n HL HO H; cbn [foldM] in H.
    - apply Ok_inj in H. subst o'. exists tr. rewrite app_nil_r. unfold keeps_in, keeps_pv. auto 10.
    - bnd H o1 H1. destruct (output_trace _ _ _ _ _ _ _ _ _ _ _ _ HL HO H1) as (tr1 & L1 & O1 & K1 & (K2 & K3) & K4 & K5).
      destruct (IH _ _ _ _ L1 O1 H) as (tr2 & L2 & O2 & J1 & (J2 & J3) & J4 & J5). exists tr2. split; [exact L2|].
      rewrite <- app_assoc in O2. split; [exact O2|]. unfold keeps_in, keeps_pv in *. repeat split; congruence.
  Qed.
End Trace.

(** ** The order of the inputs *)
Lemma bytes_ltb_asym : forall a b, bytes_ltb a b = true -> bytes_ltb b a = false.
Proof.
  induction a as [|x a IH]; intros [|y b]; cbn [bytes_ltb]; try reflexivity; try discriminate. rewrite (Z.eqb_sym y x). destruct (Z.eqb_spec x y); [apply IH|]. lia.
Qed.
Lemma ins_desc_sorted key x : forall l, Sorted (fun i j => bytes_ltb (key i) (key j) = false) l -> Sorted (fun i j => bytes_ltb (key i) (key j) = false) (ins_desc key x l).
Proof.
  induction l as [|h t IH]; intros H; cbn [ins_desc]; [repeat constructor|]. destruct (bytes_ltb (key h) (key x)) eqn:E1; cbn [orb].
  - constructor; [exact H|]. constructor. now apply bytes_ltb_asym.
  - destruct (negb (bytes_ltb (key x) (key h)) && (x <? h)) eqn:E2.
    + constructor; [exact H|]. constructor. apply andb_prop in E2. destruct E2 as [E2 _]. now apply negb_true_iff.
    + apply Sorted_inv in H. destruct H as [H1 H2]. constructor; [auto|]. destruct t as [|z t]; cbn [ins_desc]; [now constructor|]. destruct (_ || _); constructor; [exact E1|]. now inversion H2.
Qed.
Lemma sort_desc_sorted key l : Sorted (fun i j => bytes_ltb (key i) (key j) = false) (sort_desc key l).
Proof. induction l as [|x l IH]; [constructor|]. cbn [sort_desc fold_right]. apply ins_desc_sorted, IH. Qed.
Lemma Sorted_map {A B} (f : A -> B) (R : B -> B -> Prop) l : Sorted (fun a b => R (f a) (f b)) l <-> Sorted R (map f l).
Proof.
  induction l as [|x l IH]; cbn [map]; [split; constructor|]. split; intros H; apply Sorted_inv in H; destruct H as [H1 H2]; constructor; try (now apply IH); destruct l; cbn [map] in *; constructor; now inversion H2.
Qed.

Section Whole.
  Context {C : ops} (cr : creds C) (tp : nat -> tape) (hs : nat -> Z).

  (** the session of a run of the agent, and the transaction it returned *)
  Record agent_run (x : construction) (ev : list event) (sg : signed) (d : tsx_data) (r0 : resp) (tr : list event)
                   (p : list Z) (ins : list input_ack) (fm : list Z) : Prop := {
    ar_events : ev = (tp 0%nat, MInit d, r0) :: tr;
    ar_init : agent_init x = Ok d;
    ar_session : session C cr (tp 0%nat) d r0 tr;
    ar_final : In KFinal (kinds tr);
    ar_tapes : Forall (fun e => exists n, fst (fst e) = tp n) tr;
    ar_sources : map ia_src (inputs tr) = tc_sources x;
    ar_perm : perms tr = [p];
    ar_permutation : Permutation p (zrange (zlen (tc_sources x)));
    (* [ins]: the inputs in the order of the permutation *)
    ar_ins : Permutation ins (inputs tr);
    ar_nth : forall j i, nth_error p j = Some i -> 0 <= i /\ nth_error ins j = nth_error (inputs tr) (Z.to_nat i);
    ar_vinis : vinis tr = map (fun a => (ia_src a, ia_vini a, ia_tag a)) ins;
    ar_signs : Forall2 (fun s a => sa_src s = ia_src a /\ sa_vini s = ia_vini a /\ sa_tag s = ia_tag a /\ sa_pseudo s = ia_pseudo a /\
        sa_pseudo_tag s = ia_pseudo_tag a /\ sa_alpha_ct s = ia_alpha_ct a /\ sa_spend_ct s = ia_spend_ct a) (signs tr) ins;
    ar_pseudo : Forall (fun s => exists P, sa_pseudo_out s = enc_pt C P) (signs tr);
    ar_outputs : map oa_dst (outputs tr) = tc_dsts x;
    ar_allout : exists ph blob, allouts tr = [(sg_extra sg, ph, sg_fee sg, sg_type sg, fm)] /\
        prefix_blob (sg_unlock sg) (sg_vin sg) (sg_vout sg) (sg_extra sg) = Ok blob /\ ph = cn_hash C blob /\
        oneshot C ph (sg_type sg) (sg_fee sg) (sg_ecdh sg) (sg_out_pk sg) (sg_rsigs sg) = Ok fm;
    ar_unlock : sg_unlock sg = tc_unlock_time x;
    ar_vin : sg_vin sg = map ia_vini ins;
    ar_sorted : Sorted (fun a b => bytes_ltb (k_image a) (k_image b) = false) (sg_vin sg);
    ar_vout : sg_vout sg = map oa_tx_out (outputs tr);
    ar_ecdh : sg_ecdh sg = map oa_ecdh (outputs tr);
    ar_out_pk : sg_out_pk sg = map (fun o => skipn 32 (oa_out_pk o)) (outputs tr);
    ar_sigs : sg_sigs sg = map sa_sig (signs tr);
    ar_pseudo_outs : sg_pseudo_outs sg =
        map (fun s => if (0 <? tc_client_version x) && (0 <? zlen (sa_pseudo_out s)) then sa_pseudo_out s else sa_pseudo s) (signs tr);
    ar_proofs : exists tr1 t ex ph fee ty fm tr2, tr = tr1 ++ (t, MAllOut, RAllOut ex ph fee ty fm) :: tr2 /\
        (forall tags offload, r0 = RInit tags offload ->
           if offload then forall det, (det = true -> 1 <= tc_client_version x) -> returned tr1 = [] -> sg_rsigs sg = sent det tr1
           else sg_rsigs sg = returned tr1) /\
        (forall tags offload, r0 = RInit tags offload -> (1 <=? tc_client_version x) && offload = true -> 0 < zlen (tc_dsts x) ->
         Forall (fun g => 0 < g) (td_grouping d) -> zsum (td_grouping d) = zlen (tc_dsts x) ->
         exists tr0 t m, tr1 = tr0 ++ [(t, m, ROffloaded)])
  }.

  Lemma Forall2_nth_r {A B} (R : A -> B -> Prop) l m : Forall2 R l m -> forall j b, nth_error m j = Some b -> exists a, nth_error l j = Some a /\ R a b.
  Proof. induction 1 as [|a b l m H _ IH]; intros [|j] y Hy; try discriminate; cbn in *; [injection Hy as <-; eauto|eauto]. Qed.
  Lemma Forall2_of_nth {A B} (R : A -> B -> Prop) l : forall m, length l = length m -> (forall j a b, nth_error l j = Some a -> nth_error m j = Some b -> R a b) -> Forall2 R l m.
  Proof.
    induction l as [|a l IH]; intros [|b m] HL H; try discriminate; constructor; [exact (H O a b eq_refl eq_refl)|]. apply IH; [now injection HL|]. intros j. exact (H (S j)).
  Qed.
  Lemma Forall2_len {A B} (R : A -> B -> Prop) l m : Forall2 R l m -> length l = length m.
  Proof. induction 1; cbn; congruence. Qed.
  Lemma gets_all {A} (l : list A) (m : list A) : Forall2 (fun i a => py_get l i = Ok a) (zrange (zlen l)) m -> m = l.
  Proof.
    intros H. apply nth_ext_error; [rewrite <- (Forall2_len _ _ _ H); unfold zrange, zlen; rewrite map_length, seq_length; lia|].
    intros j a b Ha Hb. destruct (Forall2_nth_r _ _ _ H j a Ha) as (i & Hi & Hg). 
    assert (Hj : (j < length l)%nat) by (apply nth_error_Some; congruence).
    rewrite nth_zrange in Hi by (unfold zlen; lia). injection Hi as <-. apply py_get_nat in Hg. congruence.
  Qed.

  Lemma agent_traced x st st' ev sg : sign_transaction_data C cr tp hs x st = Ok ((st', ev), sg) ->
    exists d r0 tr p ins fm, agent_run x ev sg d r0 tr p ins fm.
  Proof.
    intros H. unfold sign_transaction_data in H. bnd H d Hd. bnd H z Hz. destruct z as [s0 r0]. destruct r0 as [|tags offload| | | | | | | | |]; try discriminate.
    assert (HL0 : linked cr tp st d (RInit tags offload) s0 []).
    { unfold call in Hz. cbn [length] in Hz. destruct (tsx_sign C cr st (tp 0%nat) (MInit d)) as [st1 r1] eqn:E.
      assert (r1 = RInit tags offload /\ s0 = (st1, [(tp 0%nat, MInit d, r1)])) as (-> & ->).
      { destruct r1; try discriminate; apply Ok_inj in Hz; apply pair_inj in Hz; destruct Hz as [<- X]; try discriminate X; auto. }
      unfold linked. cbn [fst snd map]. split; [reflexivity|]. split; [rewrite run1, E; reflexivity|]. split; [discriminate|constructor]. }
    bnd H z Hi. destruct z as [s1 ins0]. unfold agent_inputs in Hi.
    destruct (inputs_trace _ _ _ _ _ _ _ _ _ _ _ HL0 (Forall2_nil _) Hi) as (tr1 & L1 & F1 & S1 & (Pm1 & V1) & (O1 & A1) & G1 & N1). cbn in S1, Pm1, V1, O1, A1, G1. clear Hi HL0.
    match type of H with context [MPerm ?q] => set (p := q) in * end.
    assert (HP : Permutation p (zrange (zlen (tc_sources x)))) by apply sort_desc_perm.
    assert (Hl1 : length (inputs tr1) = length (tc_sources x)) by (rewrite <- S1; now rewrite map_length).
    bnd H ins Hins. pose proof (apply_permutation_spec _ p ins0) as AP. rewrite Hins in AP.
    assert (Hlp : length p = length (tc_sources x)) by (rewrite (Permutation_length HP); unfold zrange, zlen; rewrite map_length, seq_length; lia).
    destruct AP as (_ & AL & AN); [rewrite (Forall2_len _ _ _ F1); lia|].
    assert (HP' : Permutation p (zrange (Z.of_nat (length (inputs tr1))))) by (rewrite Hl1; exact HP).
    destruct (perm_list (inputs tr1) p HP') as (acks & Hpk & Hpl & Hnth).
    assert (F2 : Forall2 same_in ins acks).
    { apply Forall2_of_nth; [rewrite AL, (Forall2_len _ _ _ F1); rewrite (Permutation_length Hpk); reflexivity|].
      intros j i a Hj Ha. assert (Hjl : (j < length p)%nat) by (rewrite Hlp, <- Hl1, <- (Permutation_length Hpk); apply nth_error_Some; congruence).
      destruct (nth_error p j) as [q|] eqn:Eq; [|apply nth_error_None in Eq; lia]. destruct (Hnth _ _ Eq) as (Hq & E). rewrite E in Ha.
      rewrite (AN _ Hjl), (nth_error_nth _ _ 0 Eq) in Hj. destruct (Forall2_nth_r _ _ _ F1 _ _ Ha) as (i' & Hi' & Hs). congruence. }
    assert (SO : Sorted (fun a b => bytes_ltb (k_image a) (k_image b) = false) (map ia_vini acks)).
    { pose proof (sort_desc_sorted (fun i => match py_get ins0 i with Ok a => k_image (id_vini a) | Err _ => [] end) (zrange (zlen (tc_sources x)))) as SD. fold p in SD.
      apply (proj1 (Sorted_map _ (fun a b => bytes_ltb a b = false) _)) in SD. apply (proj2 (Sorted_map k_image (fun a b => bytes_ltb a b = false) _)). 
      match type of SD with Sorted _ ?u => match goal with |- Sorted _ ?w => replace w with u; [exact SD|] end end.
      apply nth_ext_error; [rewrite !map_length, (Permutation_length Hpk); lia|]. intros j u w Hu Hw. rewrite nth_error_map in Hu. rewrite !nth_error_map in Hw.
      destruct (nth_error p j) as [q|] eqn:Eq; [|discriminate]. destruct (nth_error acks j) as [a|] eqn:Ea; [|discriminate]. cbn [option_map] in Hu, Hw. apply Some_inj in Hu, Hw.
      destruct (Hnth _ _ Eq) as (Hq & E). assert (Hjl : (j < length p)%nat) by (apply nth_error_Some; congruence).
      destruct (Forall2_nth_r _ _ _ F2 _ _ Ea) as (i & Hi & (_ & Ev & _)). rewrite (AN _ Hjl), (nth_error_nth _ _ 0 Eq) in Hi.
      rewrite <- Hu, <- Hw, <- Ev. replace q with (Z.of_nat (Z.to_nat q)) by lia. apply py_get_nat in Hi. rewrite Hi. reflexivity. }
    bnd H z Hz2. destruct z as [s2 r2]. destruct (call_link _ _ _ _ _ _ _ _ _ _ L1 Hz2 (fun x => x)) as (k2 & L2 & Sh2). cbn [shape] in Sh2. subst r2.
    bnd H s3 Hv. destruct (vinis_trace _ _ _ _ _ _ _ _ _ _ F2 L2 Hv) as (tr3 & L3 & V3 & K3 & P3 & (O3 & A3) & G3 & N3). unfold keeps_in in K3.
    assert (Sn0 : forall det, sent det tr3 = []) by (intros det; rewrite N3, sent_app, N1; reflexivity).
    revert V3 K3 P3 O3 A3 G3. hist. rewrite ?Pm1, ?V1, ?O1, ?A1, ?G1. cbn [app]. intros V3 K3 P3 O3 A3 G3.
    bnd H z Hz4. destruct z as [s4 r4]. destruct (call_link _ _ _ _ _ _ _ _ _ _ L3 Hz4 (fun x => x)) as (k4 & L4 & Sh4). cbn [shape] in Sh4. destruct Sh4 as (mo & ->).
    bnd H gm Hg. bnd H o Ho.
    match type of Ho with foldM _ _ ?o0 = _ => assert (OO : outs_of x offload (td_grouping d) [] o0 (tr3 ++ [(tp k4, MAllIn, RAllIn mo)])) end.
    { unfold outs_of. split; [unfold proofs_of, returned; hist; rewrite O3; destruct offload; [intros det _ _|reflexivity]; cbn [os_rsigs]; rewrite sent_app; rewrite (Sn0 det); reflexivity|]. hist. rewrite O3. cbn [map os_vout os_ecdh os_out_pk]. do 4 (split; [first [constructor|reflexivity]|]). intros _ Hgr. exists 0%nat. cbn [os_batch os_in_batch firstn].
      split; [reflexivity|]. split; [lia|]. split; [reflexivity|]. split; [lia|]. split; [|intros _ X; now destruct X].
      intros g Hgg. rewrite Forall_forall in Hgr. apply Hgr. eapply nth_error_In. exact Hgg. }
    match type of Ho with foldM _ _ ?o0 = _ => assert (L4' : linked cr tp st d (RInit tags offload) (os_conn C o0) (tr3 ++ [(tp k4, MAllIn, RAllIn mo)])) by exact L4 end.
    destruct (outputs_trace cr tp hs _ _ _ _ _ _ _ _ _ _ _ _ L4' OO Ho) as (tr5 & L5 & (D0 & D5 & W1 & W2 & W3 & W5) & K5 & (P5 & V5) & A5 & G5). unfold keeps_in in K5. cbn [app] in D5, W5. clear Ho OO L4'.
    revert K5 P5 V5 A5 G5. hist. rewrite ?V3, ?K3, ?P3, ?O3, ?A3, ?G3. intros K5 P5 V5 A5 G5.
    bnd H z Hz6. destruct z as [s6 r6]. destruct (call_link _ _ _ _ _ _ _ _ _ _ L5 Hz6 (fun x => x)) as (k6 & L6 & Sh6). cbn [shape] in Sh6.
    destruct Sh6 as (ex & ph & fee & ty & fm & ->). bnd H blob Hb. bnd_guard H Hgb. bnd H fm' Hf. bnd_guard H Hgf. apply zlist_eqb_spec in Hgb, Hgf. subst fm'.
    bnd H z Hs. destruct z as [s7 sigs]. unfold agent_signs in Hs.
    destruct (signs_trace _ _ _ _ _ _ _ _ _ _ _ _ _ F2 L6 Hs) as (tr7 & sgs & (q7 & Eq7) & L7 & G7 & R7 & Q7 & E7 & K7 & (P7 & V7) & (O7 & A7)). unfold keeps_in in K7. clear Hs.
    revert G7 K7 P7 V7 O7 A7. hist. rewrite ?K5, ?P5, ?V5, ?A5, ?G5. cbn [app]. intros G7 K7 P7 V7 O7 A7.
    bnd H z Hz8. destruct z as [s8 r8]. destruct (call_link _ _ _ _ _ _ _ _ _ _ L7 Hz8 (fun x => x)) as (k8 & L8 & Sh8). cbn [shape] in Sh8. destruct Sh8 as (fa & fb & fc & ->).
    apply Ok_inj in H. apply pair_inj in H. destruct H as [-> <-].
    exists d, (RInit tags offload), (tr7 ++ [(tp k8, MFinal, RFinal fa fb fc)]), p, acks, fm.
    assert (HD : map oa_dst (outputs tr5) = tc_dsts x).
    { apply gets_all. revert D5. generalize (zrange (zlen (tc_dsts x))) as l. generalize (outputs tr5) as q. clear.
      intros q l H. induction H; cbn [map]; constructor; assumption. }
    assert (HV : map id_vini ins = map ia_vini acks).
    { clear -F2. induction F2 as [|i a l m H _ IH]; [reflexivity|]. cbn [map]. rewrite IH. f_equal. apply H. }
    constructor; cbn [sg_unlock sg_vin sg_vout sg_extra sg_type sg_fee sg_ecdh sg_out_pk sg_rsigs sg_pseudo_outs sg_sigs]; hist;
      rewrite ?G7, ?K7, ?P7, ?V7, ?O7, ?A7; try assumption; try reflexivity.
    - exact (proj1 L8).
    - exact (linked_session _ _ _ _ _ _ _ L8).
    - apply in_or_app. right. now left.
    - destruct L8 as (_ & _ & _ & L8). eapply Forall_impl; [|exact L8]. intros e (_ & _ & X). exact X.
    - exists ph, blob. split; [reflexivity|]. split; [|split; [exact Hgb|exact Hf]]. exact Hb.
    - rewrite HV. exact SO.
    - rewrite W3, map_map. reflexivity.
    - rewrite E7, app_nil_l, map_map. reflexivity.
    - rewrite E7, app_nil_l, map_map. reflexivity.
    - rewrite Eq7. eexists tr5, _, _, _, _, _, _, _. split; [rewrite <- !app_assoc; cbn [app]; reflexivity|].
      split; [intros tg of X; injection X as _ <-; exact D0|]. clear Hg. intros tg of X Ho Hd0 Hg Hs. injection X as _ <-. destruct (W5 Ho Hg) as (k & I1 & I2 & I3 & I4 & I5 & I6).
      rewrite zlen_zrange in I3 by apply zlen_nonneg. apply I6.
      + destruct (nth_error (td_grouping d) k) as [g|] eqn:Eg.
        * exfalso. specialize (I5 _ eq_refl). pose proof (zsum_firstn_S _ _ _ Eg) as E1. rewrite <- (firstn_skipn (S k) (td_grouping d)), zsum_app in Hs.
          assert (0 <= zsum (skipn (S k) (td_grouping d))); [|lia].
          assert (Hg' : Forall (fun g => 0 < g) (skipn (S k) (td_grouping d))) by (apply Forall_forall; intros y Hy; rewrite Forall_forall in Hg; apply Hg; rewrite <- (firstn_skipn (S k)); apply in_or_app; now right).
          clear -Hg'. induction Hg' as [|y l Hy _ IH]; [reflexivity|]. change (zsum (y :: l)) with (y + zsum l). lia.
        * apply nth_error_None in Eg. rewrite firstn_all2 in I3 by lia. lia.
      + intros X. apply (f_equal zlen) in X. rewrite zlen_zrange in X by apply zlen_nonneg. cbn in X. lia.
  Qed.
End Whole.
