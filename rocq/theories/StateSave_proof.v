From Coq Require Import String Ascii.
From Verif Require Import Py PyLemmas Signer_model Signer_base StateSave_model StateSave_spec.
Local Open Scope string_scope.

Section Gen.
  Context {V : Type}.
  Notation val := (val V).
  Notation dict := (dict V).
  Lemma get_set (d : dict) a v x : getattr (setattr d a v) x = if String.eqb a x then Some v else getattr d x.
  Proof.
    induction d as [|[k w] d IH]; cbn [setattr getattr].
    - reflexivity.
    - destruct (String.eqb_spec k a) as [->|N]; cbn [getattr].
      + destruct (String.eqb_spec a x); reflexivity.
      + rewrite IH. destruct (String.eqb_spec k x), (String.eqb_spec a x); subst; congruence || reflexivity.
  Qed.
  Definition keys (d : dict) : list string := map fst d.
  Lemma keys_set (d : dict) a v x : In x (keys (setattr d a v)) <-> x = a \/ In x (keys d).
  Proof.
    induction d as [|[k w] d IH]; cbn [setattr keys map fst In].
    - cbn. intuition congruence.
    - destruct (String.eqb_spec k a) as [->|N]; cbn [keys map fst In].
      + intuition congruence.
      + unfold keys in IH. rewrite IH. tauto.
  Qed.
  Lemma nodup_set (d : dict) a v : NoDup (keys d) -> NoDup (keys (setattr d a v)).
  Proof.
    induction d as [|[k w] d IH]; intros H; cbn [setattr].
    - constructor; [intros []|constructor].
    - inversion H as [|? ? Hn Hd]; subst. destruct (String.eqb_spec k a) as [->|N].
      + exact H.
      + cbn [keys map fst]. constructor; [|exact (IH Hd)]. intros Hin. apply keys_set in Hin. destruct Hin; [congruence|tauto].
  Qed.
  Lemma get_in (d : dict) x : In x (keys d) <-> getattr d x <> None.
  Proof.
    induction d as [|[k w] d IH]; cbn [keys map fst In getattr].
    - tauto.
    - destruct (String.eqb_spec k x) as [->|N]; [split; [discriminate|auto]|]. unfold keys in IH. rewrite <- IH. intuition congruence.
  Qed.
  Lemma in_get (d : dict) x v : NoDup (keys d) -> In (x, v) d -> getattr d x = Some v.
  Proof.
    induction d as [|[k w] d IH]; intros Hn H; [destruct H|]. cbn [getattr]. inversion Hn as [|? ? Hk Hd]; subst.
    destruct H as [E|H]; [injection E as -> ->; now rewrite String.eqb_refl|].
    destruct (String.eqb_spec k x) as [->|N]; [|auto]. exfalso. apply Hk. apply (in_map fst) in H. exact H.
  Qed.

  (** a loop over attributes that sets some of them *)
  Definition setter (enc : string -> val -> res (option val)) (t : dict) (av : string * val) : res dict :=
    match enc (fst av) (snd av) with
    | Err e => Err e
    | Ok None => Ok t
    | Ok (Some w) => Ok (setattr t (fst av) w)
    end.
  Definition image (enc : string -> val -> res (option val)) (b h0 : dict) (x : string) : option val :=
    match getattr b x with
    | Some v => match enc x v with Ok (Some w) => Some w | _ => getattr h0 x end
    | None => getattr h0 x
    end.
  Lemma setter_ok enc b : NoDup (keys b) -> (forall a v, In (a, v) b -> exists w, enc a v = Ok w) ->
    forall h0, NoDup (keys h0) ->
    exists t, foldM (setter enc) b h0 = Ok t /\ NoDup (keys t) /\ (forall x, getattr t x = image enc b h0 x) /\
      (forall x, In x (keys t) -> In x (keys h0) \/ In x (keys b)).
  Proof.
    induction b as [|[k w] b IH]; intros Hn Henc h0 Hh.
    - exists h0. cbn. repeat split; auto.
    - inversion Hn as [|? ? Hk Hb]; subst. destruct (Henc k w (or_introl eq_refl)) as [o Eo].
      cbn [foldM]. unfold setter at 1. cbn [fst snd]. rewrite Eo.
      assert (Henc' : forall a v, In (a, v) b -> exists w, enc a v = Ok w) by (intros; apply Henc; right; assumption).
      destruct o as [v|]; cbn [bind].
      + destruct (IH Hb Henc' (setattr h0 k v) (nodup_set _ _ _ Hh)) as (t & E & N & G & K). exists t. split; [exact E|]. split; [exact N|]. split.
        * intros x. rewrite G. unfold image. cbn [getattr]. destruct (String.eqb_spec k x) as [->|Nx].
          -- rewrite Eo. destruct (getattr b x) eqn:Eb; [exfalso; apply Hk; apply get_in; congruence|]. rewrite get_set, String.eqb_refl. reflexivity.
          -- rewrite get_set. destruct (String.eqb_spec k x); [congruence|]. reflexivity.
        * intros x Hx. apply K in Hx. destruct Hx as [Hx|Hx]; [apply keys_set in Hx; destruct Hx; [subst; right; now left|auto]|right; now right].
      + destruct (IH Hb Henc' h0 Hh) as (t & E & N & G & K). exists t. split; [exact E|]. split; [exact N|]. split.
        * intros x. rewrite G. unfold image. cbn [getattr]. destruct (String.eqb_spec k x) as [->|Nx]; [|reflexivity].
          rewrite Eo. destruct (getattr b x) eqn:Eb; [exfalso; apply Hk; apply get_in; congruence|reflexivity].
        * intros x Hx. apply K in Hx. destruct Hx; [auto|right; now right].
  Qed.

  (** what is written for an attribute *)
  Definition enc (a : string) (v : val) : res (option val) :=
    if startswith "_" a then Ok None else match v with PNone => Ok (Some PNone) | _ =>
      if String.eqb a "state" then match v with PState s m => Ok (Some (PStateTup s m)) | _ => Err AttributeError end
      else if String.eqb a "trezor" then Ok None else if startswith "STEP" a then Ok None
      else if String.eqb a "tx_prefix_hasher" then match v with PArchive c => Ok (Some (PCtx c)) | _ => Err AttributeError end
      else if String.eqb a "full_message_hasher" then match v with PHasher a b c d e => Ok (Some (PHasherTup a b c d e)) | _ => Err AttributeError end
      else Ok (Some v) end.
  Definition dec (a : string) (v : val) : res (option val) :=
    if startswith "_" a then Ok None else match v with PNone => Ok (Some PNone) | _ =>
      if String.eqb a "state" then match v with PStateTup s m => Ok (Some (PState s m)) | _ => Err TypeError end
      else if String.eqb a "tx_prefix_hasher" then match v with PCtx c => Ok (Some (PArchive c)) | _ => Err TypeError end
      else if String.eqb a "full_message_hasher" then match v with PHasherTup a b c d e => Ok (Some (PHasher a b c d e)) | _ => Err TypeError end
      else Ok (Some v) end.
  Lemma save_is t av : save_attr t av = setter enc t av.
  Proof.
    destruct av as [a v]. unfold save_attr, setter, enc. cbn [fst snd]. destruct (startswith "_" a); [reflexivity|].
    destruct v; try reflexivity; destruct (String.eqb_spec a "state") as [->|]; try reflexivity;
      destruct (String.eqb_spec a "trezor") as [->|]; try reflexivity; destruct (startswith "STEP" a); try reflexivity;
      destruct (String.eqb_spec a "tx_prefix_hasher") as [->|]; try reflexivity;
      destruct (String.eqb_spec a "full_message_hasher") as [->|]; reflexivity.
  Qed.
  Lemma load_is t av : load_attr t av = setter dec t av.
  Proof.
    destruct av as [a v]. unfold load_attr, setter, dec. cbn [fst snd]. destruct (startswith "_" a); [reflexivity|].
    destruct v; try reflexivity; destruct (String.eqb_spec a "state") as [->|]; try reflexivity;
      destruct (String.eqb_spec a "tx_prefix_hasher") as [->|]; try reflexivity;
      destruct (String.eqb_spec a "full_message_hasher") as [->|]; reflexivity.
  Qed.
  Lemma foldM_ext {A S} (f g : S -> A -> res S) l : (forall s a, f s a = g s a) -> forall s, foldM f l s = foldM g l s.
  Proof. intros E. induction l as [|a l IH]; intros s; cbn [foldM]; [reflexivity|]. rewrite E. destruct (g s a); cbn [bind]; auto. Qed.

  (** names that travel *)
  Definition travels (a : string) : Prop := startswith "_" a = false /\ startswith "STEP" a = false /\ a <> "trezor".
  (** the three converted attributes hold objects of their class, or None *)
  Definition classes_ok (b : dict) : Prop :=
    (forall v, getattr b "state" = Some v -> v = PNone \/ exists s m, v = PState s m) /\
    (forall v, getattr b "tx_prefix_hasher" = Some v -> v = PNone \/ exists c, v = PArchive c) /\
    (forall v, getattr b "full_message_hasher" = Some v -> v = PNone \/ exists p q r s t, v = PHasher p q r s t).

  Lemma enc_dec a v : travels a -> (forall b, getattr b a = Some v -> classes_ok b -> exists w, enc a v = Ok (Some w) /\ dec a w = Ok (Some v)).
  Proof.
    intros (T1 & T2 & T3) b Hb (C1 & C2 & C3). unfold enc, dec. rewrite T1, T2.
    destruct (String.eqb_spec a "state") as [->|N1]; [destruct (C1 _ Hb) as [->|(s & m & ->)]; eexists; (split; reflexivity)|].
    destruct (String.eqb_spec a "trezor") as [->|]; [congruence|].
    destruct (String.eqb_spec a "tx_prefix_hasher") as [->|N2]; [destruct (C2 _ Hb) as [->|(s & ->)]; eexists; (split; reflexivity)|].
    destruct (String.eqb_spec a "full_message_hasher") as [->|N3]; [destruct (C3 _ Hb) as [->|(p & q & r & s & t & ->)]; eexists; (split; reflexivity)|].
    destruct v; eexists; (split; reflexivity).
  Qed.

  Theorem save_load (h0 b0 b : dict) : NoDup (keys h0) -> NoDup (keys b0) -> NoDup (keys b) -> classes_ok b ->
    (forall x, In x (keys h0) -> travels x /\ In x (keys b)) -> (forall x, In x (keys b0) -> In x (keys b)) ->
    exists t b', state_save h0 b = Ok t /\ state_load b0 t = Ok b' /\
      (forall x, travels x -> getattr b' x = getattr b x) /\ (forall x, ~ travels x -> getattr b x <> Some PNone -> getattr b' x = getattr b0 x).
  Proof.
    intros Nh Nb0 Nb Cb Hh Hb0.
    assert (Enc : forall a v, In (a, v) b -> exists w, enc a v = Ok w).
    { intros a v Hin. pose proof (in_get _ _ _ Nb Hin) as G.
      destruct (startswith "_" a) eqn:E1; [unfold enc; rewrite E1; eauto|].
      destruct (String.eqb_spec a "trezor") as [->|N1]; [unfold enc; destruct v; cbn; eauto|].
      destruct (startswith "STEP" a) eqn:E2.
      - unfold enc. rewrite E1, E2. destruct (String.eqb_spec a "state") as [->|]; [discriminate E2|]. destruct (String.eqb_spec a "trezor"); destruct v; eauto.
      - destruct (enc_dec a v (conj E1 (conj E2 N1)) b G Cb) as (w & Ew & _). eauto. }
    destruct (setter_ok enc b Nb Enc h0 Nh) as (t & Et & Nt & Gt & Kt).
    assert (Wt : forall x, travels x -> getattr t x = match getattr b x with Some v => match enc x v with Ok (Some w) => Some w | _ => None end | None => None end).
    { intros x Hx. rewrite Gt. unfold image. destruct (getattr b x) as [v|] eqn:G.
      - destruct (enc_dec x v Hx b G Cb) as (w & Ew & _). rewrite Ew. reflexivity.
      - destruct (getattr h0 x) eqn:Gh; [|reflexivity]. exfalso. assert (In x (keys h0)) by (apply get_in; congruence).
        apply Hh in H. destruct H as [_ H]. apply get_in in H. congruence. }
    assert (Tt : forall x, ~ travels x -> getattr b x <> Some PNone -> getattr t x = None).
    { intros x Hx Hnone. rewrite Gt. unfold image. assert (Gh : getattr h0 x = None).
      { destruct (getattr h0 x) eqn:Gh; [|reflexivity]. exfalso. apply Hx. apply Hh. apply get_in. congruence. }
      rewrite Gh. destruct (getattr b x) as [v|] eqn:G; [|reflexivity].
      unfold enc. destruct (startswith "_" x) eqn:E1; [reflexivity|].
      destruct (String.eqb_spec x "state") as [->|N]; [exfalso; apply Hx; repeat split; discriminate || reflexivity|].
      destruct (String.eqb_spec x "trezor"); [destruct v; congruence || reflexivity|].
      destruct (startswith "STEP" x) eqn:E2; [destruct v; congruence || reflexivity|].
      exfalso. apply Hx. repeat split; assumption. }
    assert (Dec : forall a v, In (a, v) t -> exists w, dec a v = Ok w).
    { intros a v Hin. pose proof (in_get _ _ _ Nt Hin) as G.
      destruct (startswith "_" a) eqn:E1; [unfold dec; rewrite E1; eauto|].
      destruct (String.eqb_spec a "trezor") as [->|N1]; [unfold dec; destruct v; cbn; eauto|].
      destruct (startswith "STEP" a) eqn:E2.
      - unfold dec. rewrite E1. destruct (String.eqb_spec a "state") as [->|]; [discriminate E2|].
        destruct (String.eqb_spec a "tx_prefix_hasher") as [->|]; [discriminate E2|]. destruct (String.eqb_spec a "full_message_hasher") as [->|]; [discriminate E2|].
        destruct v; eauto.
      - assert (Ta : travels a) by (repeat split; assumption). rewrite (Wt a Ta) in G. destruct (getattr b a) as [u|] eqn:Gb; [|discriminate].
        destruct (enc_dec a u Ta b Gb Cb) as (w & Ew & Dw). rewrite Ew in G. injection G as ->. eauto. }
    destruct (setter_ok dec t Nt Dec b0 Nb0) as (b' & Eb & _ & Gb & _).
    exists t, b'. split; [unfold state_save; rewrite (foldM_ext save_attr (setter enc)); [exact Et|exact save_is]|].
    split; [unfold state_load; rewrite (foldM_ext load_attr (setter dec)); [exact Eb|exact load_is]|].
    split.
    - intros x Hx. rewrite Gb. unfold image. rewrite (Wt x Hx). destruct (getattr b x) as [v|] eqn:G.
      + destruct (enc_dec x v Hx b G Cb) as (w & Ew & Dw). rewrite Ew, Dw. reflexivity.
      + destruct (getattr b0 x) eqn:G0; [|reflexivity]. exfalso. assert (Hin : In x (keys b0)) by (apply get_in; congruence).
        apply Hb0 in Hin. apply get_in in Hin. congruence.
    - intros x Hx Hnone. rewrite Gb. unfold image. rewrite (Tt x Hx Hnone). reflexivity.
  Qed.
End Gen.

Section Stored.
  Context (C : ops).
  Notation dict := (dict (aval C)).
  Definition names : list string := keys (object_of C (new_builder C {| view_priv := 0; spend_priv := 0; spend_pub := smul_base C 0 |})).
  Lemma names_of b : keys (object_of C b) = names.
  Proof. reflexivity. Qed.
  Lemma nodup_dec (l : list string) : (fix nd l := match l with [] => true | x :: l => negb (existsb (String.eqb x) l) && nd l end) l = true -> NoDup l.
  Proof.
    induction l as [|x l IH]; intros H; [constructor|]. apply andb_true_iff in H. destruct H as [H1 H2]. constructor; [|auto].
    intros Hin. apply negb_true_iff in H1. rewrite <- not_true_iff_false in H1. apply H1. apply existsb_exists. exists x. split; [exact Hin|apply String.eqb_refl].
  Qed.
  Lemma nodup_names : NoDup names.
  Proof. apply nodup_dec. vm_compute. reflexivity. Qed.
  Lemma classes b : classes_ok (object_of C b).
  Proof.
    split; [|split]; intros v H; cbn in H; injection H as <-.
    - right. eauto.
    - destruct (b_prefix C b); [right; eexists; reflexivity|left; reflexivity].
    - destruct (b_full C b); [right; repeat eexists; reflexivity|left; reflexivity].
  Qed.

  Definition tracked_names : list string := Eval cbv in map fst (tracked C (new_builder C {| view_priv := 0; spend_priv := 0; spend_pub := smul_base C 0 |})).
  Lemma fopt_some {A B} (g : A -> val (aval C)) (f : val (aval C) -> option B) (k : A -> B) (o : option A) :
    (forall a, g a <> PNone /\ f (g a) = Some (k a)) -> fopt C f (orNone C g o) = Some (option_map k o).
  Proof. intros H. destruct o as [a|]; [|reflexivity]. destruct (H a) as [H1 H2]. cbn [orNone option_map]. unfold fopt. rewrite H2. destruct (g a); congruence || reflexivity. Qed.
  Lemma builder_of_eq d b : (forall a, In a tracked_names -> getattr d a = getattr (object_of C b) a) -> builder_of C d = Some b.
  Proof.
    intros H.
    assert (E : builder_of C d = builder_of C (object_of C b)).
    { unfold builder_of, rd. repeat (rewrite H by (unfold tracked_names; cbn [In]; repeat first [left; reflexivity|right])). reflexivity. }
    rewrite E. clear. destruct b as [[] st ii oi po la si so pk am ma lm su sp sb ex pe ph pq fu fm ap aq].
    destruct c_change, c_account, am, ma, lm, sb, ph, fu as [[]|]; reflexivity.
  Qed.

  Context (h0 b0 : dict) (Kh : keys h0 = holder_names) (Nb0 : NoDup (keys b0)) (Kb0 : forall x, In x (keys b0) -> In x names).
  Definition stands_for (st : option dict) (b : option (builder C)) : Prop :=
    match st, b with
    | None, None => True
    | Some h, Some b => exists obj, state_load b0 h = Ok obj /\ builder_of C obj = Some b
    | _, _ => False
    end.
  Lemma detour b : exists h, state_save h0 (object_of C b) = Ok h /\ stands_for (Some h) (Some b).
  Proof.
    assert (Nh : NoDup (keys h0)) by (rewrite Kh; apply nodup_dec; vm_compute; reflexivity).
    assert (Hh : forall x, In x (keys h0) -> travels x /\ In x (keys (object_of C b))).
    { rewrite Kh, names_of. intros x Hx. unfold holder_names in Hx. cbn [In] in Hx.
      repeat (destruct Hx as [<-|Hx]; [split; [repeat split; discriminate || reflexivity|cbn; repeat first [left; reflexivity|right]]|]). destruct Hx. }
    assert (Hb0 : forall x, In x (keys b0) -> In x (keys (object_of C b))) by (intros x; rewrite names_of; apply Kb0).
    assert (Nb : NoDup (keys (object_of C b))) by (rewrite names_of; exact nodup_names).
    destruct (save_load h0 b0 (object_of C b) Nh Nb0 Nb (classes b) Hh Hb0) as (t & b' & E1 & E2 & G & _).
    exists t. split; [exact E1|]. exists b'. split; [exact E2|]. apply builder_of_eq. intros a Ha. apply G.
    unfold tracked_names in Ha. cbn [In] in Ha. repeat (destruct Ha as [<-|Ha]; [repeat split; discriminate || reflexivity|]). destruct Ha.
  Qed.
  Lemma fresh_builder cr : builder_of C (object_of C (new_builder C cr)) = Some (new_builder C cr).
  Proof. apply builder_of_eq. auto. Qed.

  Lemma step_same cr st b t m : stands_for st b ->
    exists st', tsx_sign_stored C h0 b0 cr st t m = Ok (st', snd (tsx_sign C cr b t m)) /\ stands_for st' (fst (tsx_sign C cr b t m)).
  Proof.
    intros R.
    assert (E : exists b1, (let* obj := match m, st with MInit _, _ => Ok (object_of C (new_builder C cr)) | _, Some holder => state_load b0 holder | _, None => Ok (object_of C (new_builder C cr)) end in
                 match builder_of C obj with None => Err AttributeError | Some b => Ok b end) = Ok b1 /\
                 b1 = match m, b with MInit _, _ => new_builder C cr | _, Some b => b | _, None => new_builder C cr end).
    { destruct st as [h|], b as [b|]; cbn [stands_for] in R; try contradiction.
      - destruct R as (obj & E1 & E2). destruct m; rewrite ?E1; cbn [bind]; rewrite ?E2, ?fresh_builder; eexists; (split; reflexivity).
      - destruct m; cbn [bind]; rewrite ?fresh_builder; eexists; (split; reflexivity). }
    destruct E as (b1 & E & Eb). unfold tsx_sign_stored, tsx_sign. rewrite <- Eb. clear Eb.
    destruct (match m, st with MInit _, _ => Ok (object_of C (new_builder C cr)) | _, Some holder => state_load b0 holder | _, None => Ok (object_of C (new_builder C cr)) end) as [obj|e]; [|discriminate].
    cbn [bind] in *. destruct (builder_of C obj) as [b2|]; [|discriminate]. injection E as ->.
    destruct (sign C t m b1) as [[b2 r]|e].
    - cbn [fst snd]. destruct (is_terminal C b2); cbn [bind].
      + eexists. split; [reflexivity|exact I].
      + destruct (detour b2) as (h & Eh & Rh). rewrite Eh. cbn [bind]. eexists. split; [reflexivity|exact Rh].
    - cbn [fst snd]. eexists. split; [reflexivity|exact I].
  Qed.
  Theorem run_same cr h : forall st b, stands_for st b -> run_stored C h0 b0 cr st h = Ok (snd (run C cr b h)).
  Proof.
    induction h as [|[t m] h IH]; intros st b R; [reflexivity|]. cbn [run_stored run].
    destruct (step_same cr st b t m R) as (st' & E & R'). rewrite E. cbn [bind].
    destruct (tsx_sign C cr b t m) as [b' r]. cbn [fst snd] in *. rewrite (IH st' b' R').
    destruct (run C cr b' h) as [bf rs]. reflexivity.
  Qed.
End Stored.
