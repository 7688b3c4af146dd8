From Verif Require Import Py PyLemmas Protobuf_model Protobuf_spec Protobuf_proof Signer_model Signer_base Lists_model Lists_proof KeySep_proof
  KeyImageSync_model KeyImageSync_spec.

Section Proof.
  Context (O : kiops) (cr : K_creds O).
  Notation H := (K_hash O).
  Notation ksync := (ksync O).

  Lemma uvarint_eq n b : uvarint n = Ok b -> 0 <= n /\ b = varint n.
  Proof. unfold uvarint. rewrite dump_uvarint_bytes. destruct (Z.ltb_spec n 0); [discriminate|]. intros E. apply ok_inj in E. subst. auto. Qed.
  Lemma compute_hash_inv td h : compute_hash O td = Ok h -> 0 <= out_index td /\ h = H (id_bytes td).
  Proof.
    unfold compute_hash, td_bytes. intros E. bnd E b E1. bnd E1 i E2. apply uvarint_eq in E2. destruct E2 as [Hi ->].
    apply ok_inj in E1, E. subst. auto.
  Qed.
  Lemma compute_hash_ok td : 0 <= out_index td -> compute_hash O td = Ok (H (id_bytes td)).
  Proof. intros Hi. unfold compute_hash, td_bytes, uvarint. rewrite dump_uvarint_bytes. destruct (Z.ltb_spec (out_index td) 0); [lia|]. reflexivity. Qed.

  Definition hashes (l : list transfer) : list Z := concat (map (fun td => H (id_bytes td)) l).
  Lemma hashes_app a b : hashes (a ++ b) = hashes a ++ hashes b.
  Proof. unfold hashes. now rewrite map_app, concat_app. Qed.
  Definition seal (subs : K_subs O) (key : list Z) (td : transfer) (c : list Z * list Z) : Prop :=
    exists rnd blob, K_export O cr subs td rnd = Ok blob /\ snd c = K_enc O key (fst c) blob.

  Definition table (subs : list (Z * list Z)) : K_subs O := fold_left (fun tb '(acc, idx) => K_add_subs O cr acc idx tb) subs (K_nosubs O).

  (** one step message *)
  Lemma k_loop_inv t key : forall tdis n s acc s' kis, s_key O s = Some key ->
    k_loop O cr t n tdis s acc = Ok (s', kis) ->
    s_num O s' = s_num O s /\ s_hash O s' = s_hash O s /\ s_key O s' = Some key /\ s_subs O s' = s_subs O s /\
    s_idx O s' = s_idx O s + zlen tdis /\ (tdis <> [] -> s_idx O s' < s_num O s) /\ s_fed O s' = s_fed O s ++ hashes tdis /\
    exists new, kis = acc ++ new /\ Forall2 (seal (s_subs O s) key) tdis new.
  Proof.
    induction tdis as [|td tdis IH]; intros n s acc s' kis Hk E; cbn [k_loop] in E.
    - injection E as <- <-. repeat split; auto; try (rewrite zlen_nil; lia); try congruence.
      + unfold hashes; cbn; now rewrite app_nil_r.
      + exists []. rewrite app_nil_r. auto.
    - bnd_guard E G. bnd E h Eh. bnd E blob Eb. rewrite Hk in E. apply compute_hash_inv in Eh. destruct Eh as [_ ->].
      apply IH in E; [|reflexivity]. cbn [s_num s_hash s_key s_subs s_idx s_fed] in E.
      destruct E as (E1 & E2 & E3 & E4 & E5 & E6 & E7 & new & E8 & E9). apply Z.ltb_lt in G.
      repeat split; auto.
      + rewrite E5, zlen_cons. lia.
      + intros _. destruct tdis; [rewrite E5, zlen_nil; lia|apply E6; discriminate].
      + rewrite E7, <- app_assoc. reflexivity.
      + exists ((k_nonce t n, K_enc O key (k_nonce t n) blob) :: new). split; [rewrite E8, <- app_assoc; reflexivity|].
        constructor; [|exact E9]. exists (k_rnd t n), blob. auto.
  Qed.

  (** what a stored object knows about the history *)
  Definition live (s : ksync) (ev : list kevent) : Prop :=
    exists pre e steps num hash key subs, ev = pre ++ e :: steps /\ accepted_init e num hash key subs /\ Forall is_step steps /\
      s_num O s = num /\ s_hash O s = Some hash /\ s_key O s = Some key /\ s_subs O s = table subs /\
      s_idx O s + 1 = zlen (presented steps) /\ (presented steps <> [] -> zlen (presented steps) <= num) /\
      s_fed O s = hashes (presented steps) /\ Forall2 (seal (table subs) key) (presented steps) (handed_out steps).
  Definition dead (s : ksync) : Prop := s_num O s = 0 /\ s_hash O s = None /\ s_idx O s = -1 /\ s_key O s = None.
  Definition kinv (st : option ksync) (ev : list kevent) : Prop :=
    match st with None => True | Some s => dead s \/ live s ev end.

  Definition ok_event (before : list kevent) (e : kevent) : Prop :=
    match e with
    | (_, m, KStepAck kis) => exists pre e0 steps num hash key subs tdis, before = pre ++ e0 :: steps /\ accepted_init e0 num hash key subs /\
        Forall is_step steps /\ m = KStep tdis /\ tdis <> [] /\ zlen (presented steps ++ tdis) <= num /\ Forall2 (seal (table subs) key) tdis kis
    | (_, m, KFinalAck k) => exists pre e0 steps num hash key subs, before = pre ++ e0 :: steps /\ accepted_init e0 num hash key subs /\
        Forall is_step steps /\ m = KFinal /\ k = key /\ zlen (presented steps) = num /\ chain H (presented steps) = hash /\
        Forall2 (seal (table subs) key) (presented steps) (handed_out steps)
    | (t, m, KInitAck) => k_answer t = true /\ exists num hash subs, m = KInit num hash subs
    | _ => True
    end.

  Lemma presented_app a b : presented (a ++ b) = presented a ++ presented b.
  Proof. apply flat_map_app. Qed.
  Lemma handed_app a b : handed_out (a ++ b) = handed_out a ++ handed_out b.
  Proof. apply flat_map_app. Qed.

  Lemma k_step_ok st ev t m : kinv st ev -> let '(st', r) := k_step O cr st t m in kinv st' (ev ++ [(t, m, r)]) /\ ok_event ev (t, m, r).
  Proof.
    intros I. destruct m as [num hash subs|tdis|]; cbn [k_step].
    - unfold k_init. destruct (k_answer t) eqn:A; cbn [negb].
      + split; [|cbn; split; [exact A|eauto]]. right. exists ev, (t, KInit num hash subs, KInitAck), [], num, hash, (k_key t), subs.
        cbn [s_num s_hash s_key s_subs s_idx s_fed ksync_new]. repeat split; auto. exists t; auto. all: try constructor. intros X; exfalso; apply X; reflexivity.
      + split; [|exact Logic.I]. left. repeat split; reflexivity.
    - destruct st as [s|]; [|split; exact Logic.I].
      destruct (k_sync O cr t tdis s) as [[s' r]|e] eqn:E; [|split; exact Logic.I].
      unfold k_sync in E. destruct tdis as [|td tdis]; [discriminate|]. remember (td :: tdis) as l eqn:El.
      assert (Hl : l <> []) by (subst; discriminate). clear El td tdis.
      bnd E x Ex. destruct x as [s1 kis]. apply ok_inj in E. injection E as -> <-.
      destruct I as [(D1 & D2 & D3 & D4)|(pre & e0 & steps & num & hash & key & subs & -> & A & St & I1 & I2 & I3 & I4 & I5 & I6 & I7 & I8)].
      + exfalso. destruct l as [|td l]; [congruence|]. cbn [k_loop] in Ex. bnd_guard Ex G. apply Z.ltb_lt in G. lia.
      + apply (k_loop_inv t key) in Ex; [|exact I3]. destruct Ex as (E1 & E2 & E3 & E4 & E5 & E6 & E7 & new & E8 & E9). cbn [app] in E8. subst kis.
        specialize (E6 Hl). rewrite I1 in *. rewrite I2 in *. rewrite I4 in *.
        assert (Hlen : zlen (presented steps ++ l) <= num) by (rewrite zlen_app; lia).
        split.
        * right. exists pre, e0, (steps ++ [(t, KStep l, KStepAck new)]), num, hash, key, subs.
          rewrite presented_app, handed_app. cbn [presented handed_out flat_map]. rewrite !app_nil_r.
          repeat split; auto.
          -- rewrite <- app_assoc. reflexivity.
          -- apply Forall_app. split; [exact St|]. constructor; [|constructor]. exists t, l, new. reflexivity.
          -- rewrite E5, zlen_app. lia.
          -- rewrite E7, I7, hashes_app. reflexivity.
          -- apply Forall2_app; assumption.
        * cbn. exists pre, e0, steps, num, hash, key, subs, l. repeat split; auto.
    - destruct st as [s|]; [|split; exact Logic.I].
      destruct (k_final O s) as [r|e] eqn:E; [|split; exact Logic.I]. split; [exact Logic.I|].
      unfold k_final in E. bnd_guard E G. apply Z.eqb_eq in G.
      destruct I as [(D1 & D2 & D3 & D4)|(pre & e0 & steps & num & hash & key & subs & -> & A & St & I1 & I2 & I3 & I4 & I5 & I6 & I7 & I8)].
      + rewrite D2 in E. discriminate.
      + rewrite I2, I3 in E. bnd_guard E G2. apply ok_inj in E. subst r. apply zlist_eqb_spec in G2.
        cbn. exists pre, e0, steps, num, hash, key, subs. repeat split; auto; [lia|]. rewrite <- G2, I7. reflexivity.
  Qed.

  Lemma k_run_ok h : forall st ev, kinv st ev ->
    forall before e after, snd (k_run O cr st h) = before ++ e :: after -> ok_event (ev ++ before) e.
  Proof.
    induction h as [|[t m] h IH]; intros st ev I before e after E; cbn [k_run] in E.
    - destruct before; discriminate.
    - pose proof (k_step_ok st ev t m I) as S. destruct (k_step O cr st t m) as [st' r]. destruct S as [I' Hok].
      destruct (k_run O cr st' h) as [stf evf] eqn:R. cbn [snd] in E. destruct before as [|b before]; cbn [app] in E; injection E as E1 E2.
      + subst. rewrite app_nil_r. exact Hok.
      + subst b. replace (ev ++ (t, m, r) :: before) with ((ev ++ [(t, m, r)]) ++ before) by (rewrite <- app_assoc; reflexivity).
        eapply (IH st'); [exact I'|]. rewrite R. exact E2.
  Qed.
  Theorem history_ok h before e after : snd (k_run O cr None h) = before ++ e :: after -> ok_event before e.
  Proof. intros E. exact (k_run_ok h None [] Logic.I before e after E). Qed.

  (** the commitment determines the outputs *)
  Lemma concat32_inj : forall (a b : list (list Z)) x y, Forall (fun k => length k = 32%nat) a -> Forall (fun k => length k = 32%nat) b ->
    (length x < 32)%nat -> (length y < 32)%nat -> concat a ++ x = concat b ++ y -> a = b /\ x = y.
  Proof.
    induction a as [|k a IH]; intros [|k' b] x y Fa Fb Lx Ly E.
    - auto.
    - inversion Fb; subst. apply (f_equal (@length Z)) in E. cbn [concat] in E. rewrite !app_length in E. cbn in E. lia.
    - inversion Fa; subst. apply (f_equal (@length Z)) in E. cbn [concat] in E. rewrite !app_length in E. cbn in E. lia.
    - inversion Fa; inversion Fb; subst. cbn [concat] in E. rewrite <- !app_assoc in E.
      apply app_inv_len in E; [|lia]. destruct E as [-> E]. apply IH in E; auto. destruct E as [-> ->]. auto.
  Qed.
  Lemma varint_lt32 n : 0 <= n < 2 ^ 64 -> (length (varint n) < 32)%nat.
  Proof.
    intros Hn. pose proof (varint_length n ltac:(lia)) as L. unfold zlen in L.
    assert (Z.log2 n <= 63). { destruct (Z.eq_dec n 0) as [->|]; [cbn; lia|]. apply Z.lt_succ_r. apply Z.log2_lt_pow2; [lia|]. exact (proj2 Hn). }
    pose proof (Z.log2_nonneg n). lia.
  Qed.
  Lemma id_bytes_inj a b : transfer_ok a -> transfer_ok b -> id_bytes a = id_bytes b -> a = b.
  Proof.
    intros (A1 & A2 & A3 & A4) (B1 & B2 & B3 & B4) E. unfold id_bytes in E.
    apply app_inv_len in E; [|lia]. destruct E as [E1 E]. apply app_inv_len in E; [|lia]. destruct E as [E2 E].
    apply concat32_inj in E; try assumption; try (apply varint_lt32; assumption). destruct E as [E3 E4].
    assert (E5 : out_index a = out_index b).
    { assert (E6 : varint (out_index a) ++ [] = varint (out_index b) ++ []) by now rewrite !app_nil_r. apply varint_prefix_free in E6; [tauto|lia|lia]. }
    destruct a, b. cbn in *. congruence.
  Qed.
  Lemma hashes_inj : (forall x, length (H x) = 32%nat) -> forall a b, Forall transfer_ok a -> Forall transfer_ok b -> hashes a = hashes b ->
    a = b \/ exists x y, In x (map id_bytes a) /\ In y (map id_bytes b) /\ x <> y /\ H x = H y.
  Proof.
    intros L. induction a as [|td a IH]; intros [|td' b] Fa Fb E.
    - auto.
    - apply (f_equal (@length Z)) in E. unfold hashes in E. cbn [map concat] in E. rewrite app_length, L in E. cbn in E. lia.
    - apply (f_equal (@length Z)) in E. unfold hashes in E. cbn [map concat] in E. rewrite app_length, L in E. cbn in E. lia.
    - inversion Fa; inversion Fb; subst. unfold hashes in E. cbn [map concat] in E. apply app_inv_len in E; [|rewrite !L; reflexivity]. destruct E as [E1 E2].
      destruct (list_eq_dec Z.eq_dec (id_bytes td) (id_bytes td')) as [Ei|Ni].
      + apply id_bytes_inj in Ei; auto. subst td'. destruct (IH b) as [->|(x & y & X & Y & N & Q)]; auto.
        right. exists x, y. cbn [map]. auto using in_cons.
      + right. exists (id_bytes td), (id_bytes td'). cbn [map In]. auto.
  Qed.
  Theorem chain_binding a b : (forall x, length (H x) = 32%nat) -> Forall transfer_ok a -> Forall transfer_ok b -> chain H a = chain H b ->
    a = b \/ collision_in H a b.
  Proof.
    intros L Fa Fb E. unfold chain in E. fold (hashes a) in E. fold (hashes b) in E.
    destruct (list_eq_dec Z.eq_dec (hashes a) (hashes b)) as [Eh|Nh].
    - apply hashes_inj in Eh; auto. destruct Eh as [->|(x & y & X & Y & N & Q)]; [auto|]. right. exists x, y. cbn [In]. auto.
    - right. exists (hashes a), (hashes b). repeat split; auto; left; reflexivity.
  Qed.
End Proof.
