(** Histories of calls on the transaction builder. *)
From Verif Require Import Py PyLemmas Digits Addr_model Lists_model Signer_model Signer_spec Agent_model Complete_spec Complete_proof1 Addr_spec Addr_proof Ints_model Protobuf_spec Ec_model Ec_spec Ec_proof Rsig_model Mlsag_model Mlsag_spec Sigs_spec Sigs_proof KeySep_proof Clsag_proof Mlsag_proof Wallet_model Wallet_spec Wallet_proof Request_spec Builder_model Builder_spec Builder_proof.
Ltac Zify.zify_post_hook ::= idtac.

Section Proof.
Context (E : ecops) (L : ec_laws E).
Hypothesis Hlen : forall P, length (encp E P) = 32%nat.
Hypothesis HBy : forall P, bytes_ok (encp E P).
Hypothesis HH : hash_bytes E.
Hypothesis NG : Gb E <> pid E.

Lemma hash_is : hash_like (hash E).
Proof. intros x. destruct (HH x) as [A B]. split; [exact B|]. rewrite A. clear. lia. Qed.

Definition add_output (bl : bld E) (e : dst_entry) (t : list Z) : bld E :=
  {| bo_keys := bo_keys E bl; bo_ring := bo_ring E bl; bo_net := bo_net E bl; bo_fee := bo_fee E bl; bo_account := bo_account E bl;
     bo_transfers := bo_transfers E bl; bo_selected := bo_selected E bl; bo_sources := bo_sources E bl;
     bo_outputs := bo_outputs E bl ++ [e]; bo_text := bo_text E bl ++ [t]; bo_change := bo_change E bl |}.
Lemma gen_output_ok bl n a b value M m pid : bo_net E bl = net_code n -> scalar b -> u32 M -> u32 m -> 0 <= value ->
  match pid with Some p => M = 0 /\ m = 0 /\ length p = 8%nat /\ bytes_ok p | None => True end ->
  exists e t, gen_output E bl value (wallet E a b) M m pid = Ok (add_output bl e t) /\ pays_to E (bo_net E bl) a b value M m pid e t /\ dst_ok e.
Proof.
  intros Hn Hb HM Hm Hv Hp.
  set (ad := {| spend_public_key := encp E (sub_D E a b M m); view_public_key := encp E (sub_C E a b M m) |}).
  set (is_sub := negb ((M =? 0) && (m =? 0))).
  set (e := {| de_amount := value; de_addr := ad; de_is_subaddress := Some is_sub; de_original := None; de_is_integrated := None |}).
  assert (X : exists k p, kind_sub k = is_sub /\ kind_pid k p = pid /\ bytes_ok p /\ (k = Integrated -> length p = 8%nat) /\ is_sub && match pid with Some _ => true | None => false end = false).
  { unfold is_sub. destruct pid as [p|].
    - destruct Hp as (-> & -> & P1 & P2). exists Integrated, p. split; [reflexivity|]. split; [reflexivity|]. split; [exact P2|]. split; [intros _; exact P1|reflexivity].
    - destruct ((M =? 0) && (m =? 0)); [exists Standard, []|exists Subaddress, []]; (split; [reflexivity|]; split; [reflexivity|]; split; [constructor|]; split; [intros Y; discriminate Y|reflexivity]). }
  destruct X as (k & p & K1 & K2 & K3 & K4 & K5).
  destruct (address_round_trip (hash E) (encp E (sub_D E a b M m)) (encp E (sub_C E a b M m)) n k p hash_is (HBy _) (HBy _) K3 (Hlen _) (Hlen _) K4) as (t & ai & A1 & A2 & A3 & A4 & A5 & A6 & _ & A8 & _).
  exists e, t. split; [|split].
  - unfold gen_output. cbn [wallet cr_view cr_spend_pub]. rewrite not_main. fold is_sub. rewrite K5. cbn [negb guard bind]. rewrite (sub_keys_ok E L a b M m Hb HM Hm). cbn [bind].
    rewrite Hn, <- K1, <- K2, A1. cbn [bind]. rewrite K1. unfold add_output. rewrite Hn. reflexivity.
  - unfold pays_to. cbn [de_amount de_addr de_is_subaddress e]. split; [reflexivity|]. split; [reflexivity|]. split; [reflexivity|]. exists ai.
    rewrite Hn. cbn [spend_public_key view_public_key ad]. rewrite A6, A8. auto 10.
  - split; [exact Hv|]. split; [apply HBy|]. split; [apply HBy|exact I].
Qed.

Lemma zsum_app xs ys : zsum (xs ++ ys) = zsum xs + zsum ys.
Proof. induction xs as [|x xs IH]; [reflexivity|]. cbn [app]. unfold zsum in *. cbn [fold_right]. rewrite IH. apply Z.add_assoc. Qed.
Lemma combine_snoc {A B} (xs : list A) (ys : list B) x y : length xs = length ys -> combine (xs ++ [x]) (ys ++ [y]) = combine xs ys ++ [(x, y)].
Proof. revert ys. induction xs as [|z xs IH]; intros [|w ys] H; try discriminate; [reflexivity|]. cbn [app combine]. rewrite IH by (injection H as H; exact H). reflexivity. Qed.
Lemma sums_eq {A B C} (R : A -> B * C -> Prop) (f : A -> Z) (g : B -> Z) xs : forall (ys : list B) (zs : list C), length ys = length zs -> Forall2 R xs (combine ys zs) -> (forall x y z, R x (y, z) -> g y = f x) -> map g ys = map f xs.
Proof.
  induction xs as [|x xs IH]; intros [|y ys] [|z zs] Hl H HR; try discriminate; cbn [combine] in H; inversion H; subst; [reflexivity|].
  cbn [map]. rewrite (HR x y z) by assumption. f_equal. apply (IH ys zs); [injection Hl as Hl; exact Hl|assumption|exact HR].
Qed.

Context (a b account fee ring : Z) (n : network).
Hypothesis Ha : nz_scalar a.
Hypothesis Hb : nz_scalar b.
Hypothesis Hacc : u32 account.

Definition inv (p : plan) (bl : bld E) : Prop :=
  holds E a b ring (net_code n) p bl /\ Forall src_ok (bo_sources E bl) /\ Forall dst_ok (bo_outputs E bl) /\
  bo_keys E bl = wallet E a b /\ bo_ring E bl = ring /\ bo_net E bl = net_code n /\ bo_fee E bl = fee /\ bo_account E bl = account.
Lemma inv_totals p bl : inv p bl -> zsum_map se_amount (bo_sources E bl) = total_in p /\ zsum_map de_amount (bo_outputs E bl) = total_out p.
Proof.
  intros ((L1 & L2 & F1 & L3 & L4 & F2 & _) & _). rewrite !zsum_map_ok. unfold total_in, total_out. change Lists_spec.zsum with zsum. split.
  - f_equal. refine (sums_eq _ _ _ _ _ _ _ F1 _); [congruence|]. intros x y z (real & P & C & T & adds & R & k & mk & H). apply H.
  - f_equal. refine (sums_eq _ _ _ _ _ _ _ F2 _); [congruence|]. intros [[[v w] i] pid] y z (H & _). exact H.
Qed.
Lemma output_step p bl e t v w i pid : inv p bl -> pays_to E (net_code n) (fst w) (snd w) v (fst i) (snd i) pid e t -> dst_ok e ->
  inv {| pl_in := pl_in p; pl_out := pl_out p ++ [(v, w, i, pid)]; pl_change := pl_change p |} (add_output bl e t).
Proof.
  intros ((L1 & L2 & F1 & L3 & L4 & F2 & S1 & C1) & G1 & G2 & R1 & R2 & R3 & R4 & R5) HP HD. unfold inv, holds. cbn [pl_in pl_out pl_change add_output bo_sources bo_transfers bo_outputs bo_text bo_selected bo_change bo_keys bo_ring bo_net bo_fee bo_account].
  split; [|split; [exact G1|split; [apply Forall_app; split; [exact G2|constructor; [exact HD|constructor]]|auto 10]]].
  split; [exact L1|]. split; [exact L2|]. split; [exact F1|]. rewrite !app_length. cbn [length]. split; [congruence|]. split; [congruence|]. split; [|auto 10].
  rewrite combine_snoc by congruence. apply Forall2_app; [exact F2|]. constructor; [exact HP|constructor].
Qed.
Lemma step_ok p bl c : inv p bl -> sensible E a b account ring c ->
  match planned E a b account fee (Some p) c with
  | Some p' => exists bl', step E bl c = Ok bl' /\ inv p' bl'
  | None => step E bl c = Err ValueError
  end.
Proof.
  intros I S. pose proof I as ((L1 & L2 & F1 & L3 & L4 & F2 & S1 & C1) & G1 & G2 & R1 & R2 & R3 & R4 & R5). destruct c as [v major m additionals d|v dest M m pid|v]; cbn [planned sensible step] in *.
  - destruct S as (Hv & HM & Hm & Hns & Hd). rewrite <- R5 in HM, Hns. rewrite <- R2 in Hd.
    destruct (gen_input_ok E L a b bl v major m additionals d NG HBy Ha Hb R1 HM Hm Hns Hv Hd) as (s & t & Hg & Hr & Hs). rewrite R2, R5 in Hr.
    eexists. split; [exact Hg|]. unfold inv, holds. cbn [pl_in pl_out pl_change add_input bo_sources bo_transfers bo_outputs bo_text bo_selected bo_change bo_keys bo_ring bo_net bo_fee bo_account].
    split; [|split; [apply Forall_app; split; [exact G1|constructor; [exact Hs|constructor]]|auto 10]]. rewrite !app_length. cbn [length].
    split; [congruence|]. split; [congruence|]. split. { rewrite combine_snoc by congruence. apply Forall2_app; [exact F1|]. constructor; [exact Hr|constructor]. }
    split; [exact L3|]. split; [exact L4|]. split; [exact F2|]. split; [|exact C1].
    rewrite S1. unfold zlen. rewrite L2, Nat.add_1_r, seq_S, map_app. reflexivity.
  - destruct S as (Hv & Hw & Hs & HM & Hm & Hp).
    destruct (gen_output_ok bl n (cr_view E dest) (cr_spend E dest) v M m pid R3 Hs HM Hm (proj1 Hv) Hp) as (e & t & Hg & Hr & Hd). rewrite R3 in Hr.
    eexists. split; [rewrite Hw; exact Hg|]. apply output_step; assumption.
  - unfold gen_change. destruct (inv_totals p bl I) as [T1 T2]. rewrite T1, T2, R4. set (x := match v with Some v => v | None => total_in p - total_out p - fee end).
    destruct (Z.ltb_spec x 0) as [Hx|Hx].
    + rewrite (proj2 (Z.leb_gt 0 x) Hx). reflexivity.
    + rewrite (proj2 (Z.leb_le 0 x) Hx). cbn [guard bind]. rewrite R1, R5.
      assert (U0 : u32 0) by (split; [apply Z.le_refl|reflexivity]).
      destruct (gen_output_ok bl n a b x account 0 None R3 (nz_scalar_scalar b Hb) Hacc U0 Hx Logic.I) as (e & t & Hg & Hr & Hd). rewrite R3 in Hr. rewrite Hg. cbn [bind].
      eexists. split; [reflexivity|]. destruct (output_step p bl e t x (a, b) (account, 0) None I Hr Hd) as ((K1 & K2 & K3 & K4 & K5 & K6 & K7 & K8) & K). split; [|exact K].
      unfold holds. cbn [set_change bo_sources bo_transfers bo_outputs bo_text bo_selected bo_change pl_in pl_out pl_change option_map] in *.
      split; [exact K1|]. split; [exact K2|]. split; [exact K3|]. split; [exact K4|]. split; [exact K5|]. split; [exact K6|]. split; [exact K7|].
      f_equal. unfold zlen. rewrite K4, app_length. cbn [length]. clear. lia.
Qed.
Lemma planned_none cs : fold_left (planned E a b account fee) cs None = None.
Proof. induction cs as [|c cs IH]; [reflexivity|]. exact IH. Qed.
Lemma run_ok cs : forall p bl, inv p bl -> Forall (sensible E a b account ring) cs ->
  match fold_left (planned E a b account fee) cs (Some p) with
  | Some p' => exists bl', run E bl cs = Ok bl' /\ inv p' bl'
  | None => run E bl cs = Err ValueError
  end.
Proof.
  induction cs as [|c cs IH]; intros p bl I F; [exists bl; split; [reflexivity|exact I]|].
  inversion F as [|? ? Hc F']; subst. cbn [fold_left]. unfold run. cbn [foldM]. pose proof (step_ok p bl c I Hc) as S.
  destruct (planned E a b account fee (Some p) c) as [p'|].
  - destruct S as (bl' & -> & I'). cbn [bind]. exact (IH p' bl' I' F').
  - rewrite planned_none, S. reflexivity.
Qed.
Lemma inv_fresh : inv {| pl_in := []; pl_out := []; pl_change := None |} (fresh E (wallet E a b) account fee ring (net_code n)).
Proof. unfold inv, holds. cbn. repeat split; constructor. Qed.
End Proof.
