(** C24: storing the session and loading it back is invisible. *)
From Coq Require Import String Ascii.
From Verif Require Import Py Signer_model StateSave_model StateSave_spec StateSave_proof Signer_toy.
Local Open Scope string_scope.

(** every attribute of every builder object survives, except the back reference to the signer, which is the new object's *)
Theorem C24_attributes (V : Type) (h0 b0 b : dict V) : NoDup (keys h0) -> NoDup (keys b0) -> NoDup (keys b) -> classes_ok b ->
  (forall x, In x (keys h0) -> travels x /\ In x (keys b)) -> (forall x, In x (keys b0) -> In x (keys b)) ->
  exists t b', state_save h0 b = Ok t /\ state_load b0 t = Ok b' /\
    (forall x, travels x -> getattr b' x = getattr b x) /\ (forall x, ~ travels x -> getattr b x <> Some PNone -> getattr b' x = getattr b0 x).
Proof. exact (save_load h0 b0 b). Qed.
Print Assumptions C24_attributes.

(** a device storing its state in a holder after every message answers every history like one that keeps the builder object.
    [h0]: a new holder; [b0]: a new builder object before state_load *)
Theorem C24_histories (C : ops) (h0 b0 : dict (aval C)) (cr : creds C) (h : list (tape * msg)) :
  keys h0 = holder_names -> NoDup (keys b0) -> (forall x, In x (keys b0) -> In x (keys (object_of C (new_builder C cr)))) ->
  run_stored C h0 b0 cr None h = Ok (snd (run C cr None h)).
Proof. intros Kh Nb Kb. apply (run_same C h0 b0 Kh Nb Kb cr h None None). exact I. Qed.
Print Assumptions C24_histories.

(** a concrete holder and builder object meet the hypotheses *)
Example C24_case : forall (C : ops) (cr : creds C) h,
  run_stored C (map (fun n => (n, PNone)) holder_names) (object_of C (new_builder C cr)) cr None h = Ok (snd (run C cr None h)).
Proof.
  intros C cr h. apply C24_histories; [unfold keys; rewrite map_map; apply map_id| |auto].
  rewrite names_of. apply nodup_names.
Qed.
