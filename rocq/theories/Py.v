(** Python base notions shared by every model file: exceptions as values,
    list indexing/slicing with Python's negative-index rule, byte strings.
    Nothing here models a particular function of /repo; the definitions give
    the meaning of the Python expressions the other models are written in. *)
From Coq Require Export List ZArith Lia Bool.
From Coq Require Export ZifyBool ZifyNat.
Export ListNotations.
#[global] Open Scope Z_scope.

Ltac Zify.zify_post_hook ::= Z.div_mod_to_equations.

(** Exceptions.  [OutOfFuel] is not a Python exception: it is the value of a
    loop whose explicit fuel ran out; theorems exclude it. *)
Inductive exn :=
| ValueError | IndexError | TypeError | KeyError | AssertionError
| StructError | ZeroDivision | OverflowErr | EOFErr | AttributeError | MoneroError | OutOfFuel.

Inductive res (A : Type) := Ok (a : A) | Err (e : exn).
Arguments Ok {A} a.
Arguments Err {A} e.

Definition bind {A B} (x : res A) (f : A -> res B) : res B :=
  match x with Ok a => f a | Err e => Err e end.
Notation "'let*' x ':=' e 'in' k" := (bind e (fun x => k))
  (at level 200, x pattern, e at level 100, k at level 200, right associativity).

Definition is_ok {A} (x : res A) : bool := match x with Ok _ => true | Err _ => false end.

(** [guard b e]: [if not b: raise e]. *)
Definition guard (b : bool) (e : exn) : res unit := if b then Ok tt else Err e.

Lemma bind_ok_inv {A B} (x : res A) (f : A -> res B) b :
  bind x f = Ok b -> exists a, x = Ok a /\ f a = Ok b.
Proof. destruct x; cbn; [eauto|discriminate]. Qed.

Lemma guard_ok_inv b e u : guard b e = Ok u -> b = true.
Proof. destruct b; cbn; congruence. Qed.

(** Byte strings: lists of integers in [0,256). *)
Definition byte_ok (b : Z) : Prop := 0 <= b < 256.
Definition bytes_ok (l : list Z) : Prop := Forall byte_ok l.
Definition byte_okb (b : Z) : bool := (0 <=? b) && (b <? 256).
Definition bytes_okb (l : list Z) : bool := forallb byte_okb l.

Lemma bytes_okb_spec l : bytes_okb l = true <-> bytes_ok l.
Proof.
  unfold bytes_okb, bytes_ok. rewrite forallb_forall, Forall_forall.
  split; intros H x Hx; specialize (H x Hx); unfold byte_okb, byte_ok in *; lia.
Qed.

(** len(l) as a Python int. *)
Definition zlen {A} (l : list A) : Z := Z.of_nat (length l).

(** l[i] with Python's negative index rule. *)
Definition py_idx (len i : Z) : option nat :=
  if (0 <=? i) && (i <? len) then Some (Z.to_nat i)
  else if (i <? 0) && (0 <=? i + len) then Some (Z.to_nat (i + len))
  else None.

Definition py_get {A} (l : list A) (i : Z) : res A :=
  match py_idx (zlen l) i with
  | Some k => match nth_error l k with Some a => Ok a | None => Err IndexError end
  | None => Err IndexError
  end.

Fixpoint upd {A} (l : list A) (k : nat) (v : A) : list A :=
  match l, k with
  | [], _ => []
  | _ :: t, O => v :: t
  | h :: t, S k => h :: upd t k v
  end.

(** l[i] = v *)
Definition py_set {A} (l : list A) (i : Z) (v : A) : res (list A) :=
  match py_idx (zlen l) i with
  | Some k => Ok (upd l k v)
  | None => Err IndexError
  end.

(** l[a:b] *)
Definition py_clamp (len i : Z) : Z :=
  let i := if i <? 0 then i + len else i in
  if i <? 0 then 0 else if len <? i then len else i.
Definition py_slice {A} (l : list A) (a b : Z) : list A :=
  let a := py_clamp (zlen l) a in
  let b := py_clamp (zlen l) b in
  firstn (Z.to_nat (b - a)) (skipn (Z.to_nat a) l).
(** l[a:] *)
Definition py_from {A} (l : list A) (a : Z) : list A :=
  skipn (Z.to_nat (py_clamp (zlen l) a)) l.
(** l[:b] *)
Definition py_upto {A} (l : list A) (b : Z) : list A :=
  firstn (Z.to_nat (py_clamp (zlen l) b)) l.

(** range(n) *)
Definition zrange (n : Z) : list Z := map Z.of_nat (seq 0 (Z.to_nat n)).

(** l.index(x): ValueError when absent *)
Fixpoint py_index_from (l : list Z) (x : Z) (k : Z) : res Z :=
  match l with
  | [] => Err ValueError
  | h :: t => if h =? x then Ok k else py_index_from t x (k + 1)
  end.
Definition py_index (l : list Z) (x : Z) : res Z := py_index_from l x 0.

(** a for-loop over a list with a state that may raise *)
Fixpoint foldM {A S} (f : S -> A -> res S) (l : list A) (s : S) : res S :=
  match l with
  | [] => Ok s
  | a :: t => let* s' := f s a in foldM f t s'
  end.

(** [f(x) for x in l] *)
Fixpoint mapM {A B} (f : A -> res B) (l : list A) : res (list B) :=
  match l with
  | [] => Ok []
  | a :: t => let* b := f a in let* bs := mapM f t in Ok (b :: bs)
  end.

(** bytes/str equality *)
Fixpoint zlist_eqb (a b : list Z) : bool :=
  match a, b with
  | [], [] => true
  | x :: a, y :: b => (x =? y) && zlist_eqb a b
  | _, _ => false
  end.
