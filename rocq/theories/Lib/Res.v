(** Outcomes of a C++ computation.  Undefined behaviour and exhaustion of an explicit
    recursion bound are distinct outcomes, never ordinary values. *)
From Coq Require Import List.
Import ListNotations.

(** The exceptions the modelled code can raise. *)
Inductive exn : Type :=
| RangeError      (* std::range_error *)
| OutOfRange      (* std::out_of_range (std::string::substr and friends) *)
| LengthError     (* std::length_error (std::vector::reserve and friends) *)
| BadAlloc        (* std::bad_alloc *)
| OtherExn.       (* any other thrown object *)

Inductive res (A : Type) : Type :=
| Ok (a : A)
| Throw (e : exn)
| UB
| Fuel.
Arguments Ok {A} a.
Arguments Throw {A} e.
Arguments UB {A}.
Arguments Fuel {A}.

Definition bind {A B} (m : res A) (f : A -> res B) : res B :=
  match m with
  | Ok a => f a
  | Throw e => Throw e
  | UB => UB
  | Fuel => Fuel
  end.

Definition rmap {A B} (f : A -> B) (m : res A) : res B := bind m (fun a => Ok (f a)).

Declare Scope res_scope.
Delimit Scope res_scope with res.
Notation "x <- m ;; k" := (bind m (fun x => k))
  (at level 61, m at next level, right associativity) : res_scope.
Notation "' p <- m ;; k" := (bind m (fun x => match x with p => k end))
  (at level 61, p pattern, m at next level, right associativity) : res_scope.
Global Open Scope res_scope.

(** [safe m]: the computation has defined behaviour and finishes. *)
Definition safe {A} (m : res A) : Prop :=
  match m with Ok _ | Throw _ => True | UB | Fuel => False end.

Definition is_ok {A} (m : res A) : bool :=
  match m with Ok _ => true | _ => false end.

(** Sequencing over a list, stopping at the first non-[Ok] outcome. *)
Fixpoint mapM {A B} (f : A -> res B) (l : list A) : res (list B) :=
  match l with
  | [] => Ok []
  | x :: xs => y <- f x ;; ys <- mapM f xs ;; Ok (y :: ys)
  end.

Lemma bind_ok {A B} (m : res A) (f : A -> res B) (b : B) :
  bind m f = Ok b -> exists a, m = Ok a /\ f a = Ok b.
Proof. destruct m; simpl; intros H; try discriminate; eauto. Qed.

Lemma bind_Ok_l {A B} (a : A) (f : A -> res B) : bind (Ok a) f = f a.
Proof. reflexivity. Qed.

Lemma bind_assoc {A B C} (m : res A) (f : A -> res B) (g : B -> res C) :
  bind (bind m f) g = bind m (fun a => bind (f a) g).
Proof. destruct m; reflexivity. Qed.

Lemma safe_bind {A B} (m : res A) (f : A -> res B) :
  safe m -> (forall a, m = Ok a -> safe (f a)) -> safe (bind m f).
Proof. destruct m; simpl; auto. Qed.
