(** * State-and-exception computations

    A Python statement sequence over mutable objects: it may raise, and what it changed
    before raising stays changed.  Nothing here models a particular function of /repo. *)
From Verif Require Import Model.Base.

(** a computation: from a state to a value or an exception, and a state *)
Definition st (S A : Type) : Type := S -> result A * S.
(** a value, and no effect *)
Definition ret {S A} (a : A) : st S A := fun s => (Ok a, s).
(** Python: raise e *)
Definition raise {S A} (e : exn) : st S A := fun s => (Err e, s).
(** one statement after the other: an exception ends both, its effects stay *)
Definition bind {S A B} (m : st S A) (k : A -> st S B) : st S B :=
  fun s => match m s with
           | (Ok a, s') => k a s'
           | (Err e, s') => (Err e, s')
           end.
Notation "'let!' x := m 'in' k" := (bind m (fun x => k))
  (at level 200, x pattern, m at level 100, k at level 200, right associativity).
Notation "m ;; k" := (bind m (fun _ => k)) (at level 199, right associativity).
(** an expression without effects *)
Definition lift {S A} (r : result A) : st S A := fun s => (r, s).
(** reading the state *)
Definition gets {S A} (f : S -> A) : st S A := fun s => (Ok (f s), s).
(** changing the state *)
Definition modify {S} (f : S -> S) : st S unit := fun s => (Ok tt, f s).
(** assert b *)
Definition check {S} (b : bool) : st S unit := lift (assertr b).
(** for x in l: f(x) *)
Fixpoint foreach {S A} (f : A -> st S unit) (l : list A) : st S unit :=
  match l with
  | [] => ret tt
  | x :: l' => f x;; foreach f l'
  end.
(** [f(x) for x in l] *)
Fixpoint mapm {S A B} (f : A -> st S B) (l : list A) : st S (list B) :=
  match l with
  | [] => ret []
  | x :: l' => let! y := f x in let! ys := mapm f l' in ret (y :: ys)
  end.
