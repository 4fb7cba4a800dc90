(* Specification for C102: what a method gives, in terms of the items that the calls of next
   yield from here on (Spec.runs), and of the way they end. *)
From Verif Require Import Base Spec M_Methods.
Local Open Scope N_scope.

(* the method returns that (or panics, or reads out of bounds) if it may take its time *)
Definition returns {X : Type} (m : nat -> option (out X)) (o : out X) : Prop := exists turns, m turns = Some o.
Definition never_returns {X : Type} (m : nat -> option (out X)) : Prop := forall turns, m turns = None.

(* all items were taken: what comes out depends on how they ended *)
Definition at_the_end {S X : Type} (e : ending S) (x : S -> X) : out X :=
  match e with Exhausted s => Val (x s) | Panicked => Panic | Undefined => UB end.

(* the first item with that property, and what comes before and after it *)
Definition first_such {A : Type} (p : A -> bool) (l before : list A) (x : A) (rest : list A) : Prop :=
  l = before ++ x :: rest /\ Forall (fun y => p y = false) before /\ p x = true.
(* there is none *)
Definition none_such {A : Type} (p : A -> bool) (l : list A) : Prop := Forall (fun y => p y = false) l.

(* the method returns x, and the calls of next go on with those items and that end *)
Definition returns_and_leaves {S A X : Type} (next : S -> out (option A * S)) (m : nat -> option (out (X * S))) (x : X)
  (rest : list A) (e : ending S) : Prop := exists s', returns m (Val (x, s')) /\ runs next s' rest e.
