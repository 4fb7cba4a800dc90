(* Specification of equality and hashing: the contracts of Rust's `Eq` and `Hash`. *)
From Coq Require Import String.
From Verif Require Import Base Spec M_Hash.
Local Open Scope N_scope.

(* `Eq`: == is an equivalence relation *)
Definition equivalence {A} (eq : A -> A -> bool) : Prop :=
  (forall a, eq a a = true) /\ (forall a b, eq a b = true -> eq b a = true) /\
  (forall a b c, eq a b = true -> eq b c = true -> eq a c = true).

(* `Hash`: equal values feed the same to the hasher *)
Definition hash_agrees {A} (eq : A -> A -> bool) (hash : A -> list call) : Prop :=
  forall a b, eq a b = true -> hash a = hash b.
(* different values feed something different *)
Definition hash_separates {A} (eq : A -> A -> bool) (hash : A -> list call) : Prop :=
  forall a b, hash a = hash b -> eq a b = true.

(* both iterators yield the same items until they end *)
Definition yield_the_same {S A} (next : S -> out (option A * S)) (a b : S) : Prop :=
  exists l a' b', drains next a l a' /\ drains next b l b'.
