(* Vocabulary for "which values come out". *)
From Verif Require Import Base S_Enums.
Local Open Scope N_scope.

(* some code below the bound is decoded to x *)
Definition comes_out {A} (from : N -> A) (bound : N) (x : A) : Prop := exists k, k < bound /\ from k = x.
(* v is a code below the bound that the table does not name *)
Definition nameless {A} (codes : list (N * A)) (bound v : N) : Prop := v < bound /\ named codes v = None.
