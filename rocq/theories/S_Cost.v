(* The work of going through a whole table. *)
From Verif Require Import Base M_Raw M_Iter M_Cost Spec.
Local Open Scope N_scope.

(* turns of the loop inside one call of next *)
Definition turns (c : cfg) (s : Structures) : N := snd (next_raw_counted c s).

(* [work c s n]: calling next until it answers None (or the program dies) takes n turns *)
Inductive work (c : cfg) : Structures -> N -> Prop :=
| work_end s s' : next c s = Val (None, s') -> work c s (turns c s)
| work_panic s : next c s = Panic -> work c s (turns c s)
| work_ub s : next c s = UB -> work c s (turns c s)
| work_item s x s' n : next c s = Val (Some x, s') -> work c s' n -> work c s (turns c s + n).
