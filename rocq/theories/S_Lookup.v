(* Specification for C99: looking up a structure by its handle.
   Structures refer to each other by handle (README.md; for instance memory_array_handle of
   019_memory_array_mapped_address.rs:20-45), and the crate leaves it to callers to follow the
   reference: a loop over `structures` that passes over what is malformed and stops at the
   first structure with that handle. *)
From Verif Require Import Base G_Enums M_Raw M_Iter Spec S_Iter S_Origin.
Local Open Scope N_scope.

Inductive looks_up (c : cfg) (h : N) : Structures -> option Structure -> Prop :=
| look_found s x s' : next c s = Val (Some (Ok x), s') -> shown_handle x = h -> looks_up c h s (Some x)
| look_other s x s' o : next c s = Val (Some (Ok x), s') -> shown_handle x <> h -> looks_up c h s' o -> looks_up c h s o
| look_malformed s e s' o : next c s = Val (Some (Err e), s') -> looks_up c h s' o -> looks_up c h s o
| look_end s s' : next c s = Val (None, s') -> looks_up c h s None.

(* no structure of the list has the handle *)
Definition nobody (h : N) (l : list Structure) : Prop := forall x, In x l -> shown_handle x <> h.
