(* Specification for C62: comparing builds. *)
From Verif Require Import Base.

(* [stricter c1 c2]: c1 checks overflow whenever c2 does, and c1 tolerates reads past
   the end of a structure only if c2 does, on machines of the same width *)
Definition stricter (c1 c2 : cfg) : Prop :=
  (overflow_checks c2 = true -> overflow_checks c1 = true) /\ (flat_memory c1 = true -> flat_memory c2 = true) /\
  pointer_width c1 = pointer_width c2.

(* [same_build c1 c2]: the same but for the width of the machine *)
Definition same_build (c1 c2 : cfg) : Prop := overflow_checks c1 = overflow_checks c2 /\ flat_memory c1 = flat_memory c2.

(* what the one returns, the other returns *)
Definition carries {A} (m1 m2 : out A) : Prop := forall x, m1 = Val x -> m2 = Val x.
