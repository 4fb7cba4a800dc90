(* Specification for C94: what is printed for the flags of a flag word. *)
From Coq Require Import String.
From Verif Require Import Base S_BitNames.
Local Open Scope N_scope.

(* The texts for the bits of [v] that are set and have a name, in the order of the table:
   the short names, or with [long] the long ones. *)
Fixpoint texts_of (long : bool) (names : list bits) (v : N) : list string :=
  match names with
  | [] => []
  | Bit k short full :: names =>
    if N.testbit v k then (if long then full else short) :: texts_of long names v else texts_of long names v
  | Bits _ _ _ :: names => texts_of long names v
  end.

(* The name that a bit has in a table, printed in short or at length. *)
Definition text_of (long : bool) (names : list bits) (k : N) (t : string) : Prop :=
  exists short full, In (Bit k short full) names /\ t = if long then full else short.
