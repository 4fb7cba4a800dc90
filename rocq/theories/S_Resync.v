(* Specification for C96: reading on after damage. *)
From Verif Require Import Base G_Enums M_Raw M_Iter Spec S_Iter S_Local.
Local Open Scope N_scope.

(* none of these items ends the iteration: no error about the division into structures, and
   in version 3 no End structure *)
Definition carries_on (v : SmbiosVersion) (l : list (res Structure)) : Prop :=
  goes_on v l /\ forall e, In (Err e) l -> ~ framing_error e.

(* the structure with this header, formatted area and string area; in memory [post] follows *)
Definition raw_at (v : SmbiosVersion) (k h0 h1 : N) (body area post : list N) : RawStructure := {|
  version := v; info := InfoType_from k; length_ := 4 + len body; handle := h0 + 256 * h1;
  data := body; strings := area; after := area ++ post |}.
