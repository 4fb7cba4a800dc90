(* Specification for C89: an iterator over a buffer that lacks its last bytes. *)
From Verif Require Import Base M_Iter.
Local Open Scope N_scope.

(* the same iterator over the first m bytes of its buffer; the announced length stays *)
Definition cut_to (m : N) (s : Structures) : Structures :=
  {| smbios_version := smbios_version s; smbios_len_ := smbios_len_ s; idx := idx s; buffer := take m (buffer s) |}.
