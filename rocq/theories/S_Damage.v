(* Specification for C88: damaged entry points.  Byte positions only; no part of the model's
   search is used. *)
From Verif Require Import Base G_Enums M_Raw M_Entry Spec S_Entry.
Local Open Scope N_scope.

(* the n bytes that the checksum of the entry point at o covers *)
Definition covered (n o : N) (b : list N) : list N := take n (drop o b).

(* b' is as long as b and differs from it only in the n bytes from o on, but in neither the
   anchor string nor the length byte of an entry point of kind k there *)
Definition damaged_inside (k : EntryPointFormat) (n o : N) (b b' : list N) : Prop :=
  len b' = len b /\
  forall i, byte_at b' i <> byte_at b i -> exists j, i = o + j /\ j < n /\ ~ anchor_or_length k j.

(* SMBIOS specification, table 1: the intermediate anchor string "_DMI_" and the bytes of the
   intermediate checksum *)
Definition intermediate_anchor : list N := [95; 68; 77; 73; 95].
Definition intermediate_sum (o : N) (b : list N) : N := total (take 15 (drop (o + 16) b)) mod 256.
