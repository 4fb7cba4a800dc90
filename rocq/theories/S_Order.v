(* Tables whose structures are put in another order, or left out. *)
From Verif Require Import Base G_Enums M_Raw M_Entry M_Iter Spec S_Iter.
Local Open Scope N_scope.

(* no structure ends the iteration before the end of the table *)
Definition no_end (v : SmbiosVersion) (ss : list encodable) : Prop :=
  3 <= major v -> Forall (fun s => e_type s <> 127) ss.

(* the iterator over a buffer that holds just the structure s *)
Definition only (v : SmbiosVersion) (s : encodable) : Structures :=
  {| smbios_version := v; smbios_len_ := len (encode s); idx := 0; buffer := encode s |}.

(* the item of a table that consists of s, as a caller sees it, is i *)
Definition gives_alone (c : cfg) (v : SmbiosVersion) (s : encodable) (i : res Structure) : Prop :=
  exists x s1, next c (only v s) = Val (Some x, s1) /\ seen x = seen i.

(* the entry point e announces exactly the well-formed table of ss *)
Definition announces_just (e : EntryPoint) (ss : list encodable) : Prop :=
  Forall encodable_ok ss /\ no_end (ep_to_version e) ss /\ ep_smbios_len e = len (table ss) /\
  all_bytes (table ss) /\ len (table ss) + 260 <= 2 ^ 32.
