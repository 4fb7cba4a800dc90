(* Specification for C63-C65: comparing iterations over related buffers. *)
From Verif Require Import Base G_Enums M_Raw M_Iter Spec S_Iter.
Local Open Scope N_scope.

(* [reaches next s l s']: calling next from s, once per item, yields l and leaves s' *)
Inductive reaches {S A : Type} (next : S -> out (option A * S)) : S -> list A -> S -> Prop :=
| reaches_here s : reaches next s [] s
| reaches_on s a s1 l s' : next s = Val (Some a, s1) -> reaches next s1 l s' -> reaches next s (a :: l) s'.

(* an iterator at the start of a buffer announced with n bytes *)
Definition start (v : SmbiosVersion) (n : N) (b : list N) : Structures :=
  {| smbios_version := v; smbios_len_ := n; idx := 0; buffer := b |}.

(* the same iterator over the same bytes, but with p in front of them *)
Definition shifted (p : list N) (s : Structures) : Structures :=
  {| smbios_version := smbios_version s; smbios_len_ := len p + smbios_len_ s; idx := len p + idx s; buffer := p ++ buffer s |}.
(* the errors about the division into structures name a position *)
Definition further (k : N) (x : res Structure) : res Structure :=
  match x with
  | Err (BadSize p l) => Err (BadSize (k + p) l)
  | Err (UnterminatedStrings p) => Err (UnterminatedStrings (k + p))
  | _ => x
  end.
Definition shifted_ending (p : list N) (e : ending Structures) : ending Structures :=
  match e with Exhausted s => Exhausted (shifted p s) | Panicked => Panicked | Undefined => Undefined end.

(* no item of the list is an End structure that a version 3 reader stops at *)
Definition goes_on (v : SmbiosVersion) (l : list (res Structure)) : Prop :=
  3 <= major v -> forall r, In (Ok (SOther r)) l -> info r <> InfoType_End.

(* the same iterator, announced with n bytes *)
Definition announced (n : N) (s : Structures) : Structures :=
  {| smbios_version := smbios_version s; smbios_len_ := n; idx := idx s; buffer := buffer s |}.
