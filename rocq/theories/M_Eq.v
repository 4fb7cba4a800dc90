(* Model of the code that `#[derive(PartialEq, Eq, Hash)]` writes, for all types of /repo/src
   that occur in structures.  Such code compares two values part by part, in the order of the
   declaration: first the discriminants of an enum, then the fields, and it stops at the first
   difference; it hashes the same parts in the same order (Rust reference, "Derive"; core::cmp
   and core::hash).  G_Eq lists the parts of each type; here is what is done with them.
   Simplification: nested fields are listed in place, which makes no difference to either. *)
From Coq Require Import String.
From Verif Require Import Base G_Enums M_Raw M_Enclosure M_SystemSlots M_SystemEventLog M_Iter M_Hash.
Local Open Scope N_scope.

Inductive word := U8 | U16 | U32 | U64 | Usize.

(* an integer, a text, a slice (or array) of bytes, the discriminant of an enum, or one of the
   types with hand-written comparison *)
Inductive part :=
| Num (w : word) (n : N)
| Str (t : text)
| Slice (l : list N)
| Tag (k : N)
| Peers (p : PeerDevices)
| Descriptors (d : EventLogTypeDescriptors)
| Elements (e : ContainedElements).

Definition num (w : word) (n : N) : list part := [Num w n].
Definition flag (b : bool) : list part := [Num U8 (if b then 1 else 0)].
Definition str (t : text) : list part := [Str t].
Definition slice (l : list N) : list part := [Slice l].
Definition peers (p : PeerDevices) : list part := [Peers p].
Definition descriptors (d : EventLogTypeDescriptors) : list part := [Descriptors d].
Definition elements (e : ContainedElements) : list part := [Elements e].
(* Option: None is declared first *)
Definition option_parts {A} (f : A -> list part) (o : option A) : list part :=
  match o with None => [Tag 0] | Some x => Tag 1 :: f x end.
(* an enum whose variants have at most one field, an integer *)
Definition variant_parts (w : word) (tag : N) (value : option N) : list part :=
  Tag tag :: match value with None => [] | Some v => [Num w v] end.

Definition part_eq (a b : part) : bool :=
  match a, b with
  | Num _ x, Num _ y => x =? y
  | Str x, Str y => slice_eq x y
  | Slice x, Slice y => slice_eq x y
  | Tag x, Tag y => x =? y
  | Peers x, Peers y => PeerDevices_eq x y
  | Descriptors x, Descriptors y => EventLogTypeDescriptors_eq x y
  | Elements x, Elements y => ContainedElements_eq x y
  | _, _ => false
  end.
Fixpoint derived_eq (a b : list part) : bool :=
  match a, b with
  | [], [] => true
  | x :: a, y :: b => part_eq x y && derived_eq a b
  | _, _ => false
  end.

(* `str` writes its bytes and FFh, a discriminant is written as isize *)
Definition part_hash (a : part) : list call :=
  match a with
  | Num U8 x => [WriteU8 x]
  | Num U16 x => [WriteU16 x]
  | Num U32 x => [WriteU32 x]
  | Num U64 x => [WriteU64 x]
  | Num Usize x => [WriteUsize x]
  | Str x => [WriteBytes x; WriteU8 0xFF]
  | Slice x => slice_hash x
  | Tag k => [WriteIsize k]
  | Peers p => PeerDevices_hash p
  | Descriptors d => EventLogTypeDescriptors_hash d
  | Elements e => ContainedElements_hash e
  end.
Definition derived_hash (a : list part) : list call := flat_map part_hash a.
