(* Model of the hand-written `PartialEq` and `Hash` implementations of /repo/src: three
   types that wrap core::slice::Chunks, which has neither.  All others are derived. *)
From Coq Require Import String.
From Verif Require Import Base G_Enums M_Raw M_Enclosure M_SystemSlots M_SystemEventLog.
Local Open Scope N_scope.

(* `Iterator::eq` on iterators over slices: items are compared one by one until one of
   the iterators ends *)
Fixpoint slice_eq (a b : list N) : bool :=
  match a, b with
  | [], [] => true
  | x :: a, y :: b => (x =? y) && slice_eq a b
  | _, _ => false
  end.
Fixpoint iter_eq (a b : list (list N)) : bool :=
  match a, b with
  | [], [] => true
  | x :: a, y :: b => slice_eq x y && iter_eq a b
  | _, _ => false
  end.

(* the calls a `hash` makes on its Hasher, in order; a slice of u8 first writes its
   length (write_length_prefix) and then all bytes *)
Inductive call :=
| WriteUsize (n : N) | WriteBytes (l : list N) | WriteU8 (n : N)
| WriteU16 (n : N) | WriteU32 (n : N) | WriteU64 (n : N) | WriteIsize (n : N).
Definition slice_hash (l : list N) : list call := [WriteUsize (len l); WriteBytes l].

(* 009_system_slots.rs:851-855 and 857-861 *)
Definition PeerDevices_eq (a b : PeerDevices) : bool := iter_eq (chunks 5 (peer_chunks a)) (chunks 5 (peer_chunks b)).
Definition PeerDevices_hash (a : PeerDevices) : list call := flat_map slice_hash (chunks 5 (peer_chunks a)).

(* 015_system_event_log/mod.rs:362-366 and 368-372 *)
Definition EventLogTypeDescriptors_eq (a b : EventLogTypeDescriptors) : bool :=
  iter_eq (chunks (descriptors_size a) (descriptors_data a)) (chunks (descriptors_size b) (descriptors_data b)).
Definition EventLogTypeDescriptors_hash (a : EventLogTypeDescriptors) : list call :=
  flat_map slice_hash (chunks (descriptors_size a) (descriptors_data a)).

(* 003_enclosure.rs:439-445 and 447-453; the chunk size is the record length except
   for the empty slice, which has no chunks *)
Definition ContainedElements_eq (a b : ContainedElements) : bool :=
  iter_eq (chunks (ce_record_length a) (ce_chunks a)) (chunks (ce_record_length b) (ce_chunks b)) &&
  (ce_count a =? ce_count b) && (ce_record_length a =? ce_record_length b).
Definition ContainedElements_hash (a : ContainedElements) : list call :=
  flat_map slice_hash (chunks (ce_record_length a) (ce_chunks a)) ++ [WriteU8 (ce_count a); WriteU8 (ce_record_length a)].
