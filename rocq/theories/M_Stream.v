(* Model of what a hasher receives as bytes.  The crate only calls the methods of
   core::hash::Hasher through `Hash` (derived everywhere but in 003_enclosure.rs:447-453,
   009_system_slots.rs:857-861 and 015_system_event_log/mod.rs:368-372; see M_Hash and M_Eq);
   by default write_u8 .. write_usize and write_isize pass the bytes of the number, in the
   byte order of the machine (to_ne_bytes), to `write`, and so do the hashers of std. *)
From Coq Require Import String.
From Verif Require Import Base G_Enums M_Raw M_Iter M_Hash M_Eq G_Eq.
Local Open Scope N_scope.

(* n as k bytes, lowest first *)
Fixpoint lowest_first (k : nat) (n : N) : list N :=
  match k with O => [] | S k => n mod 256 :: lowest_first k (n / 256) end.
(* to_ne_bytes; [big]: the machine stores the highest byte first *)
Definition ne_bytes (big : bool) (k : nat) (n : N) : list N :=
  if big then rev (lowest_first k n) else lowest_first k n.
Definition usize_bytes (c : cfg) : nat := match pointer_width c with W32 => 4 | W64 => 8 end.

(* the bytes of one call; a discriminant (isize) is never negative here *)
Definition call_bytes (c : cfg) (big : bool) (a : call) : list N :=
  match a with
  | WriteUsize n => ne_bytes big (usize_bytes c) n
  | WriteIsize n => ne_bytes big (usize_bytes c) n
  | WriteBytes l => l
  | WriteU8 n => ne_bytes big 1 n
  | WriteU16 n => ne_bytes big 2 n
  | WriteU32 n => ne_bytes big 4 n
  | WriteU64 n => ne_bytes big 8 n
  end.
Definition stream (c : cfg) (big : bool) (l : list call) : list N := flat_map (call_bytes c big) l.
Definition Structure_stream (c : cfg) (big : bool) (x : Structure) : list N := stream c big (Structure_hash x).
