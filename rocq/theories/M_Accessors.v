(* Small public functions of /repo/src that the other model files leave out. *)
From Verif Require Import Base G_Enums M_Raw M_Bitfield M_Enclosure M_SystemSlots.
Local Open Scope N_scope.

(* src/structures/003_enclosure.rs:434-436 `ContainedElements::count`.  An inherent
   method: it wins over Iterator::count in method calls. *)
Definition ContainedElements_count (e : ContainedElements) : N := ce_count e.

(* src/structures/009_system_slots.rs:846-850 `impl From<&[u8]> for PeerDevices` *)
Definition PeerDevices_from (p : list N) : PeerDevices := {| peer_chunks := p |}.

(* src/lib.rs:438-446 `Error::source for MalformedStructureError`: whether there is a
   cause (the TryFromSliceError has no data) *)
Definition MalformedStructureError_source (e : MalformedStructureError) : bool :=
  match e with InvalidSlice => true | _ => false end.

(* src/bitfield.rs:66-78 `trait BitField`: value is the field itself, iter,
   significants and reserved start the three iterators; bitfield.rs:264-268
   `Significants::new` *)
Definition BitField_iter (size value : N) (layout : Layout) : Iter := iter_new size value layout.
Definition BitField_significants (size value : N) (layout : Layout) : Iter := BitField_iter size value layout.
Definition BitField_reserved (size value : N) (layout : Layout) : Reserved := reserved_new (BitField_iter size value layout).
