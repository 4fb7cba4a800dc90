(* What a machine of the other byte order sees in the place of a structure. *)
From Verif Require Import Base G_Enums M_Raw M_SystemSlots M_Iter Spec S_Endian.
Local Open Scope N_scope.

(* SMBIOS specification, chapter 7: the widths, in order, of the fields behind the header, for
   the structures of which the crate copies fields wider than a byte.  The field at 2 of a
   BIOS structure is the starting segment, the one at 6 the characteristics, and so on. *)
Definition widths (i : InfoType) : list N :=
  match i with
  | InfoType_Bios => [1; 1; 2; 1; 1; 8; 1; 1; 1; 1; 1; 1; 2]
  | InfoType_BaseBoard => [1; 1; 1; 1; 1; 1; 1; 2; 1]
  | InfoType_Enclosure => [1; 1; 1; 1; 1; 1; 1; 1; 1; 4]
  | InfoType_Processor => [1; 1; 1; 1; 8; 1; 1; 2; 2; 2; 1; 1; 2; 2; 2; 1; 1; 1; 1; 1; 1; 2; 2; 2; 2; 2]
  | InfoType_Cache => [1; 2; 2; 2; 2; 2; 1; 1; 1; 1; 4; 4]
  | _ => []
  end.

(* each field of these widths with its bytes in the opposite order; the rest as it is *)
Fixpoint respell (ws : list N) (m : list N) : list N :=
  match ws with
  | [] => m
  | w :: rest => if w <=? len m then rev (take w m) ++ respell rest (drop w m) else m
  end.

(* The structure with these fields respelled.  A packed structure that is longer than the
   formatted area extends into the memory behind it. *)
Definition respelled (r : RawStructure) : RawStructure :=
  let m := respell (widths (info r)) (data r ++ after r) in
  {| version := version r; info := info r; length_ := length_ r; handle := handle r;
     data := take (len (data r)) m; strings := strings r; after := drop (len (data r)) m |}.

(* both succeed, both give an error, both panic or both read past the memory *)
Definition alike {A B} (x : out (res A)) (y : out (res B)) : Prop :=
  match x, y with
  | Val (Ok _), Val (Ok _) | Val (Err _), Val (Err _) | Panic, Panic | UB, UB => True
  | _, _ => False
  end.

(* an item of the iteration on a little-endian machine, and the item that a big-endian one has
   in its place: the same framing error, or the same structure with its handle and its
   wide fields respelled *)
Definition counterpart (c : cfg) (x y : res Structure) : Prop :=
  (x = y /\ exists e, x = Err e) \/
  (exists r t, mirrored_raw r t /\ dispatch c r = Val x /\ dispatch c (respelled t) = Val y /\ alike (Val x) (Val y)).

(* the same peer device, but for the bytes of its segment group *)
Definition peers_alike (x y : Device) : Prop :=
  reversed 2 (device_segment_group_number x) (device_segment_group_number y) /\
  device_bus_number x = device_bus_number y /\
  device_device_and_function_number x = device_device_and_function_number y /\
  device_data_bus_width x = device_data_bus_width y.
