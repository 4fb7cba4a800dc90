(* Specification for C105: the fields that hold a list, or lie behind one, whose length the
   structure states itself. *)
From Coq Require Import String.
From Verif Require Import Base G_Enums M_Raw S_Places S_Deciding.
Local Open Scope string_scope.
Local Open Scope N_scope.

(* Of a structure of type i with the bytes d behind its header: the name of each such field,
   the bytes that say how long the list is, and the bytes of the field itself. *)
Definition counted (i : InfoType) (d : list N) : list (string * place * place) :=
  match i with
  | InfoType_Enclosure =>
      (* number and length of the records; the crate multiplies them in one byte *)
      let n := (offset_byte 0x13 d * offset_byte 0x14 d) mod 256 in
      [("contained_elements", Bytes 0x13 2, Bytes 0x15 n); ("sku_number", Bytes 0x13 2, Bytes (0x15 + n) 1)]
  | InfoType_SystemSlots =>
      (* number of the peer groups, of five bytes each; one byte behind them belongs to no field *)
      let n := 5 * offset_byte 0x12 d in
      [("peer_devices", Bytes 0x12 1, Bytes 0x13 n); ("slot_information", Bytes 0x12 1, Bytes (0x14 + n) 1);
       ("slot_physical_width", Bytes 0x12 1, Bytes (0x15 + n) 1); ("slot_pitch", Bytes 0x12 1, Bytes (0x16 + n) 2)]
  | InfoType_SystemEventLog =>
      (* number and length of the descriptors *)
      [("supported_event_log_type_descriptors", Bytes 0x15 2, Bytes 0x17 (offset_byte 0x15 d * offset_byte 0x16 d))]
  | _ => []
  end.

(* the bytes lie within a structure with the bytes d behind its header *)
Definition inside (d : list N) (p : place) : Prop :=
  match p with Bytes from n => from + n <= 4 + len d | From _ => True end.

(* the bytes behind the first list that belong to no field: whatever follows the last field,
   and the byte between the peer groups of a slot and the slot information *)
Definition unused (i : InfoType) (d : list N) (k : N) : Prop :=
  match i with
  | InfoType_Enclosure => 0x15 + (offset_byte 0x13 d * offset_byte 0x14 d) mod 256 < k
  | InfoType_SystemSlots => k = 0x13 + 5 * offset_byte 0x12 d \/ 0x18 + 5 * offset_byte 0x12 d <= k
  | _ => False
  end.
