(* Specification for C104: the bytes that decide whether a structure can be decoded. *)
From Verif Require Import Base G_Enums M_Raw M_Iter Spec S_Decode S_Reworded S_Places.
Local Open Scope N_scope.

(* the byte at an offset of a structure with the bytes d behind its header *)
Definition offset_byte (k : N) (d : list N) : N := nth (N.to_nat (k - 4)) d 0.

(* For each type the bytes with the numbers of the strings that must be there, and the bytes
   that say how long a part of the structure is.  The product of the two bytes of an
   enclosure is computed in one byte. *)
Definition deciding (v : SmbiosVersion) (i : InfoType) (d : list N) : list place :=
  match i with
  | InfoType_Bios => [Bytes 0x04 2; Bytes 0x08 1]
  | InfoType_System => if since v 2 4 then [Bytes 0x04 4; Bytes 0x19 2] else [Bytes 0x04 4]
  | InfoType_BaseBoard => [Bytes 0x04 5; Bytes 0x0A 1]
  | InfoType_Enclosure =>
      [Bytes 0x04 1; Bytes 0x06 3; Bytes 0x13 2; Bytes (0x15 + (offset_byte 0x13 d * offset_byte 0x14 d) mod 256) 1]
  | InfoType_Processor =>
      if since v 2 3 then [Bytes 0x04 1; Bytes 0x07 1; Bytes 0x10 1; Bytes 0x20 3]
      else [Bytes 0x04 1; Bytes 0x07 1; Bytes 0x10 1]
  | InfoType_Cache => if since v 2 1 then [Bytes 0x04 1] else []
  | InfoType_PortConnector => [Bytes 0x04 1; Bytes 0x06 1]
  | InfoType_SystemSlots => [Bytes 0x04 1]
  | InfoType_SystemConfigurationOptions => [Bytes 0x04 1]
  | InfoType_GroupAssociations => [Bytes 0x04 1]
  | InfoType_SystemEventLog => if (major v =? 2) && (minor v =? 0) then [] else [Bytes 0x15 2]
  (* a capacity of 80000000h calls for eight bytes more *)
  | InfoType_PhysicalMemoryArray => if since v 2 8 then [Bytes 0x07 4] else []
  | InfoType_MemoryDevice => [Bytes 0x10 2; Bytes 0x17 4]
  | InfoType_PortableBattery => [Bytes 0x04 2; Bytes 0x08 1; Bytes 0x0E 1]
  | _ => []
  end.

(* both give a value, both the same error, both panic, or both read outside *)
Definition same_outcome (m m' : out (res Structure)) : Prop := same_course (same_item (fun _ _ => True)) m m'.

(* the same of two steps of an iterator, and they end at the same position *)
Definition same_step (m m' : out (option (res Structure) * Structures)) : Prop :=
  same_course (fun a b =>
    match fst a, fst b with
    | Some x, Some y => same_item (fun _ _ => True) x y
    | None, None => True
    | _, _ => False
    end /\ idx (snd a) = idx (snd b) /\ smbios_len_ (snd a) = smbios_len_ (snd b)) m m'.

(* the versions of the standard that have been published *)
Definition published : list SmbiosVersion :=
  map (fun n => {| major := 2; minor := n |}) [0; 1; 2; 3; 4; 5; 6; 7; 8] ++
  map (fun n => {| major := 3; minor := n |}) [0; 1; 2; 3; 4; 5; 6; 7; 8; 9].
