(* Specification for C42-C44: which structures make their decoder panic or read past
   the formatted area, type by type, and which structures are long enough for neither
   to happen. *)
From Verif Require Import Base G_Enums M_Raw M_Iter Spec S_Iter S_Decode S_System S_Hardware S_Lists S_EventLog S_Memory.
Local Open Scope N_scope.

(* The formatted area has less than n bytes after its header; in the flat memory
   model the bytes that follow it in memory count, too. *)
Definition beyond (c : cfg) (n : N) (r : RawStructure) : Prop :=
  if flat_memory c then len (data r) + len (after r) < n else len (data r) < n.

(* The bytes a packed layout covers; None: the type has no such layout.
   (SMBIOS specification, 7.1-7.3, 7.5, 7.8, 7.9, 7.14: the lengths less the header.) *)
Definition layout_size (r : RawStructure) : option N :=
  match info r with
  | InfoType_Bios => Some (Bios_area (version r))
  | InfoType_System => Some (System_area (version r))
  | InfoType_BaseBoard => Some 10
  | InfoType_Processor => Some (Processor_area (version r))
  | InfoType_Cache => if since (version r) 2 1 then Some (Cache_area (version r)) else None
  | InfoType_PortConnector => Some 5
  | InfoType_BiosLanguage => Some (BiosLanguage_area (version r))
  | _ => None
  end.

Definition decoder_overreads (c : cfg) (r : RawStructure) : Prop :=
  exists n, layout_size r = Some n /\ beyond c n r.

(* The structures on which the decoder panics.  Enclosure: the records of contained
   elements take 256 bytes or more.  Cache: any structure older than 2.1.
   GroupAssociations: no name field.  SystemEventLog: descriptors of no bytes.
   PhysicalMemoryArray: a field of the version is cut off. *)
Definition decoder_panics (c : cfg) (r : RawStructure) : Prop :=
  match info r with
  | InfoType_Enclosure => overflow_checks c = true /\ records_overflow r /\
         (forall o, In o [0x04; 0x06; 0x07; 0x08] -> exists t, text_field r o t)
  | InfoType_Cache => before_version (version r) 2 1
  | InfoType_GroupAssociations => overflow_checks c = true /\ length_ r < 5
  | InfoType_SystemEventLog => log_length r /\ field_is r 0x16 1 0
  | InfoType_PhysicalMemoryArray => ~ array_reached r
  | _ => False
  end.

(* What a structure has to satisfy so that none of this happens, in any build. *)
Definition well_sized (r : RawStructure) : Prop :=
  match info r with
  | InfoType_Bios => Bios_area (version r) <= len (data r)
  | InfoType_System => System_area (version r) <= len (data r)
  | InfoType_BaseBoard => 10 <= len (data r)
  | InfoType_Enclosure => ~ records_overflow r
  | InfoType_Processor => Processor_area (version r) <= len (data r)
  | InfoType_Cache => from_version (version r) 2 1 /\ Cache_area (version r) <= len (data r)
  | InfoType_PortConnector => 5 <= len (data r)
  | InfoType_BiosLanguage => BiosLanguage_area (version r) <= len (data r)
  | InfoType_GroupAssociations => 1 <= len (data r)
  | InfoType_SystemEventLog => ~ field_is r 0x16 1 0
  | InfoType_PhysicalMemoryArray => array_reached r
  | _ => True
  end.

(* the types whose decoder always returns (9, 11, 12, 17-22) *)
Definition always_returns : list InfoType :=
  [InfoType_SystemSlots; InfoType_OemStrings; InfoType_SystemConfigurationOptions; InfoType_MemoryDevice;
   InfoType_MemoryError32; InfoType_MemoryArrayMappedAddress; InfoType_MemoryDeviceMappedAddress;
   InfoType_BuiltInPointingDevice; InfoType_PortableBattery].

(* the states some number of successful calls leads to *)
Inductive reached (c : cfg) (s : Structures) : Structures -> Prop :=
| reached_start : reached c s s
| reached_next s1 x s2 : reached c s s1 -> next c s1 = Val (Some x, s2) -> reached c s s2.
