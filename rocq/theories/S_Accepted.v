(* Specification for C107: which structures are decoded. *)
From Verif Require Import Base G_Enums M_Raw M_Iter Spec S_Iter S_Decode S_System S_Lists.
Local Open Scope N_scope.

(* How many bytes, header included, a structure has to have. *)
Definition accepted_length (v : SmbiosVersion) (i : InfoType) : length_rule :=
  match i with
  | InfoType_Bios => AtLeast (if since v 3 1 then 0x1A else if since v 2 4 then 0x18 else 0x12)
  | InfoType_System => AtLeast (if since v 2 4 then 0x1B else if since v 2 1 then 0x19 else 0x08)
  | InfoType_BaseBoard => AtLeast 0x0E
  | InfoType_Enclosure => AtLeast 0x09
  | InfoType_Processor =>
      AtLeast (if since v 3 0 then 0x30 else if since v 2 6 then 0x2A else if since v 2 5 then 0x28
               else if since v 2 3 then 0x23 else if since v 2 1 then 0x20 else 0x1A)
  | InfoType_Cache => AtLeast (if since v 3 2 then 0x1B else if since v 2 2 then 0x13 else 0x0F)
  | InfoType_PortConnector => AtLeast 0x09
  | InfoType_SystemSlots =>
      if since v 3 2 then AtLeast 0x11 else if since v 2 6 then Exactly 0x11 else if since v 2 1 then Exactly 0x0D
      else if since v 2 0 then Exactly 0x0C else AtLeast 0x0C
  | InfoType_SystemConfigurationOptions => AtLeast 0x05
  | InfoType_BiosLanguage => AtLeast (if since v 2 1 then 0x16 else 0x15)
  | InfoType_GroupAssociations => AtLeast 0x05
  | InfoType_SystemEventLog => if since v 2 1 then AtLeast 0x17 else if since v 2 0 then Exactly 0x14 else AtLeast 0x14
  | InfoType_PhysicalMemoryArray => if since v 2 2 then AtLeast 0x0F else Any
  | InfoType_MemoryDevice => AtLeast 0x20
  | InfoType_MemoryError32 => if since v 2 1 then Exactly 0x17 else AtLeast 0x17
  | InfoType_MemoryArrayMappedAddress =>
      if since v 2 7 then Exactly 0x1F else if since v 2 1 then Exactly 0x0F else AtLeast 0x0F
  | InfoType_MemoryDeviceMappedAddress =>
      if since v 2 7 then Exactly 0x23 else if since v 2 1 then Exactly 0x13 else AtLeast 0x13
  | InfoType_BuiltInPointingDevice => if since v 2 1 then Exactly 0x07 else AtLeast 0x07
  | InfoType_PortableBattery => if since v 2 2 then Exactly 0x1A else if since v 2 1 then Exactly 0x10 else AtLeast 0x10
  | _ => Any
  end.

(* The offsets at which it has to have the number of a string that is there, or zero. *)
Definition needed_strings (v : SmbiosVersion) (i : InfoType) : list N :=
  match i with
  | InfoType_Bios => [0x04; 0x05; 0x08]
  | InfoType_System => if since v 2 4 then [0x04; 0x05; 0x06; 0x07; 0x19; 0x1A] else [0x04; 0x05; 0x06; 0x07]
  | InfoType_BaseBoard => [0x04; 0x05; 0x06; 0x07; 0x08; 0x0A]
  | InfoType_Enclosure => [0x04; 0x06; 0x07; 0x08]
  | InfoType_Processor => if since v 2 3 then [0x04; 0x07; 0x10; 0x20; 0x21; 0x22] else [0x04; 0x07; 0x10]
  | InfoType_Cache => [0x04]
  | InfoType_PortConnector => [0x04; 0x06]
  | InfoType_SystemSlots => [0x04]
  | InfoType_GroupAssociations => [0x04]
  | InfoType_MemoryDevice => [0x10; 0x11; 0x17; 0x18; 0x19; 0x1A]
  | InfoType_PortableBattery => [0x04; 0x05; 0x08; 0x0E]
  | _ => []
  end.

(* What else it takes.  Enclosure: the records do not overflow, and there is a string for the SKU
   number behind them.  Cache: 2.1 or later.  Configuration options: as many strings as stated.
   Event log: descriptors of at least one byte; from 2.1 on no byte more or less than they take.
   Memory array: from 2.8 on, the extended capacity if the capacity refers to it. *)
Definition also_needed (c : cfg) (r : RawStructure) : Prop :=
  match info r with
  | InfoType_Enclosure =>
      (overflow_checks c = true -> ~ records_overflow r) /\
      (reaches r (0x15 + record_bytes r) 1 -> exists t, text_field r (0x15 + record_bytes r) t)
  | InfoType_Cache => from_version (version r) 2 1
  | InfoType_SystemConfigurationOptions => exists l, strings_of (strings r) l /\ field_is r 0x04 1 (len l)
  | InfoType_SystemEventLog =>
      ~ field_is r 0x16 1 0 /\
      (from_version (version r) 2 1 -> exists x y,
         field_is r 0x15 1 x /\ field_is r 0x16 1 y /\ 4 + len (data r) = 0x17 + x * y)
  | InfoType_PhysicalMemoryArray =>
      from_version (version r) 2 8 -> field_is r 0x07 4 0x80000000 -> 0x17 <= 4 + len (data r)
  | _ => True
  end.

Definition acceptable (c : cfg) (r : RawStructure) : Prop :=
  length_ok r (accepted_length (version r) (info r)) /\
  (forall o, In o (needed_strings (version r) (info r)) -> exists t, text_field r o t) /\
  also_needed c r.

(* The same where memory is flat: the decoders that copy a fixed number of bytes go on into the
   bytes that follow.  A baseboard has at most the strings that its own length leaves room for. *)
Definition acceptable_flat (c : cfg) (r : RawStructure) : Prop :=
  match info r with
  | InfoType_Bios | InfoType_System | InfoType_Processor | InfoType_Cache | InfoType_PortConnector
  | InfoType_BiosLanguage => acceptable c (stretched r)
  | InfoType_BaseBoard =>
      0x0E <= 4 + len (data r) + len (after r) /\
      (forall o, In o [0x04; 0x05; 0x06; 0x07] -> exists t, text_field (stretched r) o t) /\
      (forall o, In o [0x08; 0x0A] -> reaches r o 1 -> exists t, text_field (stretched r) o t)
  | _ => acceptable c r
  end.
