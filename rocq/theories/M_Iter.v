(* Model of the structure iterator of /repo/src/lib.rs *)
From Verif Require Import Base G_Enums M_Raw M_Entry M_Bios M_System M_BaseBoard M_Enclosure
  M_Processor M_Cache M_PortConnector M_SystemSlots M_Strings M_GroupAssociations
  M_SystemEventLog M_PhysicalMemoryArray M_MemoryDevice M_Memory M_PortableBattery.
Local Open Scope N_scope.

(* lib.rs:357-362 `struct Structures` *)
Record Structures := { smbios_version : SmbiosVersion; smbios_len_ : N; idx : N; buffer : list N }.

(* lib.rs:366-388 `enum Structure` *)
Inductive Structure :=
| SBios (s : Bios)
| SSystem (s : System)
| SBaseBoard (s : BaseBoard)
| SEnclosure (s : Enclosure)
| SProcessor (s : Processor)
| SCache (s : Cache)
| SPortConnector (s : PortConnector)
| SSystemSlots (s : SystemSlots)
| SOemStrings (s : OemStrings)
| SSystemConfigurationOptions (s : SystemConfigurationOptions)
| SBiosLanguage (s : BiosLanguage)
| SGroupAssociations (s : GroupAssociations)
| SSystemEventLog (s : SystemEventLog)
| SMemoryDevice (s : MemoryDevice)
| SMemoryError32 (s : MemoryError32)
| SMemoryArrayMappedAddress (s : MemoryArrayMappedAddress)
| SMemoryDeviceMappedAddress (s : MemoryDeviceMappedAddress)
| SBuiltInPointingDevice (s : BuiltInPointingDevice)
| SPortableBattery (s : PortableBattery)
| SPhysicalMemoryArray (s : PhysicalMemoryArray)
| SOther (s : RawStructure).

(* lib.rs:164-171 `EntryPoint::structures` *)
Definition structures (e : EntryPoint) (b : list N) : Structures :=
  {| smbios_version := ep_to_version e; smbios_len_ := ep_smbios_len e; idx := 0; buffer := b |}.

(* lib.rs:448-462 `find_nulnul`: index of the second byte of the first pair of
   zeros; [i] is the index of the head of [l] *)
Fixpoint find_nulnul_from (i : N) (l : list N) : option N :=
  match l with
  | a :: ((b :: _) as r) => if (a =? 0) && (b =? 0) then Some (i + 1) else find_nulnul_from (i + 1) r
  | _ => None
  end.
Definition find_nulnul (l : list N) : option N := find_nulnul_from 0 l.

(* lib.rs:560-567 `struct HeaderPacked`, size 4 *)
Definition size_of_header : N := 4.

(* lib.rs:524-557 `next_raw`.  The header is copied without a length check; at the
   end of the caller's buffer there is no further memory, so a shorter rest is UB.
   `after` is what follows the formatted section in the buffer. *)
Definition next_raw (c : cfg) (s : Structures) : out (option (res RawStructure) * Structures) :=
  let! hdr_end := u_add c 32 (idx s) size_of_header in
  if smbios_len_ s <? hdr_end then Val (None, s)
  else
  let! working := slice_index_from (buffer s) (idx s) in
  if len working <? size_of_header then UB
  else
  let kind := at_ 0 1 working in
  let hlen := at_ 1 1 working in
  let hhandle := at_ 2 2 working in
  let! strings_idx := u_add c 32 (idx s) hlen in
  if smbios_len_ s <=? strings_idx then Val (Some (Err (BadSize (idx s) hlen)), s)
  else
  let! tail := slice_index_from (buffer s) strings_idx in
  match find_nulnul tail with
  | None => Val (Some (Err (UnterminatedStrings (idx s))), s)
  | Some terminator =>
    let strings_len := cast 32 (terminator + 1) in
    let! data_start := u_add c 32 (idx s) size_of_header in
    let! d := slice_index (buffer s) data_start strings_idx in
    let! strings_end := u_add c 32 strings_idx strings_len in
    let! str := slice_index (buffer s) strings_idx strings_end in
    Val (Some (Ok {|
           version := smbios_version s;
           info := InfoType_from kind;
           length_ := hlen;
           handle := hhandle;
           data := d;
           strings := str;
           after := drop strings_idx (buffer s) |}),
         {| smbios_version := smbios_version s; smbios_len_ := smbios_len_ s;
            idx := strings_end; buffer := buffer s |})
  end.

Definition map_ok {A} (f : A -> Structure) (x : out (res A)) : out (res Structure) := omap (rmap f) x.

(* lib.rs:489-519 the dispatch on `structure.info` *)
Definition dispatch (c : cfg) (r : RawStructure) : out (res Structure) :=
  match info r with
  | InfoType_Bios => map_ok SBios (Bios_try_from c r)
  | InfoType_System => map_ok SSystem (System_try_from c r)
  | InfoType_BaseBoard => map_ok SBaseBoard (BaseBoard_try_from c r)
  | InfoType_Enclosure => map_ok SEnclosure (Enclosure_try_from c r)
  | InfoType_Processor => map_ok SProcessor (Processor_try_from c r)
  | InfoType_Cache => map_ok SCache (Cache_try_from c r)
  | InfoType_PortConnector => map_ok SPortConnector (PortConnector_try_from c r)
  | InfoType_SystemSlots => map_ok SSystemSlots (SystemSlots_try_from c r)
  | InfoType_OemStrings => map_ok SOemStrings (OemStrings_try_from c r)
  | InfoType_SystemConfigurationOptions =>
      map_ok SSystemConfigurationOptions (SystemConfigurationOptions_try_from c r)
  | InfoType_BiosLanguage => map_ok SBiosLanguage (BiosLanguage_try_from c r)
  | InfoType_GroupAssociations => map_ok SGroupAssociations (GroupAssociations_try_from c r)
  | InfoType_SystemEventLog => map_ok SSystemEventLog (SystemEventLog_try_from c r)
  | InfoType_PhysicalMemoryArray => map_ok SPhysicalMemoryArray (PhysicalMemoryArray_try_from c r)
  | InfoType_MemoryDevice => map_ok SMemoryDevice (MemoryDevice_try_from c r)
  | InfoType_MemoryError32 => map_ok SMemoryError32 (MemoryError32_try_from c r)
  | InfoType_MemoryArrayMappedAddress =>
      map_ok SMemoryArrayMappedAddress (MemoryArrayMappedAddress_try_from c r)
  | InfoType_MemoryDeviceMappedAddress =>
      map_ok SMemoryDeviceMappedAddress (MemoryDeviceMappedAddress_try_from c r)
  | InfoType_BuiltInPointingDevice => map_ok SBuiltInPointingDevice (BuiltInPointingDevice_try_from c r)
  | InfoType_PortableBattery => map_ok SPortableBattery (PortableBattery_try_from c r)
  | _ => Val (Ok (SOther r))
  end.

(* `structure.info == InfoType::End` *)
Definition is_end (i : InfoType) : bool := match i with InfoType_End => true | _ => false end.

(* lib.rs:467-521 `Iterator for Structures`, next *)
Definition next (c : cfg) (s : Structures) : out (option (res Structure) * Structures) :=
  let! (item, s1) := next_raw c s in
  match item with
  | None => Val (None, s1)
  | Some (Err e) =>
    Val (Some (Err e), {| smbios_version := smbios_version s1; smbios_len_ := idx s1;
                          idx := idx s1; buffer := buffer s1 |})
  | Some (Ok r) =>
    let s2 := if (3 <=? major (smbios_version s1)) && is_end (info r)
              then {| smbios_version := smbios_version s1; smbios_len_ := idx s1;
                      idx := idx s1; buffer := buffer s1 |}
              else s1 in
    let! x := dispatch c r in
    Val (Some x, s2)
  end.
