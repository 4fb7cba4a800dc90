(* Model of /repo/src/structures/015_system_event_log/mod.rs and the conversions of
   log_record_format.rs.  EventLogType and LogHeaderFormat are in G_Enums, the
   LAYOUT tables in G_Layouts. *)
From Coq Require Import String.
From Verif Require Import Base G_Enums M_Raw.
Local Open Scope N_scope.

(* ------------------------------------------------------- log_record_format *)

(* log_record_format.rs:177-218 `enum SystemManagementType` *)
Inductive SystemManagementType :=
| SMT_OutOfRangeVoltagePlus2_5Num1
| SMT_OutOfRangeVoltagePlus2_5Num2
| SMT_OutOfRangeVoltagePlus3_3
| SMT_OutOfRangeVoltagePlus5
| SMT_OutOfRangeVoltageMinus5
| SMT_OutOfRangeVoltagePlus12
| SMT_OutOfRangeVoltageMinus12
| SMT_OutOfRangeVoltageReserved (v : N)
| SMT_OutOfRangeTemperatureSystemBoard
| SMT_OutOfRangeTemperatureProcessor1
| SMT_OutOfRangeTemperatureProcessor2
| SMT_OutOfRangeTemperatureProcessor3
| SMT_OutOfRangeTemperatureProcessor4
| SMT_OutOfRangeTemperatureReserved (v : N)
| SMT_OutOfRangeFan (v : N)
| SMT_Reserved (v : N)
| SMT_ChassisSecureSwitchActivated
| SMT_OutOfRangeSystemManagementProbe (v : N)
| SMT_OemAssigned (v : N).

(* log_record_format.rs:478-502 `impl From<u32> for SystemManagementType` *)
Definition SystemManagementType_from (v : N) : SystemManagementType :=
  if v =? 0x00 then SMT_OutOfRangeVoltagePlus2_5Num1
  else if v =? 0x01 then SMT_OutOfRangeVoltagePlus2_5Num2
  else if v =? 0x02 then SMT_OutOfRangeVoltagePlus3_3
  else if v =? 0x03 then SMT_OutOfRangeVoltagePlus5
  else if v =? 0x04 then SMT_OutOfRangeVoltageMinus5
  else if v =? 0x05 then SMT_OutOfRangeVoltagePlus12
  else if v =? 0x06 then SMT_OutOfRangeVoltageMinus12
  else if within 0x07 0x0F v then SMT_OutOfRangeVoltageReserved (cast 8 v)
  else if v =? 0x10 then SMT_OutOfRangeTemperatureSystemBoard
  else if v =? 0x11 then SMT_OutOfRangeTemperatureProcessor1
  else if v =? 0x12 then SMT_OutOfRangeTemperatureProcessor2
  else if v =? 0x13 then SMT_OutOfRangeTemperatureProcessor3
  else if v =? 0x14 then SMT_OutOfRangeTemperatureProcessor4
  else if within 0x15 0x1F v then SMT_OutOfRangeTemperatureReserved (cast 8 v)
  else if within 0x20 0x27 v then SMT_OutOfRangeFan (cast 8 (N.land v 7))
  else if v =? 0x30 then SMT_ChassisSecureSwitchActivated
  else if within 0x10000 0x1FFFF v then SMT_OutOfRangeSystemManagementProbe (cast 16 v)
  else if within 0x80000000 0xFFFFFFFF v then SMT_OemAssigned v
  else SMT_Reserved v.

(* log_record_format.rs:115-142 `enum VariableDataFormatType` *)
Inductive VariableDataFormatType :=
| VDF_None
| VDF_Handle (handle : N)
| VDF_MultipleEvent (counter : N)
| VDF_MultipleEventHandle (handle counter : N)
| VDF_PostResults (v : N)
| VDF_SystemManagementType (t : SystemManagementType)
| VDF_MultipleEventSystemManagementType (t : SystemManagementType) (counter : N)
| VDF_Unused (v : N)
| VDF_OemAssigned (v : N).

(* log_record_format.rs:340-357 `impl From<u8> for VariableDataFormatType` *)
Definition VariableDataFormatType_from (byte : N) : VariableDataFormatType :=
  if byte =? 0x00 then VDF_None
  else if byte =? 0x01 then VDF_Handle 0
  else if byte =? 0x02 then VDF_MultipleEvent 0
  else if byte =? 0x03 then VDF_MultipleEventHandle 0 0
  else if byte =? 0x04 then VDF_PostResults 0
  else if byte =? 0x05 then VDF_SystemManagementType (SystemManagementType_from 0xFFFF)
  else if byte =? 0x06 then VDF_MultipleEventSystemManagementType (SystemManagementType_from 0xFFFF) 0
  else if within 0x07 0x7F byte then VDF_Unused byte
  else VDF_OemAssigned byte.

(* log_record_format.rs:358-372 `impl From<VariableDataFormatType> for u8` *)
Definition VariableDataFormatType_to (t : VariableDataFormatType) : N :=
  match t with
  | VDF_None => 0x00
  | VDF_Handle _ => 0x01
  | VDF_MultipleEvent _ => 0x02
  | VDF_MultipleEventHandle _ _ => 0x03
  | VDF_PostResults _ => 0x04
  | VDF_SystemManagementType _ => 0x05
  | VDF_MultipleEventSystemManagementType _ _ => 0x06
  | VDF_Unused v => v
  | VDF_OemAssigned v => v
  end.

(* -------------------------------------------------------------------- mod *)

(* mod.rs:57-76 `enum AccessMethod` *)
Inductive AccessMethod :=
| AM_IndexedIoOne8bitIndexOne8bitData (index data : N)
| AM_IndexedIoTwo8bitIndexOne8bitData (index0 index1 data : N)
| AM_IndexedIoOne16bitIndexOne8bitData (index data : N)
| AM_MemoryMappedPhysicaAddress (physical_address : N)
| AM_GeneralPurposeNonVolatileData (gpnv_handle : N)
| AM_Available (method address : N)
| AM_OemSpecific (method address : N).

(* u32::to_le_bytes and friends: byte [i] of a value *)
Definition byte_of (i v : N) : N := (v / 256 ^ i) mod 256.

(* mod.rs:226-250 `AccessMethod::new` *)
Definition AccessMethod_new (method address : N) : AccessMethod :=
  let index_lsb := byte_of 0 address in
  let index_msb := byte_of 1 address in
  let data_lsb := byte_of 2 address in
  if method =? 0x00 then AM_IndexedIoOne8bitIndexOne8bitData index_lsb data_lsb
  else if method =? 0x01 then AM_IndexedIoTwo8bitIndexOne8bitData index_lsb index_msb data_lsb
  else if method =? 0x02 then AM_IndexedIoOne16bitIndexOne8bitData (le [index_lsb; index_msb]) data_lsb
  else if method =? 0x03 then AM_MemoryMappedPhysicaAddress address
  else if method =? 0x04 then AM_GeneralPurposeNonVolatileData (le [index_lsb; index_msb])
  else if within 0x80 0xFF method then AM_OemSpecific method address
  else AM_Available method address.

(* mod.rs:251-265 `AccessMethod::address` *)
Definition AccessMethod_address (m : AccessMethod) : N :=
  match m with
  | AM_IndexedIoOne8bitIndexOne8bitData index data => le [index; 0; data; 0]
  | AM_IndexedIoTwo8bitIndexOne8bitData i0 i1 data => le [i0; i1; data; 0]
  | AM_IndexedIoOne16bitIndexOne8bitData index data => le [byte_of 0 index; byte_of 1 index; data; 0]
  | AM_MemoryMappedPhysicaAddress a => a
  | AM_GeneralPurposeNonVolatileData h => h
  | AM_OemSpecific _ a => a
  | AM_Available _ a => a
  end.

(* mod.rs:137-139 `struct SupportedEventLogTypeDescriptors(Chunks)`: the bytes not
   yet yielded and the chunk size *)
Record EventLogTypeDescriptors := { descriptors_data : list N; descriptors_size : N }.

(* mod.rs:146-150 `struct EventLogTypeDescriptor` *)
Record EventLogTypeDescriptor := {
  log_type : EventLogType;
  variable_data_format_type : VariableDataFormatType
}.

(* mod.rs:28-53 `struct SystemEventLog`; LogStatus is its byte *)
Record SystemEventLog := {
  log_handle : N;
  log_log_area_length : N;
  log_log_header_start_offset : N;
  log_log_data_start_offset : N;
  log_access_method : AccessMethod;
  log_log_status : N;
  log_log_change_token : N;
  log_log_header_format : option LogHeaderFormat;
  log_descriptors : option EventLogTypeDescriptors
}.

(* mod.rs:357-361 `SupportedEventLogTypeDescriptors::new`: chunks(0) panics *)
Definition EventLogTypeDescriptors_new (d : list N) (size : N) : out EventLogTypeDescriptors :=
  if size =? 0 then Panic else Val {| descriptors_data := d; descriptors_size := size |}.

(* mod.rs:385-392 `impl From<[u8; 2]> for EventLogTypeDescriptor` *)
Definition EventLogTypeDescriptor_from (a0 a1 : N) : EventLogTypeDescriptor :=
  {| log_type := EventLogType_from a0; variable_data_format_type := VariableDataFormatType_from a1 |}.

(* mod.rs:393-397 `impl From<EventLogTypeDescriptor> for [u8; 2]` *)
Definition EventLogTypeDescriptor_to (d : EventLogTypeDescriptor) : N * N :=
  (EventLogType_to (log_type d), VariableDataFormatType_to (variable_data_format_type d)).

(* mod.rs:373-383 `Iterator for SupportedEventLogTypeDescriptors`, next: a chunk
   that is not exactly two bytes long ends the iteration (but is consumed) *)
Definition EventLogTypeDescriptors_next (s : EventLogTypeDescriptors) : option EventLogTypeDescriptor * EventLogTypeDescriptors :=
  match descriptors_data s with
  | [] => (None, s)
  | _ :: _ =>
    let chunk := take (descriptors_size s) (descriptors_data s) in
    let s' := {| descriptors_data := drop (descriptors_size s) (descriptors_data s);
                 descriptors_size := descriptors_size s |} in
    (match chunk with
     | [a0; a1] => Some (EventLogTypeDescriptor_from a0 a1)
     | _ => None
     end, s')
  end.

(* mod.rs:154-214 `SystemEventLog::try_from`.  `0x17 + x as usize * y as usize` and
   `number * length` cannot overflow. *)
Definition SystemEventLog_try_from (c : cfg) (r : RawStructure) : out (res SystemEventLog) :=
  let v := version r in
  let l := len (data r) + 4 in
  let bad spec n := Val (Err (InvalidFormattedSectionLength InfoType_SystemEventLog (handle r) spec n)) in
  let! number := get_ok c 1 0x15 r in
  let! length := get_ok c 1 0x16 r in
  let len_gt_2_1 := oand_then number (fun x => option_map (fun y => 0x17 + x * y) length) in
  if version_eq v (version_of 2 0) && negb (l =? 0x14) then bad EmptyString 0x14
  else if version_ge v (version_of 2 1)
          && negb (match len_gt_2_1 with Some n => l =? n | None => false end) then
    match len_gt_2_1 with
    | Some n => bad "17h+(x*y) = "%string (cast 8 n)
    | None => bad "minimum of "%string 0
    end
  else
    let? method := get c 1 0x0A r in
    let? address := get c 4 0x10 r in
    let! descriptors :=
      match number with
      | None => Val None
      | Some number =>
        match length with
        | None => Val None
        | Some length =>
          let! d := get_slice c 0x17 (number * length) r in
          match d with
          | None => Val None
          | Some d => let! x := EventLogTypeDescriptors_new d length in Val (Some x)
          end
        end
      end in
    let? log_area_length := get c 2 0x04 r in
    let? log_header_start_offset := get c 2 0x06 r in
    let? log_data_start_offset := get c 2 0x08 r in
    let? log_status := get c 1 0x0B r in
    let? log_change_token := get c 4 0x0C r in
    let! log_header_format := get_ok c 1 0x14 r in
    Val (Ok {|
      log_handle := handle r;
      log_log_area_length := log_area_length;
      log_log_header_start_offset := log_header_start_offset;
      log_log_data_start_offset := log_data_start_offset;
      log_access_method := AccessMethod_new method address;
      log_log_status := log_status;
      log_log_change_token := log_change_token;
      log_log_header_format := option_map LogHeaderFormat_from log_header_format;
      log_descriptors := descriptors
    |}).
