(* What the decoder of type 15 is to return (SMBIOS 7.16). *)
From Coq Require Import String.
From Verif Require Import Base G_Enums M_Raw M_SystemEventLog Spec S_Enums S_Decode.
Local Open Scope N_scope.

(* 7.16: up to 2.0 the structure has 14h bytes, from 2.1 on 17h bytes and the
   descriptors, whose number and size the structure holds at 15h and 16h *)
Definition log_length (r : RawStructure) : Prop :=
  (version_is (version r) 2 0 -> 4 + len (data r) = 0x14) /\
  (from_version (version r) 2 1 -> exists x y,
     field_is r 0x15 1 x /\ field_is r 0x16 1 y /\ 4 + len (data r) = 0x17 + x * y).

Definition log_length_error (r : RawStructure) (e : MalformedStructureError) : Prop :=
  let bad spec n := e = InvalidFormattedSectionLength InfoType_SystemEventLog (handle r) spec n in
  (version_is (version r) 2 0 /\ 4 + len (data r) <> 0x14 /\ bad EmptyString 0x14) \/
  (from_version (version r) 2 1 /\ len (data r) + 4 < 0x17 /\ bad "minimum of "%string 0) \/
  (from_version (version r) 2 1 /\ exists x y,
     field_is r 0x15 1 x /\ field_is r 0x16 1 y /\ 4 + len (data r) <> 0x17 + x * y /\
     (* the expected length as one byte *)
     bad "17h+(x*y) = "%string ((0x17 + x * y) mod 256)).

(* 7.16.3, table 68: how the 32-bit address is understood *)
Definition access_means (method address : N) : AccessMethod :=
  let b0 := address mod 256 in
  let b1 := address / 256 mod 256 in
  let b2 := address / 65536 mod 256 in
  if method =? 0 then AM_IndexedIoOne8bitIndexOne8bitData b0 b2
  else if method =? 1 then AM_IndexedIoTwo8bitIndexOne8bitData b0 b1 b2
  else if method =? 2 then AM_IndexedIoOne16bitIndexOne8bitData (address mod 65536) b2
  else if method =? 3 then AM_MemoryMappedPhysicaAddress address
  else if method =? 4 then AM_GeneralPurposeNonVolatileData (address mod 65536)
  else if method <? 0x80 then AM_Available method address
  else AM_OemSpecific method address.

(* the bits of the address that the method uses *)
Definition address_bits (method : N) : N :=
  if method =? 0 then 0x00FF00FF
  else if (method =? 1) || (method =? 2) then 0x00FFFFFF
  else if method =? 4 then 0x0000FFFF
  else 0xFFFFFFFF.

Record SystemEventLog_says (r : RawStructure) (s : SystemEventLog) : Prop := {
  _ : log_handle s = handle r;
  _ : field_is r 0x04 2 (log_log_area_length s);
  _ : field_is r 0x06 2 (log_log_header_start_offset s);
  _ : field_is r 0x08 2 (log_log_data_start_offset s);
  _ : exists m a, field_is r 0x0A 1 m /\ field_is r 0x10 4 a /\ log_access_method s = access_means m a;
  _ : field_is r 0x0B 1 (log_log_status s);
  _ : field_is r 0x0C 4 (log_log_change_token s);
  _ : code_if_there r 0x14 1 LogHeaderFormat_codes LogHeaderFormat_other (log_log_header_format s);
  _ : when (exists x y, field_is r 0x15 1 x /\ field_is r 0x16 1 y /\ reaches r 0x17 (x * y))
        (fun d => exists x, field_is r 0x15 1 x /\ field_is r 0x16 1 (descriptors_size d) /\
                  bytes_at r 0x17 (x * descriptors_size d) (descriptors_data d))
        (log_descriptors s)
}.

(* the fields every log must have, in the order in which they are asked for *)
Definition SystemEventLog_needs : list need :=
  [Num 0x0A 1; Num 0x10 4; Num 0x04 2; Num 0x06 2; Num 0x08 2; Num 0x0B 1; Num 0x0C 4].

(* 7.16.6.1 and 7.16.6.2: a descriptor is a log type and a format of variable data *)
Definition VariableDataFormatType_codes : list (N * VariableDataFormatType) := [
  (0x00, VDF_None); (0x01, VDF_Handle 0); (0x02, VDF_MultipleEvent 0); (0x03, VDF_MultipleEventHandle 0 0);
  (0x04, VDF_PostResults 0); (0x05, VDF_SystemManagementType (SMT_Reserved 0xFFFF));
  (0x06, VDF_MultipleEventSystemManagementType (SMT_Reserved 0xFFFF) 0)].
Definition VariableDataFormatType_other (k : N) : VariableDataFormatType :=
  if k <? 0x80 then VDF_Unused k else VDF_OemAssigned k.

Definition descriptor_means (rec : list N) (d : EventLogTypeDescriptor) : Prop :=
  exists a b, rec = [a; b] /\
    d = {| log_type := meaning EventLogType_codes EventLogType_other a;
           variable_data_format_type := meaning VariableDataFormatType_codes VariableDataFormatType_other b |}.

(* 7.16.6.3, table 72: system management types *)
Definition SystemManagementType_codes : list (N * SystemManagementType) := [
  (0x00, SMT_OutOfRangeVoltagePlus2_5Num1); (0x01, SMT_OutOfRangeVoltagePlus2_5Num2);
  (0x02, SMT_OutOfRangeVoltagePlus3_3); (0x03, SMT_OutOfRangeVoltagePlus5);
  (0x04, SMT_OutOfRangeVoltageMinus5); (0x05, SMT_OutOfRangeVoltagePlus12);
  (0x06, SMT_OutOfRangeVoltageMinus12); (0x10, SMT_OutOfRangeTemperatureSystemBoard);
  (0x11, SMT_OutOfRangeTemperatureProcessor1); (0x12, SMT_OutOfRangeTemperatureProcessor2);
  (0x13, SMT_OutOfRangeTemperatureProcessor3); (0x14, SMT_OutOfRangeTemperatureProcessor4);
  (0x30, SMT_ChassisSecureSwitchActivated)].
Definition SystemManagementType_other (k : N) : SystemManagementType :=
  if k <? 0x10 then SMT_OutOfRangeVoltageReserved k
  else if k <? 0x20 then SMT_OutOfRangeTemperatureReserved k
  else if k <? 0x28 then SMT_OutOfRangeFan (k - 0x20)
  else if k <? 0x10000 then SMT_Reserved k
  else if k <? 0x20000 then SMT_OutOfRangeSystemManagementProbe (k - 0x10000)
  else if k <? 0x80000000 then SMT_Reserved k
  else SMT_OemAssigned k.
