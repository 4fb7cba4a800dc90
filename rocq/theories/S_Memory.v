(* What the decoders of types 16 to 22 are to return (SMBIOS 7.17 to 7.23). *)
From Coq Require Import String.
From Verif Require Import Base G_Enums M_Raw M_PhysicalMemoryArray M_MemoryDevice M_Memory M_PortableBattery.
From Verif Require Import Spec S_Enums S_Decode.
Local Open Scope N_scope.

(* the decoders of types 18 to 22 ask the length byte of the header, not the bytes
   they were given *)
Definition stated_ok (r : RawStructure) (rule : length_rule) : Prop :=
  match rule with
  | Any => True
  | Exactly n => length_ r = n
  | AtLeast n => n <= length_ r
  end.
Definition stated_error (r : RawStructure) (i : InfoType) (rule : length_rule) (e : MalformedStructureError) : Prop :=
  match rule with
  | Any => False
  | Exactly n => length_ r <> n /\ e = InvalidFormattedSectionLength i (handle r) "" n
  | AtLeast n => length_ r < n /\ e = InvalidFormattedSectionLength i (handle r) "minimum of " n
  end.

(* optional flags: present when the formatted area reaches that far, with only the
   named bits *)
Definition flags_if_there (r : RawStructure) (offset w : N) (named : list N) (o : option N) : Prop :=
  (exists x, flags_field r offset w named x /\ o = Some x) \/ (field r offset w = None /\ o = None).

(* ----------------------------------------- type 16, physical memory array *)

(* all fields that the decoder wants are there *)
Definition array_reached (r : RawStructure) : Prop :=
  from_version (version r) 2 2 ->
  reaches r 0x0D 2 /\
  (from_version (version r) 2 8 -> field_is r 0x07 4 0x80000000 -> reaches r 0x0F 8).

Record PhysicalMemoryArray_says (r : RawStructure) (s : PhysicalMemoryArray) : Prop := {
  _ : array_handle s = handle r;
  _ : code_field r 0x04 1 MemoryArrayLocation_codes_here MemoryArrayLocation_Undefined (array_location s);
  _ : code_field r 0x05 1 MemoryArrayUse_codes MemoryArrayUse_Undefined (array_use s);
  _ : code_field r 0x06 1 MemoryArrayErrorCorrectionTypes_codes MemoryArrayErrorCorrectionTypes_Undefined
        (array_memory_error_correction s);
  _ : if_there_but r 0x07 4 0x80000000 (array_maximum_capacity s);
  _ : if_there_but r 0x0B 2 0xFFFE (array_memory_error_information_handle s);
  _ : field_is r 0x0D 2 (array_number_of_memory_devices s);
  (* only when the 32-bit capacity says "look there", and after 2.7 instead of from
     2.7 on, see C37_extended_2_7_refuted *)
  _ : (from_version (version r) 2 8 /\ field_is r 0x07 4 0x80000000 /\
       if_there_but r 0x0F 8 0 (array_extended_maximum_capacity s)) \/
      (~ (from_version (version r) 2 8 /\ field_is r 0x07 4 0x80000000) /\
       array_extended_maximum_capacity s = None)
}.

(* ------------------------------------------------ type 17, memory device *)

Definition MemoryDevice_minimum : N := 0x15.

Record MemoryDevice_says (r : RawStructure) (s : MemoryDevice) : Prop := {
  _ : memdev_handle s = handle r;
  _ : field_is r 0x04 2 (memdev_physical_memory_handle s);
  _ : if_there_but r 0x06 2 0xFFFE (memdev_memory_error_handle s);
  _ : if_there_but r 0x08 2 0xFFFF (memdev_total_width s);
  _ : if_there_but r 0x0A 2 0xFFFF (memdev_data_width s);
  _ : if_there_but r 0x0C 2 0xFFFF (memdev_size s);
  _ : code_field r 0x0E 1 FormFactor_codes_here FormFactor_Undefined (memdev_form_factor s);
  (* also for "no set" and "unknown", see C38_device_set_refuted *)
  _ : exists k, field_is r 0x0F 1 k /\ memdev_device_set s = Some k;
  _ : text_field r 0x10 (memdev_device_locator s);
  _ : text_field r 0x11 (memdev_bank_locator s);
  _ : code_field r 0x12 1 MemoryType_codes MemoryType_Undefined (memdev_memory_type s);
  _ : flags_field r 0x13 2 [1; 2; 3; 4; 5; 6; 7; 8; 9; 10; 11; 12; 13; 14; 15] (memdev_type_detail s);
  _ : if_there_but r 0x15 2 0 (memdev_speed s);
  _ : text_field r 0x17 (memdev_manufacturer s);
  _ : text_field r 0x18 (memdev_serial s);
  _ : text_field r 0x19 (memdev_asset_tag s);
  _ : text_field r 0x1A (memdev_part_number s);
  _ : field_is r 0x1B 1 (memdev_attributes s);
  _ : field_is r 0x1C 4 (memdev_extended_size s);
  _ : if_there_but r 0x20 2 0 (memdev_configured_memory_speed s);
  _ : if_there_but r 0x22 2 0 (memdev_minimum_voltage s);
  _ : if_there_but r 0x24 2 0 (memdev_maximum_voltage s);
  _ : if_there_but r 0x26 2 0 (memdev_configured_voltage s);
  _ : code_if_there r 0x28 1 MemoryTechnology_codes MemoryTechnology_Undefined (memdev_memory_technology s);
  _ : flags_if_there r 0x29 2 [1; 2; 3; 4; 5] (memdev_operating_mode_capability s);
  _ : text_if_there r 0x2B (memdev_firmware_version s);
  _ : if_there r 0x2C 2 (memdev_module_manufacturer s);
  _ : if_there r 0x2E 2 (memdev_module_product_id s);
  _ : if_there r 0x30 2 (memdev_memory_subsystem_controller_manufacturer_id s);
  _ : if_there r 0x32 2 (memdev_memory_subsystem_controller_product_id s);
  _ : if_there r 0x34 8 (memdev_non_volatile_size s);
  _ : if_there r 0x3C 8 (memdev_volatile_size s);
  _ : if_there r 0x44 8 (memdev_cache_size s);
  _ : if_there r 0x4C 8 (memdev_logical_size s);
  _ : if_there r 0x54 4 (memdev_extended_speed s);
  _ : if_there r 0x58 4 (memdev_extended_configured_memory_speed s)
}.

Definition MemoryDevice_needs : list need :=
  [Num 0x04 2; Num 0x0E 1; Num 0x0F 1; Text 0x10; Text 0x11; Num 0x12 1; Num 0x13 2;
   Text 0x17; Text 0x18; Text 0x19; Text 0x1A; Num 0x1B 1; Num 0x1C 4].

Definition MemoryDevice_length_error (r : RawStructure) (e : MalformedStructureError) : Prop :=
  4 + len (data r) < 0x15 /\ e = InvalidFormattedSectionLength InfoType_MemoryDevice (handle r) "at least" 0x15.

(* ------------------------------------------------ types 18, 19, 20 and 21 *)

Definition MemoryError32_length (v : SmbiosVersion) : length_rule := if since v 2 1 then Exactly 0x17 else Any.
Record MemoryError32_says (r : RawStructure) (s : MemoryError32) : Prop := {
  _ : me_handle s = handle r;
  _ : code_field r 0x04 1 MEErrorType_codes MEErrorType_Undefined (me_error_type s);
  _ : code_field r 0x05 1 MEErrorGranularity_codes MEErrorGranularity_Undefined (me_error_granularity s);
  _ : code_field r 0x06 1 MEErrorOperation_codes MEErrorOperation_Undefined (me_error_operation s);
  _ : field_is r 0x07 4 (me_vendor_syndrome s);
  _ : field_is r 0x0B 4 (me_memory_array_error_address s);
  _ : field_is r 0x0F 4 (me_device_error_address s);
  _ : field_is r 0x13 4 (me_error_resolution s)
}.
Definition MemoryError32_needs : list need :=
  [Num 0x04 1; Num 0x05 1; Num 0x06 1; Num 0x07 4; Num 0x0B 4; Num 0x0F 4; Num 0x13 4].

Definition MemoryArrayMappedAddress_length (v : SmbiosVersion) : length_rule :=
  if since v 2 7 then Exactly 0x1F else if since v 2 1 then Exactly 0x0F else Any.
Record MemoryArrayMappedAddress_says (r : RawStructure) (s : MemoryArrayMappedAddress) : Prop := {
  _ : ama_handle s = handle r;
  _ : field_is r 0x04 4 (ama_starting_address s);
  _ : field_is r 0x08 4 (ama_ending_address s);
  _ : field_is r 0x0C 2 (ama_memory_array_handle s);
  _ : field_is r 0x0E 1 (ama_partition_width s);
  _ : if_there r 0x0F 8 (ama_extended_starting_address s);
  _ : if_there r 0x17 8 (ama_extended_ending_address s)
}.
Definition MemoryArrayMappedAddress_needs : list need := [Num 0x04 4; Num 0x08 4; Num 0x0C 2; Num 0x0E 1].

Definition MemoryDeviceMappedAddress_length (v : SmbiosVersion) : length_rule :=
  if since v 2 7 then Exactly 0x23 else if since v 2 1 then Exactly 0x13 else Any.
Record MemoryDeviceMappedAddress_says (r : RawStructure) (s : MemoryDeviceMappedAddress) : Prop := {
  _ : dma_handle s = handle r;
  _ : field_is r 0x04 4 (dma_starting_address s);
  _ : field_is r 0x08 4 (dma_ending_address s);
  _ : field_is r 0x0C 2 (dma_memory_device_handle s);
  _ : field_is r 0x0E 2 (dma_memory_array_mapped_address_handle s);
  _ : field_is r 0x10 1 (dma_partition_row_position s);
  _ : field_is r 0x11 1 (dma_interleave_position s);
  _ : field_is r 0x12 1 (dma_interleaved_data_depth s);
  _ : if_there r 0x13 8 (dma_extended_starting_address s);
  _ : if_there r 0x1B 8 (dma_extended_ending_address s)
}.
Definition MemoryDeviceMappedAddress_needs : list need :=
  [Num 0x04 4; Num 0x08 4; Num 0x0C 2; Num 0x0E 2; Num 0x10 1; Num 0x11 1; Num 0x12 1].

Definition BuiltInPointingDevice_length (v : SmbiosVersion) : length_rule := if since v 2 1 then Exactly 0x07 else Any.
Record BuiltInPointingDevice_says (r : RawStructure) (s : BuiltInPointingDevice) : Prop := {
  _ : pd_handle s = handle r;
  _ : code_field r 0x04 1 PointingDeviceType_codes PointingDeviceType_Undefined (pd_type s);
  _ : code_field r 0x05 1 PointingDeviceInterface_codes PointingDeviceInterface_Undefined (pd_interface s);
  _ : field_is r 0x06 1 (pd_number_of_buttons s)
}.
Definition BuiltInPointingDevice_needs : list need := [Num 0x04 1; Num 0x05 1; Num 0x06 1].

(* ----------------------------------------------- type 22, portable battery *)

Definition PortableBattery_length (v : SmbiosVersion) : length_rule :=
  if since v 2 2 then Exactly 0x1A else if since v 2 1 then Exactly 0x10 else Any.

(* the field has the number of a string, and that number is not zero *)
Definition numbered (r : RawStructure) (offset : N) (t : text) : Prop :=
  exists k, field_is r offset 1 k /\ 0 < k /\ string_number (strings r) k t.

(* a date: the text, else the packed word of the Smart Battery Data Specification *)
Definition date_says (r : RawStructure) (d : ManufactureDate) : Prop :=
  (exists t, numbered r 0x06 t /\ d = MD_Basic t) \/
  ((forall t, ~ numbered r 0x06 t) /\
   ((exists w, field_is r 0x12 2 w /\
       d = MD_SmartBatteryDataSpecification (1980 + w / 512) (w / 32 mod 16) (w mod 32)) \/
    (field r 0x12 2 = None /\ d = MD_None))).
Definition serial_says (r : RawStructure) (s : SerialNumber) : Prop :=
  (exists t, numbered r 0x07 t /\ s = SN_Basic t) \/
  ((forall t, ~ numbered r 0x07 t) /\
   ((exists w, field_is r 0x10 2 w /\ s = SN_SmartBatteryDataSpecification w) \/
    (field r 0x10 2 = None /\ s = SN_None))).

(* 7.23.1: device chemistry; 02h sends the reader to the text at 14h *)
Definition DeviceChemistry_codes : list (N * DeviceChemistry) := [
  (0x01, Chem_Other); (0x02, Chem_Unknown); (0x03, Chem_LeadAcid); (0x04, Chem_NickelCadmium);
  (0x05, Chem_NickelMetalHydride); (0x06, Chem_LithiumIon); (0x07, Chem_ZincAir); (0x08, Chem_LithiumPolymer)].
Definition chemistry_says (r : RawStructure) (x : DeviceChemistry) : Prop :=
  exists k, field_is r 0x09 1 k /\
    ((exists t, k = 0x02 /\ text_field r 0x14 t /\ x = Chem_SmartBatteryDataSpecification t) \/
     ((k <> 0x02 \/ forall t, ~ text_field r 0x14 t) /\ x = meaning DeviceChemistry_codes Chem_Undefined k)).

(* design capacity and its multiplier, which is 1 when missing *)
Definition capacity_says (r : RawStructure) (x : DesignCapacity) : Prop :=
  (field_is r 0x0A 2 0 /\ x = DC_Unknown) \/
  (exists v, field_is r 0x0A 2 v /\ v <> 0 /\
    ((exists m, field_is r 0x15 1 m /\ x = DC_Data v m) \/ (field r 0x15 1 = None /\ x = DC_Data v 1))).

Record PortableBattery_says (r : RawStructure) (s : PortableBattery) : Prop := {
  _ : battery_handle s = handle r;
  _ : text_field r 0x04 (battery_location s);
  _ : text_field r 0x05 (battery_manufacturer s);
  _ : date_says r (battery_manufacture_date s);
  _ : serial_says r (battery_serial_number s);
  _ : text_field r 0x08 (battery_device_name s);
  _ : chemistry_says r (battery_device_chemistry s);
  _ : capacity_says r (battery_design_capacity s);
  _ : field_is r 0x0C 2 (battery_design_voltage s);
  _ : text_field r 0x0E (battery_sbds_version_number s);
  _ : field_is r 0x0F 1 (battery_maximum_error_in_battery_data s);
  _ : if_there r 0x16 4 (battery_oem_specific s)
}.
Definition PortableBattery_needs : list need :=
  [Text 0x04; Text 0x05; Text 0x08; Num 0x09 1; Num 0x0A 2; Num 0x0C 2; Text 0x0E; Num 0x0F 1].
