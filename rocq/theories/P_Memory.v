(* C37 to C41: memory arrays and devices, mapped addresses, pointing devices,
   batteries. *)
From Coq Require Import String.
From Coq Require Import ZArith Lia ZifyBool ZifyNat ZifyN.
From Verif Require Import Base G_Enums M_Raw M_PhysicalMemoryArray M_MemoryDevice M_Memory M_PortableBattery.
From Verif Require Import Spec S_Enums S_Decode S_Memory L_Decode L_Memory L_Array L_Battery P_System.
Local Open Scope N_scope.

(* ------------------------------------------------------------ C37, type 16 *)

(* After 2.1 the decoder answers Ok s exactly when the fields are there and s is
   what the table says. *)
Theorem C37_array_decodes : forall c r s, from_version (version r) 2 2 ->
  (PhysicalMemoryArray_try_from c r = Val (Ok s) <-> array_reached r /\ PhysicalMemoryArray_says r s).
Proof. exact array_ok. Qed.
Print Assumptions C37_array_decodes.

(* "decoding never panics" is false: it does exactly when a field is missing *)
Theorem C37_array_panics_exactly : forall c r, PhysicalMemoryArray_try_from c r = Panic <-> ~ array_reached r.
Proof. exact array_panic. Qed.
Print Assumptions C37_array_panics_exactly.

(* otherwise it answers Ok: it never reports an error and never reads out of bounds *)
Theorem C37_array_returns : forall c r,
  PhysicalMemoryArray_try_from c r = Panic \/ exists s, PhysicalMemoryArray_try_from c r = Val (Ok s).
Proof. exact array_total. Qed.
Print Assumptions C37_array_returns.

(* "a 2.1 structure (the first version that has it) decodes to its fields" is false:
   up to 2.1 the answer is the same constant for every structure, with handle 0 *)
Theorem C37_array_2_1_refuted : forall c r, before_version (version r) 2 2 ->
  PhysicalMemoryArray_try_from c r = Val (Ok {|
    array_handle := 0; array_location := MemoryArrayLocation_Unknown; array_use := MemoryArrayUse_Unknown;
    array_memory_error_correction := MemoryArrayErrorCorrectionTypes_Unknown; array_maximum_capacity := None;
    array_memory_error_information_handle := None; array_number_of_memory_devices := 0;
    array_extended_maximum_capacity := None |}).
Proof. exact array_default. Qed.
Print Assumptions C37_array_2_1_refuted.

(* "the extended capacity is reported from 2.7 on" is false: at 2.7 it never is *)
Theorem C37_extended_2_7_refuted : forall c r s, version_is (version r) 2 7 ->
  PhysicalMemoryArray_try_from c r = Val (Ok s) -> array_extended_maximum_capacity s = None.
Proof. exact array_extended_missed. Qed.
Print Assumptions C37_extended_2_7_refuted.

Definition ex_array_data : list N :=
  [3; 3; 6; 0; 0; 0; 0x80; 0x34; 0x12; 4; 0; 0; 0; 0; 0; 8; 0; 0; 0].
Definition ex_array ma mi n := ex_struct ma mi InfoType_PhysicalMemoryArray (take n ex_array_data) [].
Example C37_example :
  PhysicalMemoryArray_try_from ex_strict (ex_array 3 0 19) = Val (Ok {|
    array_handle := 7; array_location := MemoryArrayLocation_SystemBoardOrMotherboard;
    array_use := MemoryArrayUse_SystemMemory;
    array_memory_error_correction := MemoryArrayErrorCorrectionTypes_MultiBitEcc;
    array_maximum_capacity := None; array_memory_error_information_handle := Some 0x1234;
    array_number_of_memory_devices := 4; array_extended_maximum_capacity := Some 0x800000000 |}) /\
  array_reached (ex_array 3 0 19).
Proof. split; [reflexivity|]. split; [vm_compute; discriminate|]. intros _ _. vm_compute. discriminate. Qed.
Example C37_panic_example :
  PhysicalMemoryArray_try_from ex_strict (ex_array 3 0 18) = Panic /\
  PhysicalMemoryArray_try_from ex_strict (ex_array 2 4 10) = Panic.
Proof. split; reflexivity. Qed.
Example C37_2_7_example : exists s,
  PhysicalMemoryArray_try_from ex_strict (ex_array 2 7 19) = Val (Ok s) /\ field_is (ex_array 2 7 19) 0x0F 8 0x800000000.
Proof. eexists. split; reflexivity. Qed.

(* ------------------------------------------------------------ C38, type 17 *)

Theorem C38_device_decodes : forall c r s,
  MemoryDevice_try_from c r = Val (Ok s) <-> 0x15 <= 4 + len (data r) /\ MemoryDevice_says r s.
Proof. exact MemoryDevice_ok. Qed.
Print Assumptions C38_device_decodes.
Theorem C38_device_errors : forall c r e,
  MemoryDevice_try_from c r = Val (Err e) <->
  MemoryDevice_length_error r e \/ (0x15 <= 4 + len (data r) /\ first_failure r MemoryDevice_needs e).
Proof. exact MemoryDevice_err. Qed.
Print Assumptions C38_device_errors.
(* never a panic, never a read out of bounds *)
Theorem C38_device_returns : forall c r, exists o, MemoryDevice_try_from c r = Val o.
Proof. exact MemoryDevice_total. Qed.
Print Assumptions C38_device_returns.

(* "the lengths of versions 2.1 to 2.6 (15h, 1Bh, 1Ch) are accepted" is false: nothing
   shorter than 20h bytes ever decodes *)
Theorem C38_device_short_refuted : forall c r, 4 + len (data r) < 0x20 ->
  exists e, MemoryDevice_try_from c r = Val (Err e).
Proof.
  intros c r H. destruct (MemoryDevice_total c r) as [[s|e] E]; [|eauto]. exfalso.
  apply MemoryDevice_ok in E. destruct E as [_ [_ _ _ _ _ _ _ _ _ _ _ _ _ _ _ _ _ _ F]].
  unfold field_is in F. rewrite field_out in F; [discriminate|]. unfold reaches. lia.
Qed.
Print Assumptions C38_device_short_refuted.
(* "device_set is None when the device is in no set (0) or this is unknown (FFh)" is
   false: it never is *)
Theorem C38_device_set_refuted : forall c r s, MemoryDevice_try_from c r = Val (Ok s) -> memdev_device_set s <> None.
Proof.
  intros c r s H. apply MemoryDevice_ok in H. destruct H as [_ [_ _ _ _ _ _ _ [k [_ E]]]]. congruence.
Qed.
Print Assumptions C38_device_set_refuted.

Definition ex_memdev n := ex_struct 2 8 InfoType_MemoryDevice (take n
  [0x34; 0x12; 0xFE; 0xFF; 72; 0; 64; 0; 0; 16; 9; 0; 1; 2; 0x18; 0x80; 0; 0x40; 6; 3; 0; 0; 1; 2; 0; 0; 0; 0;
   0x35; 5; 0; 0; 0; 0; 0xB0; 4]) [].
Example C38_example : exists s,
  MemoryDevice_try_from ex_strict (ex_memdev 36) = Val (Ok s) /\ 0x15 <= 4 + len (data (ex_memdev 36)) /\
  memdev_physical_memory_handle s = 0x1234 /\ memdev_memory_error_handle s = None /\ memdev_total_width s = Some 72 /\
  memdev_size s = Some 4096 /\ memdev_device_locator s = [65] /\ memdev_bank_locator s = [66; 67] /\
  memdev_memory_type s = MemoryType_Ddr3 /\ memdev_type_detail s = 0x80 /\ memdev_speed s = Some 1600 /\
  memdev_manufacturer s = [68] /\ memdev_configured_memory_speed s = Some 0x535 /\ memdev_minimum_voltage s = None /\
  memdev_configured_voltage s = Some 1200 /\ memdev_memory_technology s = None /\ memdev_firmware_version s = None.
Proof. eexists. split; [reflexivity|]. split; [vm_compute; discriminate|]. repeat split; reflexivity. Qed.
Example C38_short_example : MemoryDevice_try_from ex_strict (ex_memdev 23) = Val (Err InvalidSlice) /\
  MemoryDevice_try_from ex_strict (ex_memdev 16) = Val (Err (InvalidFormattedSectionLength InfoType_MemoryDevice 7 "at least" 0x15)).
Proof. split; reflexivity. Qed.

(* --------------------------------------------------- C39, types 18 to 21 *)

Theorem C39_error32_decodes : forall c r s,
  MemoryError32_try_from c r = Val (Ok s) <-> stated_ok r (MemoryError32_length (version r)) /\ MemoryError32_says r s.
Proof. exact MemoryError32_ok. Qed.
Print Assumptions C39_error32_decodes.
Theorem C39_error32_errors : forall c r e,
  MemoryError32_try_from c r = Val (Err e) <->
  stated_error r InfoType_MemoryError32 (MemoryError32_length (version r)) e \/
  (stated_ok r (MemoryError32_length (version r)) /\ first_failure r MemoryError32_needs e).
Proof. exact MemoryError32_err. Qed.
Print Assumptions C39_error32_errors.
Theorem C39_error32_returns : forall c r, exists o, MemoryError32_try_from c r = Val o.
Proof. exact MemoryError32_total. Qed.
Print Assumptions C39_error32_returns.

Theorem C39_array_address_decodes : forall c r s,
  MemoryArrayMappedAddress_try_from c r = Val (Ok s) <->
  stated_ok r (MemoryArrayMappedAddress_length (version r)) /\ MemoryArrayMappedAddress_says r s.
Proof. exact MemoryArrayMappedAddress_ok. Qed.
Print Assumptions C39_array_address_decodes.
Theorem C39_array_address_errors : forall c r e,
  MemoryArrayMappedAddress_try_from c r = Val (Err e) <->
  stated_error r InfoType_MemoryArrayMappedAddress (MemoryArrayMappedAddress_length (version r)) e \/
  (stated_ok r (MemoryArrayMappedAddress_length (version r)) /\ first_failure r MemoryArrayMappedAddress_needs e).
Proof. exact MemoryArrayMappedAddress_err. Qed.
Print Assumptions C39_array_address_errors.
Theorem C39_array_address_returns : forall c r, exists o, MemoryArrayMappedAddress_try_from c r = Val o.
Proof. exact MemoryArrayMappedAddress_total. Qed.
Print Assumptions C39_array_address_returns.

Theorem C39_device_address_decodes : forall c r s,
  MemoryDeviceMappedAddress_try_from c r = Val (Ok s) <->
  stated_ok r (MemoryDeviceMappedAddress_length (version r)) /\ MemoryDeviceMappedAddress_says r s.
Proof. exact MemoryDeviceMappedAddress_ok. Qed.
Print Assumptions C39_device_address_decodes.
Theorem C39_device_address_errors : forall c r e,
  MemoryDeviceMappedAddress_try_from c r = Val (Err e) <->
  stated_error r InfoType_MemoryDeviceMappedAddress (MemoryDeviceMappedAddress_length (version r)) e \/
  (stated_ok r (MemoryDeviceMappedAddress_length (version r)) /\ first_failure r MemoryDeviceMappedAddress_needs e).
Proof. exact MemoryDeviceMappedAddress_err. Qed.
Print Assumptions C39_device_address_errors.
Theorem C39_device_address_returns : forall c r, exists o, MemoryDeviceMappedAddress_try_from c r = Val o.
Proof. exact MemoryDeviceMappedAddress_total. Qed.
Print Assumptions C39_device_address_returns.

Theorem C39_pointing_decodes : forall c r s,
  BuiltInPointingDevice_try_from c r = Val (Ok s) <->
  stated_ok r (BuiltInPointingDevice_length (version r)) /\ BuiltInPointingDevice_says r s.
Proof. exact BuiltInPointingDevice_ok. Qed.
Print Assumptions C39_pointing_decodes.
Theorem C39_pointing_errors : forall c r e,
  BuiltInPointingDevice_try_from c r = Val (Err e) <->
  stated_error r InfoType_BuiltInPointingDevice (BuiltInPointingDevice_length (version r)) e \/
  (stated_ok r (BuiltInPointingDevice_length (version r)) /\ first_failure r BuiltInPointingDevice_needs e).
Proof. exact BuiltInPointingDevice_err. Qed.
Print Assumptions C39_pointing_errors.
Theorem C39_pointing_returns : forall c r, exists o, BuiltInPointingDevice_try_from c r = Val o.
Proof. exact BuiltInPointingDevice_total. Qed.
Print Assumptions C39_pointing_returns.

Example C39_example :
  MemoryError32_try_from ex_strict (ex_struct 2 7 InfoType_MemoryError32
    [3; 2; 2; 0; 0; 0; 0; 0; 0; 0; 0x80; 1; 0; 0; 0x80; 0; 1; 0; 0] []) = Val (Ok {|
    me_handle := 7; me_error_type := MEErrorType_Ok; me_error_granularity := MEErrorGranularity_Unknown;
    me_error_operation := MEErrorOperation_Unknown; me_vendor_syndrome := 0;
    me_memory_array_error_address := 0x80000000; me_device_error_address := 0x80000001; me_error_resolution := 0x100 |}) /\
  MemoryArrayMappedAddress_try_from ex_strict (ex_struct 2 6 InfoType_MemoryArrayMappedAddress
    [0; 0; 0; 0; 0xFF; 0xFF; 0x7F; 0; 0x34; 0x12; 2] []) = Val (Ok {|
    ama_handle := 7; ama_starting_address := 0; ama_ending_address := 0x7FFFFF; ama_memory_array_handle := 0x1234;
    ama_partition_width := 2; ama_extended_starting_address := None; ama_extended_ending_address := None |}) /\
  MemoryDeviceMappedAddress_try_from ex_strict (ex_struct 2 8 InfoType_MemoryDeviceMappedAddress
    [0xFF; 0xFF; 0xFF; 0xFF; 0xFF; 0xFF; 0xFF; 0xFF; 0x34; 0x12; 0x35; 0x12; 1; 2; 3;
     0; 0; 0; 0; 1; 0; 0; 0; 0; 0; 0; 0; 2; 0; 0; 0] []) = Val (Ok {|
    dma_handle := 7; dma_starting_address := 0xFFFFFFFF; dma_ending_address := 0xFFFFFFFF;
    dma_memory_device_handle := 0x1234; dma_memory_array_mapped_address_handle := 0x1235;
    dma_partition_row_position := 1; dma_interleave_position := 2; dma_interleaved_data_depth := 3;
    dma_extended_starting_address := Some 0x100000000; dma_extended_ending_address := Some 0x200000000 |}) /\
  BuiltInPointingDevice_try_from ex_strict (ex_struct 2 1 InfoType_BuiltInPointingDevice [7; 4; 2] []) = Val (Ok {|
    pd_handle := 7; pd_type := PointingDeviceType_TouchPad; pd_interface := PointingDeviceInterface_Ps2; pd_number_of_buttons := 2 |}) /\
  BuiltInPointingDevice_try_from ex_strict (ex_struct 2 1 InfoType_BuiltInPointingDevice [7; 4; 2; 0] []) =
    Val (Err (InvalidFormattedSectionLength InfoType_BuiltInPointingDevice 7 "" 7)) /\
  BuiltInPointingDevice_try_from ex_strict (ex_struct 2 0 InfoType_BuiltInPointingDevice [7; 4] []) = Val (Err InvalidSlice).
Proof. repeat split; reflexivity. Qed.

(* ------------------------------------------------------------ C40, type 22 *)

Theorem C40_battery_decodes : forall c r s, all_bytes (data r) ->
  (PortableBattery_try_from c r = Val (Ok s) <->
   stated_ok r (PortableBattery_length (version r)) /\ PortableBattery_says r s).
Proof. exact PortableBattery_ok. Qed.
Print Assumptions C40_battery_decodes.
Theorem C40_battery_errors : forall c r e,
  PortableBattery_try_from c r = Val (Err e) <->
  stated_error r InfoType_PortableBattery (PortableBattery_length (version r)) e \/
  (stated_ok r (PortableBattery_length (version r)) /\ first_failure r PortableBattery_needs e).
Proof. exact PortableBattery_err. Qed.
Print Assumptions C40_battery_errors.
Theorem C40_battery_returns : forall c r, exists o, PortableBattery_try_from c r = Val o.
Proof. exact PortableBattery_total. Qed.
Print Assumptions C40_battery_returns.

(* "chemistry code 2 without a text is reported as unknown" is false when the
   structure has the text field and it holds 0, which means "no text": the answer is
   the Smart Battery variant with an empty text *)
Theorem C40_no_text_refuted : forall c r s, all_bytes (data r) -> PortableBattery_try_from c r = Val (Ok s) ->
  field_is r 0x09 1 2 -> field_is r 0x14 1 0 -> battery_device_chemistry s = Chem_SmartBatteryDataSpecification [].
Proof.
  intros c r s HB H FC FT. apply PortableBattery_ok in H; [|exact HB]. destruct H as [_ [_ _ _ _ _ _ [k [F [[t [_ [T E]]]|[[N|N] _]]]]]].
  - destruct T as [k' [FT' [[_ ->]|[N _]]]]; [exact E|]. unfold field_is in *. congruence.
  - unfold field_is in *. congruence.
  - destruct (N []). exists 0. split; [exact FT|]. left. auto.
Qed.
Print Assumptions C40_no_text_refuted.

Definition ex_battery := ex_struct 2 7 InfoType_PortableBattery
  [1; 2; 0; 0; 3; 2; 0x10; 0x27; 0x60; 0x54; 0; 5; 0x34; 0x12; 0xCF; 0x4A; 0; 10; 1; 0; 0; 0] [].
Example C40_example :
  PortableBattery_try_from ex_strict ex_battery = Val (Ok {|
    battery_handle := 7; battery_location := [65]; battery_manufacturer := [66; 67];
    battery_manufacture_date := MD_SmartBatteryDataSpecification 2017 6 15;
    battery_serial_number := SN_SmartBatteryDataSpecification 0x1234;
    battery_device_name := [68]; battery_device_chemistry := Chem_SmartBatteryDataSpecification [];
    battery_design_capacity := DC_Data 10000 10; battery_design_voltage := 0x5460;
    battery_sbds_version_number := []; battery_maximum_error_in_battery_data := 5;
    battery_oem_specific := Some 1 |}) /\
  all_bytes (data ex_battery) /\ stated_ok ex_battery (PortableBattery_length (version ex_battery)).
Proof. split; [reflexivity|]. split; [repeat constructor|]. reflexivity. Qed.
(* a text wins over the packed word *)
Example C40_text_example : exists s,
  PortableBattery_try_from ex_strict (ex_struct 2 7 InfoType_PortableBattery
    [1; 2; 2; 3; 3; 3; 0; 0; 0x60; 0x54; 0; 5; 0x34; 0x12; 0xCF; 0x4A; 0; 10; 1; 0; 0; 0] []) = Val (Ok s) /\
  battery_manufacture_date s = MD_Basic [66; 67] /\ battery_serial_number s = SN_Basic [68] /\
  battery_device_chemistry s = Chem_LeadAcid /\ battery_design_capacity s = DC_Unknown.
Proof. eexists. split; [reflexivity|]. repeat split; reflexivity. Qed.

(* --------------------------------------------- C41, dates and capacities *)

(* The decoded date packs to the stored word again. *)
Theorem C41_date : forall w, w < 65536 -> exists y m d,
  ManufactureDate_new None (Some w) = MD_SmartBatteryDataSpecification y m d /\
  (y - 1980) * 512 + m * 32 + d = w /\ 1980 <= y <= 2107 /\ m < 16 /\ d < 32.
Proof. exact date_packs. Qed.
Print Assumptions C41_date.
(* "the capacity is value times multiplier" is true only when the product is below
   65536; otherwise the conversion panics, or is off by a multiple of 65536 *)
Theorem C41_capacity : forall c v m, v * m < 65536 -> DesignCapacity_to_u64 c (DC_Data v m) = Val (v * m).
Proof. intros c v m H. rewrite capacity_value. replace (v * m <? 65536) with true by lia. reflexivity. Qed.
Print Assumptions C41_capacity.
Theorem C41_capacity_refuted : forall c v m, 65536 <= v * m ->
  DesignCapacity_to_u64 c (DC_Data v m) = if overflow_checks c then Panic else Val ((v * m) mod 65536).
Proof. intros c v m H. rewrite capacity_value. replace (v * m <? 65536) with false by lia. reflexivity. Qed.
Print Assumptions C41_capacity_refuted.
Theorem C41_capacity_unknown : forall c, DesignCapacity_to_u64 c DC_Unknown = Val 0.
Proof. reflexivity. Qed.
Print Assumptions C41_capacity_unknown.
Example C41_example :
  DesignCapacity_to_u64 ex_strict (DC_Data 4400 10) = Val 44000 /\
  DesignCapacity_to_u64 ex_strict (DC_Data 10000 10) <> Val 100000 /\
  ManufactureDate_new None (Some 0x4ACF) = MD_SmartBatteryDataSpecification 2017 6 15.
Proof. split; [reflexivity|]. split; [vm_compute; discriminate|reflexivity]. Qed.
