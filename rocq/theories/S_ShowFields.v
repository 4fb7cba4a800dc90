(* Specification for C87: what the developer text of a value says about each of its fields. *)
From Coq Require Import String Ascii.
From Verif Require Import Base G_Enums M_Raw M_Entry M_Bios M_System M_BaseBoard M_Enclosure M_Processor M_Cache
  M_PortConnector M_SystemSlots M_Strings M_GroupAssociations M_SystemEventLog M_PhysicalMemoryArray M_MemoryDevice
  M_Memory M_PortableBattery M_Iter M_Flags M_Display M_Show G_Show Spec S_Text S_Show S_Flags.
Local Open Scope string_scope.
Local Open Scope N_scope.

(* ------------------------------------------------------------- kinds of values *)

Inductive shown_as :=
| As_number (n : N)
| As_text (t : text)
| As_bool (b : bool)
| As_bytes (l : list N)
| As_uuid (l : list N)
| As_flags (type : string) (names : list (N * string)) (x : N)   (* bits with names *)
| As_enum (t : tree)                                            (* a value of an enumeration: see S_ShowCodes *)
| As_word (name : string)                                       (* a case without fields *)
| As_option (o : option shown_as)
| As_tuple (name : string) (values : list shown_as)
| As_struct (name : string) (fields : list (string * shown_as)).
Definition As_wrapped (name : string) (n : N) : shown_as := As_tuple name [As_number n].

(* two hexadecimal digits *)
Definition hex_byte (n : N) (s : string) : Prop := padded 16 2 s n /\ lower_case s.

(* words with bars between them *)
Fixpoint barred (words : list string) : string :=
  match words with
  | [] => ""
  | [s] => s
  | s :: l => s ++ " | " ++ barred l
  end.
(* the names of the bits that are set, and the other bits as one number *)
Definition flags_text (names : list (N * string)) (x : N) (s : string) : Prop :=
  (x = 0 /\ s = "0x0") \/
  (x <> 0 /\ exists other words, s = barred (app (map snd (filter (fun p => N.testbit x (fst p)) names)) words) /\
    (forall i, N.testbit other i = N.testbit x i && negb (existsb (N.eqb i) (map fst names)))%bool /\
    (other = 0 /\ words = [] \/ other <> 0 /\ exists h, hex_numeral h other /\ words = ["0x" ++ h])).

(* ------------------------------------------------------------ how a value is written *)

(* four blanks for each level *)
Fixpoint margin (depth : nat) : string := match depth with O => "" | S depth => "    " ++ margin depth end.
(* things in brackets: one behind the other; or a line for each, indented, with a comma *)
Definition enclosed (wide : bool) (depth : nat) (opening gap closing : string) (things : list string) : string :=
  if wide
  then several_lines (app [opening] (app (map (fun s => margin (S depth) ++ s ++ ",") things) [margin depth ++ closing]))
  else opening ++ gap ++ listed things ++ gap ++ closing.

(* [wide]: in several lines, which is what {:#?} writes, or in one, which is what {:?} writes *)
Inductive shows (u : characters) (wide : bool) : nat -> shown_as -> string -> Prop :=
| shows_number d n s : numeral 10 s n -> shows u wide d (As_number n) s
| shows_text d t s : literal u t s -> shows u wide d (As_text t) s
| shows_true d : shows u wide d (As_bool true) "true"
| shows_false d : shows u wide d (As_bool false) "false"
| shows_no_bytes d : shows u wide d (As_bytes []) "[]"
| shows_bytes d l ss : l <> [] -> Forall2 (numeral 10) ss l -> shows u wide d (As_bytes l) (enclosed wide d "[" "" "]" ss)
| shows_uuid depth l a b c d e f g h i j k m n o p q :
    Forall2 hex_byte l [a; b; c; d; e; f; g; h; i; j; k; m; n; o; p; q] ->
    shows u wide depth (As_uuid l)
      (a ++ b ++ c ++ d ++ "-" ++ e ++ f ++ "-" ++ g ++ h ++ "-" ++ i ++ j ++ "-" ++ k ++ m ++ n ++ o ++ p ++ q)
| shows_flags d type names x s : flags_text names x s -> shows u wide d (As_flags type names x) (enclosed wide d (type ++ "(") "" ")" [s])
| shows_enum d t : shows u wide d (As_enum t) (print u wide d t)
| shows_word d name : shows u wide d (As_word name) name
| shows_none d : shows u wide d (As_option None) "None"
| shows_some d v s : shows u wide (S d) v s -> shows u wide d (As_option (Some v)) (enclosed wide d "Some(" "" ")" [s])
| shows_tuple d name values ss : Forall2 (shows u wide (S d)) values ss ->
    shows u wide d (As_tuple name values) (enclosed wide d (name ++ "(") "" ")" ss)
| shows_struct d name fields ss : Forall2 (shows u wide (S d)) (map snd fields) ss ->
    shows u wide d (As_struct name fields)
      (enclosed wide d (name ++ " {") " " "}" (map (fun p => fst p ++ ": " ++ snd p) (combine (map fst fields) ss))).

(* --------------------------------------------- the fields of the types, with their values *)

(* the bits of a processor's status.  Bits 2:0 are a code (S_Flags.status_codes), but they are
   written as if each of them stood for itself *)
Definition status_bits : list (N * string) := [
  (6, "CPU_SOCKET_POPULATED"); (0, "CPU_ENABLED"); (1, "CPU_DISABLED_BY_USER"); (2, "CPU_IDLE")].

(* what is left of a slice that an iterator cuts in pieces of that size *)
Definition chunks_contents (left : list N) (size : N) : shown_as :=
  As_struct "Chunks" [("v", As_bytes left); ("chunk_size", As_number size)].
Definition revision_contents (type : string) (x : Revision) : shown_as :=
  As_struct type [("major", As_number (rev_major x)); ("minor", As_number (rev_minor x))].
Definition ContainedElementType_contents (x : ContainedElementType) : shown_as :=
  match x with
  | CE_BoardType b => As_tuple "BoardType" [As_enum (BoardType_tree b)]
  | CE_InfoType i => As_tuple "InfoType" [As_enum (InfoType_tree i)]
  end.
(* the largest size where there is nothing to cut *)
Definition ContainedElements_contents (c : cfg) (x : ContainedElements) : shown_as :=
  As_struct "ContainedElements" [
    ("chunks", chunks_contents (ce_chunks x)
      (if (ce_count x =? 0) || (ce_record_length x =? 0) then 2 ^ usize_bits c - 1 else ce_record_length x));
    ("count", As_number (ce_count x));
    ("record_length", As_number (ce_record_length x))].
Definition Voltage_contents (x : Voltage) : shown_as :=
  match x with
  | Voltage_Legacy v => As_tuple "Legacy" [As_flags "VoltageLegacy" voltage_capabilities v]
  | Voltage_Current v => As_tuple "Current" [As_number v]
  | Voltage_Undefined v => As_tuple "Undefined" [As_number v]
  end.
Definition CacheSize_contents (x : CacheSize) : shown_as :=
  match x with
  | Granularity1K v => As_tuple "Granularity1K" [As_number v]
  | Granularity64K v => As_tuple "Granularity64K" [As_number v]
  end.
Definition CacheSize2_contents (x : CacheSize2) : shown_as :=
  match x with
  | Granularity1K_2 v => As_tuple "Granularity1K" [As_number v]
  | Granularity64K_2 v => As_tuple "Granularity64K" [As_number v]
  end.
Definition DeviceAndFunctionNumber_contents (x : DeviceAndFunctionNumber) : shown_as :=
  As_tuple "DeviceAndFunctionNumber" [As_number (dev x); As_number (fun_ x)].
Definition PeerDevices_contents (x : PeerDevices) : shown_as :=
  As_tuple "PeerDevices" [chunks_contents (peer_chunks x) 5].
Definition EventLogTypeDescriptors_contents (x : EventLogTypeDescriptors) : shown_as :=
  As_tuple "SupportedEventLogTypeDescriptors" [chunks_contents (descriptors_data x) (descriptors_size x)].
Definition SystemManagementType_contents (x : SystemManagementType) : shown_as :=
  match x with
  | SMT_OutOfRangeVoltagePlus2_5Num1 => As_word "OutOfRangeVoltagePlus2_5Num1"
  | SMT_OutOfRangeVoltagePlus2_5Num2 => As_word "OutOfRangeVoltagePlus2_5Num2"
  | SMT_OutOfRangeVoltagePlus3_3 => As_word "OutOfRangeVoltagePlus3_3"
  | SMT_OutOfRangeVoltagePlus5 => As_word "OutOfRangeVoltagePlus5"
  | SMT_OutOfRangeVoltageMinus5 => As_word "OutOfRangeVoltageMinus5"
  | SMT_OutOfRangeVoltagePlus12 => As_word "OutOfRangeVoltagePlus12"
  | SMT_OutOfRangeVoltageMinus12 => As_word "OutOfRangeVoltageMinus12"
  | SMT_OutOfRangeVoltageReserved v => As_tuple "OutOfRangeVoltageReserved" [As_number v]
  | SMT_OutOfRangeTemperatureSystemBoard => As_word "OutOfRangeTemperatureSystemBoard"
  | SMT_OutOfRangeTemperatureProcessor1 => As_word "OutOfRangeTemperatureProcessor1"
  | SMT_OutOfRangeTemperatureProcessor2 => As_word "OutOfRangeTemperatureProcessor2"
  | SMT_OutOfRangeTemperatureProcessor3 => As_word "OutOfRangeTemperatureProcessor3"
  | SMT_OutOfRangeTemperatureProcessor4 => As_word "OutOfRangeTemperatureProcessor4"
  | SMT_OutOfRangeTemperatureReserved v => As_tuple "OutOfRangeTemperatureReserved" [As_number v]
  | SMT_OutOfRangeFan v => As_tuple "OutOfRangeFan" [As_number v]
  | SMT_Reserved v => As_tuple "Reserved" [As_number v]
  | SMT_ChassisSecureSwitchActivated => As_word "ChassisSecureSwitchActivated"
  | SMT_OutOfRangeSystemManagementProbe v => As_tuple "OutOfRangeSystemManagementProbe" [As_number v]
  | SMT_OemAssigned v => As_tuple "OemAssigned" [As_number v]
  end.
Definition VariableDataFormatType_contents (x : VariableDataFormatType) : shown_as :=
  match x with
  | VDF_None => As_word "None"
  | VDF_Handle h => As_struct "Handle" [("handle", As_number h)]
  | VDF_MultipleEvent n => As_struct "MultipleEvent" [("counter", As_number n)]
  | VDF_MultipleEventHandle h n => As_struct "MultipleEventHandle" [("handle", As_number h); ("counter", As_number n)]
  | VDF_PostResults v => As_tuple "PostResults" [As_wrapped "PostResults" v]
  | VDF_SystemManagementType t => As_tuple "SystemManagementType" [SystemManagementType_contents t]
  | VDF_MultipleEventSystemManagementType t n => As_struct "MultipleEventSystemManagementType"
      [("system_management_type", SystemManagementType_contents t); ("counter", As_number n)]
  | VDF_Unused v => As_tuple "Unused" [As_number v]
  | VDF_OemAssigned v => As_tuple "OemAssigned" [As_number v]
  end.
Definition AccessMethod_contents (x : AccessMethod) : shown_as :=
  match x with
  | AM_IndexedIoOne8bitIndexOne8bitData i d =>
      As_struct "IndexedIoOne8bitIndexOne8bitData" [("index", As_number i); ("data", As_number d)]
  | AM_IndexedIoTwo8bitIndexOne8bitData i j d =>
      As_struct "IndexedIoTwo8bitIndexOne8bitData" [("index", As_bytes [i; j]); ("data", As_number d)]
  | AM_IndexedIoOne16bitIndexOne8bitData i d =>
      As_struct "IndexedIoOne16bitIndexOne8bitData" [("index", As_number i); ("data", As_number d)]
  | AM_MemoryMappedPhysicaAddress a => As_struct "MemoryMappedPhysicaAddress" [("physical_address", As_number a)]
  | AM_GeneralPurposeNonVolatileData h => As_struct "GeneralPurposeNonVolatileData" [("gpnv_handle", As_number h)]
  | AM_Available m a => As_struct "Available" [("method", As_number m); ("address", As_number a)]
  | AM_OemSpecific m a => As_struct "OemSpecific" [("method", As_number m); ("address", As_number a)]
  end.
Definition ManufactureDate_contents (x : ManufactureDate) : shown_as :=
  match x with
  | MD_None => As_word "None"
  | MD_Basic t => As_tuple "Basic" [As_text t]
  | MD_SmartBatteryDataSpecification y m d =>
      As_struct "SmartBatteryDataSpecification" [("year", As_number y); ("month", As_number m); ("date", As_number d)]
  end.
Definition SerialNumber_contents (x : SerialNumber) : shown_as :=
  match x with
  | SN_None => As_word "None"
  | SN_Basic t => As_tuple "Basic" [As_text t]
  | SN_SmartBatteryDataSpecification n => As_tuple "SmartBatteryDataSpecification" [As_number n]
  end.
Definition DesignCapacity_contents (x : DesignCapacity) : shown_as :=
  match x with
  | DC_Unknown => As_word "Unknown"
  | DC_Data v m => As_struct "Data" [("value", As_number v); ("multiplier", As_number m)]
  end.
Definition DeviceChemistry_contents (x : DeviceChemistry) : shown_as :=
  match x with
  | Chem_Other => As_word "Other"
  | Chem_Unknown => As_word "Unknown"
  | Chem_LeadAcid => As_word "LeadAcid"
  | Chem_NickelCadmium => As_word "NickelCadmium"
  | Chem_NickelMetalHydride => As_word "NickelMetalHydride"
  | Chem_LithiumIon => As_word "LithiumIon"
  | Chem_ZincAir => As_word "ZincAir"
  | Chem_LithiumPolymer => As_word "LithiumPolymer"
  | Chem_Undefined v => As_tuple "Undefined" [As_number v]
  | Chem_SmartBatteryDataSpecification t => As_tuple "SmartBatteryDataSpecification" [As_text t]
  end.
Definition SmbiosVersion_contents (x : SmbiosVersion) : shown_as :=
  As_struct "SmbiosVersion" [
    ("major", As_number (major x));
    ("minor", As_number (minor x))].
Definition RawStructure_contents (x : RawStructure) : shown_as :=
  As_struct "RawStructure" [
    ("version", SmbiosVersion_contents (version x));
    ("info", As_enum (InfoType_tree (info x)));
    ("length", As_number (length_ x));
    ("handle", As_number (handle x));
    ("data", As_bytes (data x));
    ("strings", As_bytes (strings x))].
Definition StructureStrings_contents (x : StructureStrings) : shown_as :=
  As_struct "StructureStrings" [
    ("bytes", As_bytes (bytes x));
    ("start", As_number (start x))].
Definition RomSize_contents (x : RomSize) : shown_as :=
  As_struct "RomSize" [
    ("basic", As_number (basic x));
    ("extended", As_option (option_map As_number (extended x)))].
Definition Bios_contents (x : Bios) : shown_as :=
  As_struct "Bios" [
    ("handle", As_number (bios_handle x));
    ("vendor", As_text (bios_vendor x));
    ("bios_version", As_text (bios_bios_version x));
    ("bios_starting_address_segment", As_number (bios_starting_address_segment x));
    ("bios_release_date", As_text (bios_release_date x));
    ("rom_size", RomSize_contents (bios_rom_size x));
    ("bios_characteristics", As_wrapped "Characteristics" (bios_characteristics x));
    ("bios_characteristics_exttension_1", As_option (option_map (As_wrapped "CharacteristicsExtension1") (bios_characteristics_extension_1 x)));
    ("bios_characteristics_exttension_2", As_option (option_map (As_wrapped "CharacteristicsExtension2") (bios_characteristics_extension_2 x)));
    ("bios_revision", As_option (option_map (revision_contents "BiosRevision") (bios_revision x)));
    ("firmware_revision", As_option (option_map (revision_contents "FirmwareRevision") (bios_firmware_revision x)))].
Definition System_contents (x : System) : shown_as :=
  As_struct "System" [
    ("handle", As_number (system_handle x));
    ("manufacturer", As_text (system_manufacturer x));
    ("product", As_text (system_product x));
    ("version", As_text (system_version x));
    ("serial", As_text (system_serial x));
    ("uuid", As_option (option_map As_uuid (system_uuid x)));
    ("wakeup", As_option (option_map (fun v => As_enum (WakeupType_tree v)) (system_wakeup x)));
    ("sku", As_option (option_map As_text (system_sku x)));
    ("family", As_option (option_map As_text (system_family x)))].
Definition BaseBoard_contents (x : BaseBoard) : shown_as :=
  As_struct "BaseBoard" [
    ("handle", As_number (baseboard_handle x));
    ("manufacturer", As_text (baseboard_manufacturer x));
    ("product", As_text (baseboard_product x));
    ("version", As_text (baseboard_version x));
    ("serial", As_text (baseboard_serial x));
    ("asset", As_option (option_map As_text (baseboard_asset x)));
    ("feature_flags", As_option (option_map (As_flags "BaseBoardFlags" board_features) (baseboard_feature_flags x)));
    ("location_in_chassis", As_option (option_map As_text (baseboard_location_in_chassis x)));
    ("chassis_handle", As_option (option_map As_number (baseboard_chassis_handle x)));
    ("board_type", As_option (option_map (fun v => As_enum (BoardType_tree v)) (baseboard_board_type x)))].
Definition ContainedElement_contents (x : ContainedElement) : shown_as :=
  As_struct "ContainedElement" [
    ("type_", ContainedElementType_contents (cel_type x));
    ("minimum", As_number (cel_minimum x));
    ("maximum", As_number (cel_maximum x))].
Definition Enclosure_contents (c : cfg) (x : Enclosure) : shown_as :=
  As_struct "Enclosure" [
    ("handle", As_number (enclosure_handle x));
    ("manufacturer", As_text (enclosure_manufacturer x));
    ("chassis_lock", As_bool (enclosure_chassis_lock x));
    ("enclosure_type", As_enum (EnclosureType_tree (enclosure_enclosure_type x)));
    ("version", As_text (enclosure_version x));
    ("serial_number", As_text (enclosure_serial_number x));
    ("asset_tag_number", As_text (enclosure_asset_tag_number x));
    ("boot_up_state", As_option (option_map (fun v => As_enum (State_tree v)) (enclosure_boot_up_state x)));
    ("power_supply_state", As_option (option_map (fun v => As_enum (State_tree v)) (enclosure_power_supply_state x)));
    ("thermal_state", As_option (option_map (fun v => As_enum (State_tree v)) (enclosure_thermal_state x)));
    ("security_status", As_option (option_map (fun v => As_enum (SecurityStatus_tree v)) (enclosure_security_status x)));
    ("oem_defined", As_option (option_map As_number (enclosure_oem_defined x)));
    ("height", As_option (option_map As_number (enclosure_height x)));
    ("power_cords_number", As_option (option_map As_number (enclosure_power_cords_number x)));
    ("contained_elements", As_option (option_map (ContainedElements_contents c) (enclosure_contained_elements x)));
    ("sku_number", As_option (option_map As_text (enclosure_sku_number x)))].
Definition Processor_contents (x : Processor) : shown_as :=
  As_struct "Processor" [
    ("handle", As_number (processor_handle x));
    ("socket_designation", As_text (processor_socket_designation x));
    ("processor_type", As_enum (ProcessorType_tree (processor_processor_type x)));
    ("processor_family", As_enum (ProcessorFamily_tree (processor_processor_family x)));
    ("processor_manufacturer", As_text (processor_processor_manufacturer x));
    ("processor_id", As_number (processor_processor_id x));
    ("processor_version", As_text (processor_processor_version x));
    ("voltage", Voltage_contents (processor_voltage x));
    ("external_clock", As_number (processor_external_clock x));
    ("max_speed", As_number (processor_max_speed x));
    ("current_speed", As_number (processor_current_speed x));
    ("status", As_flags "ProcessorStatus" status_bits (processor_status x));
    ("processor_upgrade", As_enum (ProcessorUpgrade_tree (processor_processor_upgrade x)));
    ("l1_cache_handle", As_option (option_map As_number (processor_l1_cache_handle x)));
    ("l2_cache_handle", As_option (option_map As_number (processor_l2_cache_handle x)));
    ("l3_cache_handle", As_option (option_map As_number (processor_l3_cache_handle x)));
    ("serial_number", As_option (option_map As_text (processor_serial_number x)));
    ("asset_tag", As_option (option_map As_text (processor_asset_tag x)));
    ("part_number", As_option (option_map As_text (processor_part_number x)));
    ("core_count", As_option (option_map As_number (processor_core_count x)));
    ("core_enabled", As_option (option_map As_number (processor_core_enabled x)));
    ("thread_count", As_option (option_map As_number (processor_thread_count x)));
    ("processor_characteristics", As_option (option_map (As_flags "ProcessorCharacteristics" processor_characteristics) (processor_processor_characteristics x)))].
Definition CacheConfiguration_contents (x : CacheConfiguration) : shown_as :=
  As_struct "CacheConfiguration" [
    ("level", As_enum (CacheLevel_tree (level x)));
    ("socketed", As_bool (socketed x));
    ("location", As_enum (CacheLocation_tree (location x)));
    ("enabled_at_boot_time", As_bool (enabled_at_boot_time x));
    ("operational_mode", As_enum (CacheOperationalMode_tree (operational_mode x)))].
Definition Cache_contents (x : Cache) : shown_as :=
  As_struct "Cache" [
    ("handle", As_number (cache_handle x));
    ("socket_designation", As_text (cache_socket_designation x));
    ("cache_configuration", CacheConfiguration_contents (cache_cache_configuration x));
    ("maximum_cache_size", CacheSize_contents (cache_maximum_cache_size x));
    ("installed_size", CacheSize_contents (cache_installed_size x));
    ("supported_sram_type", As_flags "CacheSramType" sram_types (cache_supported_sram_type x));
    ("current_sram_type", As_flags "CacheSramType" sram_types (cache_current_sram_type x));
    ("cache_speed", As_option (option_map As_number (cache_cache_speed x)));
    ("error_correction_type", As_option (option_map (fun v => As_enum (CacheErrorCorrectionType_tree v)) (cache_error_correction_type x)));
    ("system_cache_type", As_option (option_map (fun v => As_enum (SystemCacheType_tree v)) (cache_system_cache_type x)));
    ("associativity", As_option (option_map (fun v => As_enum (CacheAssociativity_tree v)) (cache_associativity x)));
    ("maximum_cache_size_2", As_option (option_map CacheSize2_contents (cache_maximum_cache_size_2 x)));
    ("installed_size_2", As_option (option_map CacheSize2_contents (cache_installed_size_2 x)))].
Definition PortConnector_contents (x : PortConnector) : shown_as :=
  As_struct "PortConnector" [
    ("handle", As_number (port_handle x));
    ("internal_reference_designator", As_text (port_internal_reference_designator x));
    ("internal_connector_type", As_enum (ConnectorType_tree (port_internal_connector_type x)));
    ("external_reference_designator", As_text (port_external_reference_designator x));
    ("external_connector_type", As_enum (ConnectorType_tree (port_external_connector_type x)));
    ("port_type", As_enum (PortType_tree (port_port_type x)))].
Definition Device_contents (x : Device) : shown_as :=
  As_struct "Device" [
    ("segment_group_number", As_number (device_segment_group_number x));
    ("bus_number", As_number (device_bus_number x));
    ("device_and_function_number", DeviceAndFunctionNumber_contents (device_device_and_function_number x));
    ("data_bus_width", As_number (device_data_bus_width x))].
Definition SystemSlots_contents (x : SystemSlots) : shown_as :=
  As_struct "SystemSlots" [
    ("handle", As_number (slots_handle x));
    ("slot_designation", As_text (slots_slot_designation x));
    ("slot_type", As_enum (SlotType_tree (slots_slot_type x)));
    ("slot_data_bus_width", As_enum (SlotWidth_tree (slots_slot_data_bus_width x)));
    ("current_usage", As_enum (CurrentUsage_tree (slots_current_usage x)));
    ("slot_length", As_enum (SlotLength_tree (slots_slot_length x)));
    ("slot_id", As_number (slots_slot_id x));
    ("slot_characteristics_1", As_wrapped "SlotCharacteristics1" (slots_slot_characteristics_1 x));
    ("slot_characteristics_2", As_option (option_map (As_wrapped "SlotCharacteristics2") (slots_slot_characteristics_2 x)));
    ("segment_group_number", As_option (option_map As_number (slots_segment_group_number x)));
    ("bus_number", As_option (option_map As_number (slots_bus_number x)));
    ("device_and_function_number", As_option (option_map DeviceAndFunctionNumber_contents (slots_device_and_function_number x)));
    ("data_bus_width", As_option (option_map As_number (slots_data_bus_width x)));
    ("peer_devices", As_option (option_map PeerDevices_contents (slots_peer_devices x)));
    ("slot_information", As_option (option_map As_number (slots_slot_information x)));
    ("slot_physical_width", As_option (option_map (fun v => As_enum (SlotWidth_tree v)) (slots_slot_physical_width x)));
    ("slot_pitch", As_option (option_map (As_wrapped "SlotPitch") (slots_slot_pitch x)))].
Definition OemStrings_contents (x : OemStrings) : shown_as :=
  As_struct "OemStrings" [
    ("handle", As_number (oem_handle x));
    ("strings", StructureStrings_contents (oem_strings x))].
Definition SystemConfigurationOptions_contents (x : SystemConfigurationOptions) : shown_as :=
  As_struct "SystemConfigurationOptions" [
    ("handle", As_number (options_handle x));
    ("strings", StructureStrings_contents (options_strings x))].
Definition InstallableLanguages_contents (x : InstallableLanguages) : shown_as :=
  As_struct "InstallableLanguages" [
    ("structure", RawStructure_contents (il_structure x));
    ("index", As_number (il_index x))].
Definition BiosLanguage_contents (x : BiosLanguage) : shown_as :=
  As_struct "BiosLanguage" [
    ("handle", As_number (language_handle x));
    ("installable_languages", InstallableLanguages_contents (language_installable_languages x));
    ("flags", As_option (option_map (As_wrapped "LanguageFlags") (language_flags x)));
    ("current_language", As_number (language_current_language x))].
Definition GroupItems_contents (x : GroupItems) : shown_as :=
  As_struct "GroupItems" [
    ("data", As_bytes (gi_data x));
    ("index", As_number (gi_index x))].
Definition GroupItem_contents (x : GroupItem) : shown_as :=
  As_struct "GroupItem" [
    ("type_", As_number (gi_type x));
    ("handle", As_number (gi_handle x))].
Definition GroupAssociations_contents (x : GroupAssociations) : shown_as :=
  As_struct "GroupAssociations" [
    ("handle", As_number (group_handle x));
    ("group_name", As_text (group_group_name x));
    ("items", GroupItems_contents (group_items x))].
Definition EventLogTypeDescriptor_contents (x : EventLogTypeDescriptor) : shown_as :=
  As_struct "EventLogTypeDescriptor" [
    ("log_type", As_enum (EventLogType_tree (log_type x)));
    ("variable_data_format_type", VariableDataFormatType_contents (variable_data_format_type x))].
Definition SystemEventLog_contents (x : SystemEventLog) : shown_as :=
  As_struct "SystemEventLog" [
    ("handle", As_number (log_handle x));
    ("log_area_length", As_number (log_log_area_length x));
    ("log_header_start_offset", As_number (log_log_header_start_offset x));
    ("log_data_start_offset", As_number (log_log_data_start_offset x));
    ("access_method", AccessMethod_contents (log_access_method x));
    ("log_status", As_wrapped "LogStatus" (log_log_status x));
    ("log_change_token", As_number (log_log_change_token x));
    ("log_header_format", As_option (option_map (fun v => As_enum (LogHeaderFormat_tree v)) (log_log_header_format x)));
    ("supported_event_log_type_descriptors", As_option (option_map EventLogTypeDescriptors_contents (log_descriptors x)))].
Definition PhysicalMemoryArray_contents (x : PhysicalMemoryArray) : shown_as :=
  As_struct "PhysicalMemoryArray" [
    ("handle", As_number (array_handle x));
    ("location", As_enum (MemoryArrayLocation_tree (array_location x)));
    ("use", As_enum (MemoryArrayUse_tree (array_use x)));
    ("memory_error_correction", As_enum (MemoryArrayErrorCorrectionTypes_tree (array_memory_error_correction x)));
    ("maximum_capacity", As_option (option_map As_number (array_maximum_capacity x)));
    ("memory_error_information_handle", As_option (option_map As_number (array_memory_error_information_handle x)));
    ("number_of_memory_devices", As_number (array_number_of_memory_devices x));
    ("extended_maximum_capacity", As_option (option_map As_number (array_extended_maximum_capacity x)))].
Definition MemoryDevice_contents (x : MemoryDevice) : shown_as :=
  As_struct "MemoryDevice" [
    ("handle", As_number (memdev_handle x));
    ("physical_memory_handle", As_number (memdev_physical_memory_handle x));
    ("memory_error_handle", As_option (option_map As_number (memdev_memory_error_handle x)));
    ("total_width", As_option (option_map As_number (memdev_total_width x)));
    ("data_width", As_option (option_map As_number (memdev_data_width x)));
    ("size", As_option (option_map As_number (memdev_size x)));
    ("form_factor", As_enum (FormFactor_tree (memdev_form_factor x)));
    ("device_set", As_option (option_map As_number (memdev_device_set x)));
    ("device_locator", As_text (memdev_device_locator x));
    ("bank_locator", As_text (memdev_bank_locator x));
    ("memory_type", As_enum (MemoryType_tree (memdev_memory_type x)));
    ("type_detail", As_flags "Detail" type_details (memdev_type_detail x));
    ("speed", As_option (option_map As_number (memdev_speed x)));
    ("manufacturer", As_text (memdev_manufacturer x));
    ("serial", As_text (memdev_serial x));
    ("asset_tag", As_text (memdev_asset_tag x));
    ("part_number", As_text (memdev_part_number x));
    ("attributes", As_number (memdev_attributes x));
    ("extended_size", As_number (memdev_extended_size x));
    ("configured_memory_speed", As_option (option_map As_number (memdev_configured_memory_speed x)));
    ("minimum_voltage", As_option (option_map As_number (memdev_minimum_voltage x)));
    ("maximum_voltage", As_option (option_map As_number (memdev_maximum_voltage x)));
    ("configured_voltage", As_option (option_map As_number (memdev_configured_voltage x)));
    ("memory_technology", As_option (option_map (fun v => As_enum (MemoryTechnology_tree v)) (memdev_memory_technology x)));
    ("operating_mode_capability", As_option (option_map (As_flags "OperatingModes" operating_modes) (memdev_operating_mode_capability x)));
    ("firmware_version", As_option (option_map As_text (memdev_firmware_version x)));
    ("module_manufacturer", As_option (option_map As_number (memdev_module_manufacturer x)));
    ("module_product_id", As_option (option_map As_number (memdev_module_product_id x)));
    ("memory_subsystem_controller_manufacturer_id", As_option (option_map As_number (memdev_memory_subsystem_controller_manufacturer_id x)));
    ("memory_subsystem_controller_product_id", As_option (option_map As_number (memdev_memory_subsystem_controller_product_id x)));
    ("non_volatile_size", As_option (option_map As_number (memdev_non_volatile_size x)));
    ("volatile_size", As_option (option_map As_number (memdev_volatile_size x)));
    ("cache_size", As_option (option_map As_number (memdev_cache_size x)));
    ("logical_size", As_option (option_map As_number (memdev_logical_size x)));
    ("extended_speed", As_option (option_map As_number (memdev_extended_speed x)));
    ("extended_configured_memory_speed", As_option (option_map As_number (memdev_extended_configured_memory_speed x)))].
Definition MemoryError32_contents (x : MemoryError32) : shown_as :=
  As_struct "MemoryError32" [
    ("handle", As_number (me_handle x));
    ("error_type", As_enum (MEErrorType_tree (me_error_type x)));
    ("error_granularity", As_enum (MEErrorGranularity_tree (me_error_granularity x)));
    ("error_operation", As_enum (MEErrorOperation_tree (me_error_operation x)));
    ("vendor_syndrome", As_number (me_vendor_syndrome x));
    ("memory_array_error_address", As_number (me_memory_array_error_address x));
    ("device_error_address", As_number (me_device_error_address x));
    ("error_resolution", As_number (me_error_resolution x))].
Definition MemoryArrayMappedAddress_contents (x : MemoryArrayMappedAddress) : shown_as :=
  As_struct "MemoryArrayMappedAddress" [
    ("handle", As_number (ama_handle x));
    ("starting_address", As_number (ama_starting_address x));
    ("ending_address", As_number (ama_ending_address x));
    ("memory_array_handle", As_number (ama_memory_array_handle x));
    ("partition_width", As_number (ama_partition_width x));
    ("extended_starting_address", As_option (option_map As_number (ama_extended_starting_address x)));
    ("extended_ending_address", As_option (option_map As_number (ama_extended_ending_address x)))].
Definition MemoryDeviceMappedAddress_contents (x : MemoryDeviceMappedAddress) : shown_as :=
  As_struct "MemoryDeviceMappedAddress" [
    ("handle", As_number (dma_handle x));
    ("starting_address", As_number (dma_starting_address x));
    ("ending_address", As_number (dma_ending_address x));
    ("memory_device_handle", As_number (dma_memory_device_handle x));
    ("memory_array_mapped_address_handle", As_number (dma_memory_array_mapped_address_handle x));
    ("partition_row_position", As_number (dma_partition_row_position x));
    ("interleave_position", As_number (dma_interleave_position x));
    ("interleaved_data_depth", As_number (dma_interleaved_data_depth x));
    ("extended_starting_address", As_option (option_map As_number (dma_extended_starting_address x)));
    ("extended_ending_address", As_option (option_map As_number (dma_extended_ending_address x)))].
Definition BuiltInPointingDevice_contents (x : BuiltInPointingDevice) : shown_as :=
  As_struct "BuiltInPointingDevice" [
    ("handle", As_number (pd_handle x));
    ("type_", As_enum (PointingDeviceType_tree (pd_type x)));
    ("interface", As_enum (PointingDeviceInterface_tree (pd_interface x)));
    ("number_of_buttons", As_number (pd_number_of_buttons x))].
Definition PortableBattery_contents (x : PortableBattery) : shown_as :=
  As_struct "PortableBattery" [
    ("handle", As_number (battery_handle x));
    ("location", As_text (battery_location x));
    ("manufacturer", As_text (battery_manufacturer x));
    ("manufacture_date", ManufactureDate_contents (battery_manufacture_date x));
    ("serial_number", SerialNumber_contents (battery_serial_number x));
    ("device_name", As_text (battery_device_name x));
    ("device_chemistry", DeviceChemistry_contents (battery_device_chemistry x));
    ("design_capacity", DesignCapacity_contents (battery_design_capacity x));
    ("design_voltage", As_number (battery_design_voltage x));
    ("sbds_version_number", As_text (battery_sbds_version_number x));
    ("maximum_error_in_battery_data", As_number (battery_maximum_error_in_battery_data x));
    ("oem_specific", As_option (option_map As_number (battery_oem_specific x)))].
Definition Structures_contents (x : Structures) : shown_as :=
  As_struct "Structures" [
    ("smbios_version", SmbiosVersion_contents (smbios_version x));
    ("smbios_len", As_number (smbios_len_ x));
    ("idx", As_number (idx x));
    ("buffer", As_bytes (buffer x))].
Definition EntryPointV2_contents (x : EntryPointV2) : shown_as :=
  As_struct "EntryPointV2" [
    ("signature", As_number (v2_signature x));
    ("checksum", As_number (v2_checksum x));
    ("len", As_number (v2_len x));
    ("major", As_number (v2_major x));
    ("minor", As_number (v2_minor x));
    ("struct_max", As_number (v2_struct_max x));
    ("revision", As_number (v2_revision x));
    ("formatted", As_bytes (v2_formatted x));
    ("dmi_signature", As_bytes (v2_dmi_signature x));
    ("dmi_checksum", As_number (v2_dmi_checksum x));
    ("smbios_len", As_number (v2_smbios_len x));
    ("smbios_address", As_number (v2_smbios_address x));
    ("smbios_count", As_number (v2_smbios_count x));
    ("bcd_revision", As_number (v2_bcd_revision x))].
Definition EntryPointV3_contents (x : EntryPointV3) : shown_as :=
  As_struct "EntryPointV3" [
    ("signature", As_bytes (v3_signature x));
    ("checksum", As_number (v3_checksum x));
    ("len", As_number (v3_len x));
    ("major", As_number (v3_major x));
    ("minor", As_number (v3_minor x));
    ("docrev", As_number (v3_docrev x));
    ("revision", As_number (v3_revision x));
    ("_reserved", As_number (v3_reserved x));
    ("smbios_len_max", As_number (v3_smbios_len_max x));
    ("smbios_address", As_number (v3_smbios_address x))].
Definition Structure_contents (c : cfg) (x : Structure) : shown_as :=
  match x with
  | SBios s => As_tuple "Bios" [Bios_contents s]
  | SSystem s => As_tuple "System" [System_contents s]
  | SBaseBoard s => As_tuple "BaseBoard" [BaseBoard_contents s]
  | SEnclosure s => As_tuple "Enclosure" [Enclosure_contents c s]
  | SProcessor s => As_tuple "Processor" [Processor_contents s]
  | SCache s => As_tuple "Cache" [Cache_contents s]
  | SPortConnector s => As_tuple "PortConnector" [PortConnector_contents s]
  | SSystemSlots s => As_tuple "SystemSlots" [SystemSlots_contents s]
  | SOemStrings s => As_tuple "OemStrings" [OemStrings_contents s]
  | SSystemConfigurationOptions s => As_tuple "SystemConfigurationOptions" [SystemConfigurationOptions_contents s]
  | SBiosLanguage s => As_tuple "BiosLanguage" [BiosLanguage_contents s]
  | SGroupAssociations s => As_tuple "GroupAssociations" [GroupAssociations_contents s]
  | SSystemEventLog s => As_tuple "SystemEventLog" [SystemEventLog_contents s]
  | SMemoryDevice s => As_tuple "MemoryDevice" [MemoryDevice_contents s]
  | SMemoryError32 s => As_tuple "MemoryError32" [MemoryError32_contents s]
  | SMemoryArrayMappedAddress s => As_tuple "MemoryArrayMappedAddress" [MemoryArrayMappedAddress_contents s]
  | SMemoryDeviceMappedAddress s => As_tuple "MemoryDeviceMappedAddress" [MemoryDeviceMappedAddress_contents s]
  | SBuiltInPointingDevice s => As_tuple "BuiltInPointingDevice" [BuiltInPointingDevice_contents s]
  | SPortableBattery s => As_tuple "PortableBattery" [PortableBattery_contents s]
  | SPhysicalMemoryArray s => As_tuple "PhysicalMemoryArray" [PhysicalMemoryArray_contents s]
  | SOther s => As_tuple "Other" [RawStructure_contents s]
  end.
Definition EntryPoint_contents (x : EntryPoint) : shown_as :=
  match x with
  | V2 p => As_tuple "V2" [EntryPointV2_contents p]
  | V3 p => As_tuple "V3" [EntryPointV3_contents p]
  end.

(* a UUID has 16 bytes *)
Definition uuid_whole (x : Structure) : Prop :=
  match x with SSystem s => match system_uuid s with Some l => length l = 16%nat | None => True end | _ => True end.
