(* Specification for C85: what the developer texts of values show. *)
From Coq Require Import String Ascii.
From Verif Require Import Base G_Enums M_Raw M_Enclosure M_SystemSlots M_SystemEventLog M_Iter M_Display M_Eq M_Show Spec S_Text.
Local Open Scope string_scope.
Local Open Scope N_scope.

(* ------------------------------------------- values that Rust's types can hold *)

Definition width_bits (w : word) : N := match w with U8 => 8 | U16 => 16 | U32 => 32 | U64 => 64 | Usize => 64 end.

(* a number is in the range of its type, a text is UTF-8, a slice consists of bytes *)
Definition fits_type (p : part) : Prop :=
  match p with
  | Num w n => n < 2 ^ width_bits w
  | Str t => utf8 t
  | Slice l => all_bytes l
  | Tag _ => True
  | Peers x => all_bytes (peer_chunks x)
  | Descriptors x => all_bytes (descriptors_data x) /\ descriptors_size x < 2 ^ 64
  | Elements x => all_bytes (ce_chunks x) /\ ce_count x < 256 /\ ce_record_length x < 256
  end.
(* all fields do *)
Definition well_typed {A} (parts : A -> list part) (x : A) : Prop := Forall fits_type (parts x).

(* ------------------------------------------------------------------ the texts *)

(* a character that can stand in a line of text: a visible one of ASCII or a blank, or one
   from 80h on that is printable according to the tables and does not attach itself to the
   character before it *)
Definition visible (u : characters) (c : N) : Prop :=
  32 <= c <= 126 \/ (128 <= c /\ scalar c /\ printable u c = true /\ extending u c = false).
(* one line of visible characters *)
Definition one_line (u : characters) (s : string) : Prop :=
  exists cs, Forall (visible u) cs /\ s = show_text (flat_map utf8_encode cs).
(* several of them *)
Fixpoint several_lines (l : list string) : string :=
  match l with
  | [] => ""
  | [s] => s
  | s :: l => s ++ String (ascii_of_N 10) (several_lines l)
  end.

(* hexadecimal, with small letters *)
Definition lower_case (s : string) : Prop := Forall (fun a => ~ 65 <= N_of_ascii a <= 90) (list_ascii_of_string s).
Definition hex_numeral (s : string) (n : N) : Prop := numeral 16 s n /\ lower_case s.

(* how a character of a text is spelled between quotes: as it is if it is visible, but
   with a backslash in front if it is a quote or a backslash itself; four control characters
   by a letter, anything else by its number *)
Definition by_letter : list (N * string) :=
  [(0, "\0"); (9, "\t"); (10, "\n"); (13, "\r"); (34, "\"""); (92, "\\")].
Inductive spelled (u : characters) : N -> string -> Prop :=
| spelled_as_it_is c : visible u c -> c <> 34 -> c <> 92 -> spelled u c (show_text (utf8_encode c))
| spelled_by_letter c s : In (c, s) by_letter -> spelled u c s
| spelled_by_number c s : ~ visible u c -> ~ In c (map fst by_letter) -> hex_numeral s c -> spelled u c ("\u{" ++ s ++ "}").
(* the text in quotes *)
Definition literal (u : characters) (t : text) (s : string) : Prop :=
  exists cs ss, Forall scalar cs /\ t = flat_map utf8_encode cs /\ Forall2 (spelled u) cs ss /\
    s = """" ++ fold_right append "" ss ++ """".

(* [texts] with commas between them *)
Fixpoint listed (texts : list string) : string :=
  match texts with
  | [] => ""
  | [s] => s
  | s :: l => s ++ ", " ++ listed l
  end.

(* the names that the documentation gives to a kind of structures: the case of `Structure`,
   the type inside and its fields *)
Definition titles (x : Structure) : string * string * list string :=
  match x with
  | SBios _ => ("Bios", "Bios", ["handle"; "vendor"; "bios_version"; "bios_starting_address_segment"; "bios_release_date";
      "rom_size"; "bios_characteristics"; "bios_characteristics_exttension_1"; "bios_characteristics_exttension_2";
      "bios_revision"; "firmware_revision"])
  | SSystem _ => ("System", "System", ["handle"; "manufacturer"; "product"; "version"; "serial"; "uuid"; "wakeup"; "sku"; "family"])
  | SBaseBoard _ => ("BaseBoard", "BaseBoard", ["handle"; "manufacturer"; "product"; "version"; "serial"; "asset"; "feature_flags";
      "location_in_chassis"; "chassis_handle"; "board_type"])
  | SEnclosure _ => ("Enclosure", "Enclosure", ["handle"; "manufacturer"; "chassis_lock"; "enclosure_type"; "version"; "serial_number";
      "asset_tag_number"; "boot_up_state"; "power_supply_state"; "thermal_state"; "security_status"; "oem_defined"; "height";
      "power_cords_number"; "contained_elements"; "sku_number"])
  | SProcessor _ => ("Processor", "Processor", ["handle"; "socket_designation"; "processor_type"; "processor_family";
      "processor_manufacturer"; "processor_id"; "processor_version"; "voltage"; "external_clock"; "max_speed"; "current_speed";
      "status"; "processor_upgrade"; "l1_cache_handle"; "l2_cache_handle"; "l3_cache_handle"; "serial_number"; "asset_tag";
      "part_number"; "core_count"; "core_enabled"; "thread_count"; "processor_characteristics"])
  | SCache _ => ("Cache", "Cache", ["handle"; "socket_designation"; "cache_configuration"; "maximum_cache_size"; "installed_size";
      "supported_sram_type"; "current_sram_type"; "cache_speed"; "error_correction_type"; "system_cache_type"; "associativity";
      "maximum_cache_size_2"; "installed_size_2"])
  | SPortConnector _ => ("PortConnector", "PortConnector", ["handle"; "internal_reference_designator"; "internal_connector_type";
      "external_reference_designator"; "external_connector_type"; "port_type"])
  | SSystemSlots _ => ("SystemSlots", "SystemSlots", ["handle"; "slot_designation"; "slot_type"; "slot_data_bus_width"; "current_usage";
      "slot_length"; "slot_id"; "slot_characteristics_1"; "slot_characteristics_2"; "segment_group_number"; "bus_number";
      "device_and_function_number"; "data_bus_width"; "peer_devices"; "slot_information"; "slot_physical_width"; "slot_pitch"])
  | SOemStrings _ => ("OemStrings", "OemStrings", ["handle"; "strings"])
  | SSystemConfigurationOptions _ => ("SystemConfigurationOptions", "SystemConfigurationOptions", ["handle"; "strings"])
  | SBiosLanguage _ => ("BiosLanguage", "BiosLanguage", ["handle"; "installable_languages"; "flags"; "current_language"])
  | SGroupAssociations _ => ("GroupAssociations", "GroupAssociations", ["handle"; "group_name"; "items"])
  | SSystemEventLog _ => ("SystemEventLog", "SystemEventLog", ["handle"; "log_area_length"; "log_header_start_offset";
      "log_data_start_offset"; "access_method"; "log_status"; "log_change_token"; "log_header_format";
      "supported_event_log_type_descriptors"])
  | SMemoryDevice _ => ("MemoryDevice", "MemoryDevice", ["handle"; "physical_memory_handle"; "memory_error_handle"; "total_width";
      "data_width"; "size"; "form_factor"; "device_set"; "device_locator"; "bank_locator"; "memory_type"; "type_detail"; "speed";
      "manufacturer"; "serial"; "asset_tag"; "part_number"; "attributes"; "extended_size"; "configured_memory_speed";
      "minimum_voltage"; "maximum_voltage"; "configured_voltage"; "memory_technology"; "operating_mode_capability";
      "firmware_version"; "module_manufacturer"; "module_product_id"; "memory_subsystem_controller_manufacturer_id";
      "memory_subsystem_controller_product_id"; "non_volatile_size"; "volatile_size"; "cache_size"; "logical_size";
      "extended_speed"; "extended_configured_memory_speed"])
  | SMemoryError32 _ => ("MemoryError32", "MemoryError32", ["handle"; "error_type"; "error_granularity"; "error_operation";
      "vendor_syndrome"; "memory_array_error_address"; "device_error_address"; "error_resolution"])
  | SMemoryArrayMappedAddress _ => ("MemoryArrayMappedAddress", "MemoryArrayMappedAddress", ["handle"; "starting_address";
      "ending_address"; "memory_array_handle"; "partition_width"; "extended_starting_address"; "extended_ending_address"])
  | SMemoryDeviceMappedAddress _ => ("MemoryDeviceMappedAddress", "MemoryDeviceMappedAddress", ["handle"; "starting_address";
      "ending_address"; "memory_device_handle"; "memory_array_mapped_address_handle"; "partition_row_position";
      "interleave_position"; "interleaved_data_depth"; "extended_starting_address"; "extended_ending_address"])
  | SBuiltInPointingDevice _ => ("BuiltInPointingDevice", "BuiltInPointingDevice", ["handle"; "type_"; "interface";
      "number_of_buttons"])
  | SPortableBattery _ => ("PortableBattery", "PortableBattery", ["handle"; "location"; "manufacturer"; "manufacture_date";
      "serial_number"; "device_name"; "device_chemistry"; "design_capacity"; "design_voltage"; "sbds_version_number";
      "maximum_error_in_battery_data"; "oem_specific"])
  | SPhysicalMemoryArray _ => ("PhysicalMemoryArray", "PhysicalMemoryArray", ["handle"; "location"; "use"; "memory_error_correction";
      "maximum_capacity"; "memory_error_information_handle"; "number_of_memory_devices"; "extended_maximum_capacity"])
  | SOther _ => ("Other", "RawStructure", ["version"; "info"; "length"; "handle"; "data"; "strings"])
  end.

(* `Case(Type { field: value, field: value })` *)
Definition shaped (x : Structure) (values : list string) (s : string) : Prop :=
  match titles x with
  | (case, type, fields) =>
    length values = length fields /\
    s = case ++ "(" ++ type ++ " { " ++ listed (map (fun p => fst p ++ ": " ++ snd p) (combine fields values)) ++ " })"
  end.
(* the same with a line for each field, which the value can break up into more of them *)
Definition shaped_lines (x : Structure) (values : list string) (s : string) : Prop :=
  match titles x with
  | (case, type, fields) =>
    length values = length fields /\
    s = several_lines (app [case ++ "("; "    " ++ type ++ " {"]
          (app (map (fun p => "        " ++ fst p ++ ": " ++ snd p ++ ",") (combine fields values)) ["    },"; ")"]))
  end.
