(* Two structures that differ only in their strings. *)
From Verif Require Import Base G_Enums M_Raw M_Bios M_System M_BaseBoard M_Enclosure
  M_Processor M_Cache M_PortConnector M_SystemSlots M_Strings M_GroupAssociations
  M_SystemEventLog M_PhysicalMemoryArray M_MemoryDevice M_Memory M_PortableBattery M_Iter Spec S_Iter S_Origin.
Local Open Scope N_scope.

(* the same structure with the string area ss, and with aft in memory behind its fields *)
Definition reworded (ss aft : list N) (r : RawStructure) : RawStructure := {|
  version := version r; info := info r; length_ := length_ r; handle := handle r;
  data := data r; strings := ss; after := aft |}.

(* the two have strings with the same numbers (0 is the empty text in both) *)
Definition same_numbers (r r' : RawStructure) : Prop :=
  forall k, (exists t, text_number r k t) <-> (exists t, text_number r' k t).

(* the texts have the same number, each in its own structure *)
Definition same_number (r r' : RawStructure) (t t' : text) : Prop :=
  exists k, text_number r k t /\ text_number r' k t'.

(* ------------------------------------------------ a structure without its texts *)

Definition blank (o : option text) : option text := option_map (fun _ => []) o.
Definition blank_date (d : ManufactureDate) : ManufactureDate := match d with MD_Basic _ => MD_Basic [] | _ => d end.
Definition blank_serial (d : SerialNumber) : SerialNumber := match d with SN_Basic _ => SN_Basic [] | _ => d end.
Definition blank_chemistry (d : DeviceChemistry) : DeviceChemistry :=
  match d with Chem_SmartBatteryDataSpecification _ => Chem_SmartBatteryDataSpecification [] | _ => d end.
Definition blank_strings (s : StructureStrings) : StructureStrings := {| bytes := []; start := start s |}.

(* every text is made empty; which optional texts there are stays *)
Definition blank_texts (x : Structure) : Structure :=
  match x with
  | SBios x => SBios {|
      bios_handle := bios_handle x;
      bios_vendor := [];
      bios_bios_version := [];
      bios_starting_address_segment := bios_starting_address_segment x;
      bios_release_date := [];
      bios_rom_size := bios_rom_size x;
      bios_characteristics := bios_characteristics x;
      bios_characteristics_extension_1 := bios_characteristics_extension_1 x;
      bios_characteristics_extension_2 := bios_characteristics_extension_2 x;
      bios_revision := bios_revision x;
      bios_firmware_revision := bios_firmware_revision x |}
  | SSystem x => SSystem {|
      system_handle := system_handle x;
      system_manufacturer := [];
      system_product := [];
      system_version := [];
      system_serial := [];
      system_uuid := system_uuid x;
      system_wakeup := system_wakeup x;
      system_sku := blank (system_sku x);
      system_family := blank (system_family x) |}
  | SBaseBoard x => SBaseBoard {|
      baseboard_handle := baseboard_handle x;
      baseboard_manufacturer := [];
      baseboard_product := [];
      baseboard_version := [];
      baseboard_serial := [];
      baseboard_asset := blank (baseboard_asset x);
      baseboard_feature_flags := baseboard_feature_flags x;
      baseboard_location_in_chassis := blank (baseboard_location_in_chassis x);
      baseboard_chassis_handle := baseboard_chassis_handle x;
      baseboard_board_type := baseboard_board_type x |}
  | SEnclosure x => SEnclosure {|
      enclosure_handle := enclosure_handle x;
      enclosure_manufacturer := [];
      enclosure_chassis_lock := enclosure_chassis_lock x;
      enclosure_enclosure_type := enclosure_enclosure_type x;
      enclosure_version := [];
      enclosure_serial_number := [];
      enclosure_asset_tag_number := [];
      enclosure_boot_up_state := enclosure_boot_up_state x;
      enclosure_power_supply_state := enclosure_power_supply_state x;
      enclosure_thermal_state := enclosure_thermal_state x;
      enclosure_security_status := enclosure_security_status x;
      enclosure_oem_defined := enclosure_oem_defined x;
      enclosure_height := enclosure_height x;
      enclosure_power_cords_number := enclosure_power_cords_number x;
      enclosure_contained_elements := enclosure_contained_elements x;
      enclosure_sku_number := blank (enclosure_sku_number x) |}
  | SProcessor x => SProcessor {|
      processor_handle := processor_handle x;
      processor_socket_designation := [];
      processor_processor_type := processor_processor_type x;
      processor_processor_family := processor_processor_family x;
      processor_processor_manufacturer := [];
      processor_processor_id := processor_processor_id x;
      processor_processor_version := [];
      processor_voltage := processor_voltage x;
      processor_external_clock := processor_external_clock x;
      processor_max_speed := processor_max_speed x;
      processor_current_speed := processor_current_speed x;
      processor_status := processor_status x;
      processor_processor_upgrade := processor_processor_upgrade x;
      processor_l1_cache_handle := processor_l1_cache_handle x;
      processor_l2_cache_handle := processor_l2_cache_handle x;
      processor_l3_cache_handle := processor_l3_cache_handle x;
      processor_serial_number := blank (processor_serial_number x);
      processor_asset_tag := blank (processor_asset_tag x);
      processor_part_number := blank (processor_part_number x);
      processor_core_count := processor_core_count x;
      processor_core_enabled := processor_core_enabled x;
      processor_thread_count := processor_thread_count x;
      processor_processor_characteristics := processor_processor_characteristics x |}
  | SCache x => SCache {|
      cache_handle := cache_handle x;
      cache_socket_designation := [];
      cache_cache_configuration := cache_cache_configuration x;
      cache_maximum_cache_size := cache_maximum_cache_size x;
      cache_installed_size := cache_installed_size x;
      cache_supported_sram_type := cache_supported_sram_type x;
      cache_current_sram_type := cache_current_sram_type x;
      cache_cache_speed := cache_cache_speed x;
      cache_error_correction_type := cache_error_correction_type x;
      cache_system_cache_type := cache_system_cache_type x;
      cache_associativity := cache_associativity x;
      cache_maximum_cache_size_2 := cache_maximum_cache_size_2 x;
      cache_installed_size_2 := cache_installed_size_2 x |}
  | SPortConnector x => SPortConnector {|
      port_handle := port_handle x;
      port_internal_reference_designator := [];
      port_internal_connector_type := port_internal_connector_type x;
      port_external_reference_designator := [];
      port_external_connector_type := port_external_connector_type x;
      port_port_type := port_port_type x |}
  | SSystemSlots x => SSystemSlots {|
      slots_handle := slots_handle x;
      slots_slot_designation := [];
      slots_slot_type := slots_slot_type x;
      slots_slot_data_bus_width := slots_slot_data_bus_width x;
      slots_current_usage := slots_current_usage x;
      slots_slot_length := slots_slot_length x;
      slots_slot_id := slots_slot_id x;
      slots_slot_characteristics_1 := slots_slot_characteristics_1 x;
      slots_slot_characteristics_2 := slots_slot_characteristics_2 x;
      slots_segment_group_number := slots_segment_group_number x;
      slots_bus_number := slots_bus_number x;
      slots_device_and_function_number := slots_device_and_function_number x;
      slots_data_bus_width := slots_data_bus_width x;
      slots_peer_devices := slots_peer_devices x;
      slots_slot_information := slots_slot_information x;
      slots_slot_physical_width := slots_slot_physical_width x;
      slots_slot_pitch := slots_slot_pitch x |}
  | SGroupAssociations x => SGroupAssociations {|
      group_handle := group_handle x;
      group_group_name := [];
      group_items := group_items x |}
  | SMemoryDevice x => SMemoryDevice {|
      memdev_handle := memdev_handle x;
      memdev_physical_memory_handle := memdev_physical_memory_handle x;
      memdev_memory_error_handle := memdev_memory_error_handle x;
      memdev_total_width := memdev_total_width x;
      memdev_data_width := memdev_data_width x;
      memdev_size := memdev_size x;
      memdev_form_factor := memdev_form_factor x;
      memdev_device_set := memdev_device_set x;
      memdev_device_locator := [];
      memdev_bank_locator := [];
      memdev_memory_type := memdev_memory_type x;
      memdev_type_detail := memdev_type_detail x;
      memdev_speed := memdev_speed x;
      memdev_manufacturer := [];
      memdev_serial := [];
      memdev_asset_tag := [];
      memdev_part_number := [];
      memdev_attributes := memdev_attributes x;
      memdev_extended_size := memdev_extended_size x;
      memdev_configured_memory_speed := memdev_configured_memory_speed x;
      memdev_minimum_voltage := memdev_minimum_voltage x;
      memdev_maximum_voltage := memdev_maximum_voltage x;
      memdev_configured_voltage := memdev_configured_voltage x;
      memdev_memory_technology := memdev_memory_technology x;
      memdev_operating_mode_capability := memdev_operating_mode_capability x;
      memdev_firmware_version := blank (memdev_firmware_version x);
      memdev_module_manufacturer := memdev_module_manufacturer x;
      memdev_module_product_id := memdev_module_product_id x;
      memdev_memory_subsystem_controller_manufacturer_id := memdev_memory_subsystem_controller_manufacturer_id x;
      memdev_memory_subsystem_controller_product_id := memdev_memory_subsystem_controller_product_id x;
      memdev_non_volatile_size := memdev_non_volatile_size x;
      memdev_volatile_size := memdev_volatile_size x;
      memdev_cache_size := memdev_cache_size x;
      memdev_logical_size := memdev_logical_size x;
      memdev_extended_speed := memdev_extended_speed x;
      memdev_extended_configured_memory_speed := memdev_extended_configured_memory_speed x |}
  | SPortableBattery x => SPortableBattery {|
      battery_handle := battery_handle x;
      battery_location := [];
      battery_manufacturer := [];
      battery_manufacture_date := blank_date (battery_manufacture_date x);
      battery_serial_number := blank_serial (battery_serial_number x);
      battery_device_name := [];
      battery_device_chemistry := blank_chemistry (battery_device_chemistry x);
      battery_design_capacity := battery_design_capacity x;
      battery_design_voltage := battery_design_voltage x;
      battery_sbds_version_number := [];
      battery_maximum_error_in_battery_data := battery_maximum_error_in_battery_data x;
      battery_oem_specific := battery_oem_specific x |}
  | SOemStrings x => SOemStrings {| oem_handle := oem_handle x; oem_strings := blank_strings (oem_strings x) |}
  | SSystemConfigurationOptions x => SSystemConfigurationOptions {|
      options_handle := options_handle x; options_strings := blank_strings (options_strings x) |}
  | SBiosLanguage x => SBiosLanguage {|
      language_handle := language_handle x;
      language_installable_languages := {|
        il_structure := reworded [] [] (il_structure (language_installable_languages x));
        il_index := il_index (language_installable_languages x) |};
      language_flags := language_flags x;
      language_current_language := language_current_language x |}
  | SOther x => SOther (reworded [] [] x)
  | _ => x
  end.
Definition without_texts (x : Structure) : Structure := blank_texts (forget x).

(* the same value apart from the texts, and texts with the same numbers field by field *)
Definition translated (r r' : RawStructure) (x y : Structure) : Prop :=
  without_texts x = without_texts y /\ Forall2 (same_number r r') (shown_texts x) (shown_texts y).

(* decoding goes the same way: both succeed with related values, both fail with the
   same error, both panic, or both read outside *)
Definition same_item {A} (R : A -> A -> Prop) (x y : res A) : Prop :=
  match x, y with Ok a, Ok b => R a b | Err e, Err f => e = f | _, _ => False end.
Definition same_course {A} (R : A -> A -> Prop) (m m' : out A) : Prop :=
  match m, m' with Val x, Val y => R x y | Panic, Panic => True | UB, UB => True | _, _ => False end.

(* an encoded structure with other strings *)
Definition translation (s : encodable) (ss : list text) : encodable :=
  {| e_type := e_type s; e_handle := e_handle s; e_body := e_body s; e_strings := ss |}.

(* both texts are empty, or strings at the same place of the two lists *)
Definition same_place (ss ss' : list text) (t t' : text) : Prop :=
  (t = [] /\ t' = []) \/ exists i, nth_error ss i = Some t /\ nth_error ss' i = Some t'.

(* --------------------------------------------------------- appended strings *)

(* the string area ss has every string of the structure under its number, and maybe more *)
Definition more_strings (r : RawStructure) (ss : list N) : Prop :=
  forall k t, string_number (strings r) k t -> string_number ss k t.

(* string numbers whose string is missing are passed over by three decoders: none of
   these is in the structure.  (System configuration options state how many strings
   they have.) *)
Definition no_dangling (r : RawStructure) : Prop :=
  let there o := match field r o 1 with Some k => exists t, text_number r k t | None => True end in
  match info r with
  | InfoType_SystemConfigurationOptions => False
  | InfoType_MemoryDevice => there 0x2B
  | InfoType_PortableBattery => there 0x06 /\ there 0x07 /\ there 0x14
  | _ => True
  end.

(* a structure apart from the lists of strings that are read later *)
Definition without_lists (x : Structure) : Structure :=
  match x with
  | SOemStrings _ | SSystemConfigurationOptions _ | SBiosLanguage _ | SOther _ => without_texts x
  | _ => forget x
  end.
