(* Specification for C103: which bytes of a structure the fields of its decoded value come from. *)
From Coq Require Import String.
From Verif Require Import Base G_Enums M_Raw M_Iter Spec S_ShowFields.
Local Open Scope string_scope.
Local Open Scope N_scope.

(* the same structure with other bytes behind its header *)
Definition with_data (d : list N) (r : RawStructure) : RawStructure := {|
  version := version r; info := info r; length_ := length_ r; handle := handle r;
  data := d; strings := strings r; after := after r |}.

(* Offsets count from the start of the header, as in the SMBIOS specification, so that the
   bytes behind the header start at offset 4.  [differ_at]: as many bytes, and they differ
   at some of the offsets in D only *)
Definition differ_at (D : N -> Prop) (d d' : list N) : Prop :=
  length d = length d' /\
  forall k, ~ D (4 + N.of_nat k) -> nth_error d k = nth_error d' k.

Inductive place :=
| Bytes (from count : N)   (* that many bytes from that offset *)
| From (from : N).         (* all bytes from that offset to the end of the structure *)
Definition in_place (k : N) (p : place) : Prop :=
  match p with
  | Bytes from count => from <= k /\ k < from + count
  | From from => from <= k
  end.
(* nothing differs there *)
Definition untouched (D : N -> Prop) (ps : list place) : Prop :=
  forall p k, In p ps -> in_place k p -> ~ D k.

(* the fields of a decoded value, by name *)
Definition fields_of (c : cfg) (x : Structure) (fields : list (string * shown_as)) : Prop :=
  exists case type, Structure_contents c x = As_tuple case [As_struct type fields].
Definition field_of (c : cfg) (x : Structure) (name : string) (v : shown_as) : Prop :=
  exists fields, fields_of c x fields /\ In (name, v) fields.

(* from SMBIOS 2.1 on *)
Definition since_2_1 (v : SmbiosVersion) : bool := (2 <? major v) || ((major v =? 2) && (1 <=? minor v)).

(* where each field of each type of structures comes from.  A text comes from the byte with
   its number, besides the strings behind the structure. *)
Definition places (v : SmbiosVersion) (i : InfoType) : list (string * list place) :=
  match i with
  | InfoType_Bios => [
      ("handle", []); ("vendor", [Bytes 0x04 1]); ("bios_version", [Bytes 0x05 1]);
      ("bios_starting_address_segment", [Bytes 0x06 2]); ("bios_release_date", [Bytes 0x08 1]);
      ("rom_size", [Bytes 0x09 1; Bytes 0x18 2]); ("bios_characteristics", [Bytes 0x0A 8]);
      ("bios_characteristics_exttension_1", [Bytes 0x12 1]); ("bios_characteristics_exttension_2", [Bytes 0x13 1]);
      ("bios_revision", [Bytes 0x14 2]); ("firmware_revision", [Bytes 0x16 2])]
  | InfoType_System => [
      ("handle", []); ("manufacturer", [Bytes 0x04 1]); ("product", [Bytes 0x05 1]); ("version", [Bytes 0x06 1]);
      ("serial", [Bytes 0x07 1]); ("uuid", [Bytes 0x08 16]); ("wakeup", [Bytes 0x18 1]); ("sku", [Bytes 0x19 1]);
      ("family", [Bytes 0x1A 1])]
  | InfoType_BaseBoard => [
      ("handle", []); ("manufacturer", [Bytes 0x04 1]); ("product", [Bytes 0x05 1]); ("version", [Bytes 0x06 1]);
      ("serial", [Bytes 0x07 1]); ("asset", [Bytes 0x08 1]); ("feature_flags", [Bytes 0x09 1]);
      ("location_in_chassis", [Bytes 0x0A 1]); ("chassis_handle", [Bytes 0x0B 2]); ("board_type", [Bytes 0x0D 1])]
  | InfoType_Enclosure => [
      ("handle", []); ("manufacturer", [Bytes 0x04 1]); ("chassis_lock", [Bytes 0x05 1]); ("enclosure_type", [Bytes 0x05 1]);
      ("version", [Bytes 0x06 1]); ("serial_number", [Bytes 0x07 1]); ("asset_tag_number", [Bytes 0x08 1]);
      ("boot_up_state", [Bytes 0x09 1]); ("power_supply_state", [Bytes 0x0A 1]); ("thermal_state", [Bytes 0x0B 1]);
      ("security_status", [Bytes 0x0C 1]); ("oem_defined", [Bytes 0x0D 4]); ("height", [Bytes 0x11 1]);
      ("power_cords_number", [Bytes 0x12 1]); ("contained_elements", [From 0x13]); ("sku_number", [From 0x13])]
  | InfoType_Processor => [
      ("handle", []); ("socket_designation", [Bytes 0x04 1]); ("processor_type", [Bytes 0x05 1]);
      ("processor_family", [Bytes 0x06 1; Bytes 0x28 2]); ("processor_manufacturer", [Bytes 0x07 1]);
      ("processor_id", [Bytes 0x08 8]); ("processor_version", [Bytes 0x10 1]); ("voltage", [Bytes 0x11 1]);
      ("external_clock", [Bytes 0x12 2]); ("max_speed", [Bytes 0x14 2]); ("current_speed", [Bytes 0x16 2]);
      ("status", [Bytes 0x18 1]); ("processor_upgrade", [Bytes 0x19 1]); ("l1_cache_handle", [Bytes 0x1A 2]);
      ("l2_cache_handle", [Bytes 0x1C 2]); ("l3_cache_handle", [Bytes 0x1E 2]); ("serial_number", [Bytes 0x20 1]);
      ("asset_tag", [Bytes 0x21 1]); ("part_number", [Bytes 0x22 1]); ("core_count", [Bytes 0x23 1; Bytes 0x2A 2]);
      ("core_enabled", [Bytes 0x24 1; Bytes 0x2C 2]); ("thread_count", [Bytes 0x25 1; Bytes 0x2E 2]);
      ("processor_characteristics", [Bytes 0x26 2])]
  | InfoType_Cache => [
      ("handle", []); ("socket_designation", [Bytes 0x04 1]); ("cache_configuration", [Bytes 0x05 2]);
      ("maximum_cache_size", [Bytes 0x07 2]); ("installed_size", [Bytes 0x09 2]);
      (* all bits with a meaning are in the first of the two bytes *)
      ("supported_sram_type", [Bytes 0x0B 1]); ("current_sram_type", [Bytes 0x0D 1]); ("cache_speed", [Bytes 0x0F 1]); ("error_correction_type", [Bytes 0x10 1]);
      ("system_cache_type", [Bytes 0x11 1]); ("associativity", [Bytes 0x12 1]); ("maximum_cache_size_2", [Bytes 0x13 4]);
      ("installed_size_2", [Bytes 0x17 4])]
  | InfoType_PortConnector => [
      ("handle", []); ("internal_reference_designator", [Bytes 0x04 1]); ("internal_connector_type", [Bytes 0x05 1]);
      ("external_reference_designator", [Bytes 0x06 1]); ("external_connector_type", [Bytes 0x07 1]);
      ("port_type", [Bytes 0x08 1])]
  | InfoType_SystemSlots => [
      ("handle", []); ("slot_designation", [Bytes 0x04 1]); ("slot_type", [Bytes 0x05 1]); ("slot_data_bus_width", [Bytes 0x06 1]);
      ("current_usage", [Bytes 0x07 1]); ("slot_length", [Bytes 0x08 1]); ("slot_id", [Bytes 0x09 2]);
      ("slot_characteristics_1", [Bytes 0x0B 1]); ("slot_characteristics_2", [Bytes 0x0C 1]);
      ("segment_group_number", [Bytes 0x0D 2]); ("bus_number", [Bytes 0x0F 1]); ("device_and_function_number", [Bytes 0x10 1]);
      ("data_bus_width", [Bytes 0x11 1]); ("peer_devices", [Bytes 0x12 1; From 0x13]);
      (* these lie behind the peer groups, whose number is the byte at 12h *)
      ("slot_information", [Bytes 0x12 1; From 0x14]); ("slot_physical_width", [Bytes 0x12 1; From 0x15]);
      ("slot_pitch", [Bytes 0x12 1; From 0x16])]
  (* only the strings behind the structure *)
  | InfoType_OemStrings => [("handle", []); ("strings", [])]
  | InfoType_SystemConfigurationOptions => [("handle", []); ("strings", [])]
  | InfoType_BiosLanguage => [
      ("handle", []);
      (* the iterator keeps the whole structure, although it uses the strings only *)
      ("installable_languages", [From 0x04]); ("flags", [Bytes 0x05 1]);
      ("current_language", [Bytes (if since_2_1 v then 0x15 else 0x14) 1])]
  | InfoType_GroupAssociations => [("handle", []); ("group_name", [Bytes 0x04 1]); ("items", [From 0x05])]
  | InfoType_SystemEventLog => [
      ("handle", []); ("log_area_length", [Bytes 0x04 2]); ("log_header_start_offset", [Bytes 0x06 2]);
      ("log_data_start_offset", [Bytes 0x08 2]); ("access_method", [Bytes 0x0A 1; Bytes 0x10 4]); ("log_status", [Bytes 0x0B 1]);
      ("log_change_token", [Bytes 0x0C 4]); ("log_header_format", [Bytes 0x14 1]);
      ("supported_event_log_type_descriptors", [From 0x15])]
  | InfoType_PhysicalMemoryArray => [
      ("handle", []); ("location", [Bytes 0x04 1]); ("use", [Bytes 0x05 1]); ("memory_error_correction", [Bytes 0x06 1]);
      ("maximum_capacity", [Bytes 0x07 4]); ("memory_error_information_handle", [Bytes 0x0B 2]);
      ("number_of_memory_devices", [Bytes 0x0D 2]); ("extended_maximum_capacity", [Bytes 0x07 4; Bytes 0x0F 8])]
  | InfoType_MemoryDevice => [
      ("handle", []); ("physical_memory_handle", [Bytes 0x04 2]); ("memory_error_handle", [Bytes 0x06 2]);
      ("total_width", [Bytes 0x08 2]); ("data_width", [Bytes 0x0A 2]); ("size", [Bytes 0x0C 2]); ("form_factor", [Bytes 0x0E 1]);
      ("device_set", [Bytes 0x0F 1]); ("device_locator", [Bytes 0x10 1]); ("bank_locator", [Bytes 0x11 1]);
      ("memory_type", [Bytes 0x12 1]); ("type_detail", [Bytes 0x13 2]); ("speed", [Bytes 0x15 2]); ("manufacturer", [Bytes 0x17 1]);
      ("serial", [Bytes 0x18 1]); ("asset_tag", [Bytes 0x19 1]); ("part_number", [Bytes 0x1A 1]); ("attributes", [Bytes 0x1B 1]);
      ("extended_size", [Bytes 0x1C 4]); ("configured_memory_speed", [Bytes 0x20 2]); ("minimum_voltage", [Bytes 0x22 2]);
      ("maximum_voltage", [Bytes 0x24 2]); ("configured_voltage", [Bytes 0x26 2]); ("memory_technology", [Bytes 0x28 1]);
      (* all bits with a meaning are in the first of the two bytes *)
      ("operating_mode_capability", [Bytes 0x29 1]); ("firmware_version", [Bytes 0x2B 1]); ("module_manufacturer", [Bytes 0x2C 2]);
      ("module_product_id", [Bytes 0x2E 2]); ("memory_subsystem_controller_manufacturer_id", [Bytes 0x30 2]);
      ("memory_subsystem_controller_product_id", [Bytes 0x32 2]); ("non_volatile_size", [Bytes 0x34 8]);
      ("volatile_size", [Bytes 0x3C 8]); ("cache_size", [Bytes 0x44 8]); ("logical_size", [Bytes 0x4C 8]);
      ("extended_speed", [Bytes 0x54 4]); ("extended_configured_memory_speed", [Bytes 0x58 4])]
  | InfoType_MemoryError32 => [
      ("handle", []); ("error_type", [Bytes 0x04 1]); ("error_granularity", [Bytes 0x05 1]); ("error_operation", [Bytes 0x06 1]);
      ("vendor_syndrome", [Bytes 0x07 4]); ("memory_array_error_address", [Bytes 0x0B 4]);
      ("device_error_address", [Bytes 0x0F 4]); ("error_resolution", [Bytes 0x13 4])]
  | InfoType_MemoryArrayMappedAddress => [
      ("handle", []); ("starting_address", [Bytes 0x04 4]); ("ending_address", [Bytes 0x08 4]);
      ("memory_array_handle", [Bytes 0x0C 2]); ("partition_width", [Bytes 0x0E 1]);
      ("extended_starting_address", [Bytes 0x0F 8]); ("extended_ending_address", [Bytes 0x17 8])]
  | InfoType_MemoryDeviceMappedAddress => [
      ("handle", []); ("starting_address", [Bytes 0x04 4]); ("ending_address", [Bytes 0x08 4]);
      ("memory_device_handle", [Bytes 0x0C 2]); ("memory_array_mapped_address_handle", [Bytes 0x0E 2]);
      ("partition_row_position", [Bytes 0x10 1]); ("interleave_position", [Bytes 0x11 1]);
      ("interleaved_data_depth", [Bytes 0x12 1]); ("extended_starting_address", [Bytes 0x13 8]);
      ("extended_ending_address", [Bytes 0x1B 8])]
  | InfoType_BuiltInPointingDevice => [
      ("handle", []); ("type_", [Bytes 0x04 1]); ("interface", [Bytes 0x05 1]); ("number_of_buttons", [Bytes 0x06 1])]
  | InfoType_PortableBattery => [
      ("handle", []); ("location", [Bytes 0x04 1]); ("manufacturer", [Bytes 0x05 1]);
      (* each of these comes from a byte of version 2.1 or from bytes of version 2.2 *)
      ("manufacture_date", [Bytes 0x06 1; Bytes 0x12 2]); ("serial_number", [Bytes 0x07 1; Bytes 0x10 2]);
      ("device_name", [Bytes 0x08 1]); ("device_chemistry", [Bytes 0x09 1; Bytes 0x14 1]);
      ("design_capacity", [Bytes 0x0A 2; Bytes 0x15 1]); ("design_voltage", [Bytes 0x0C 2]);
      ("sbds_version_number", [Bytes 0x0E 1]); ("maximum_error_in_battery_data", [Bytes 0x0F 1]);
      ("oem_specific", [Bytes 0x16 4])]
  (* structures that are not decoded *)
  | _ => [("version", []); ("info", []); ("length", []); ("handle", []); ("data", [From 0x04]); ("strings", [])]
  end.
