(* Specification for C93: a memory device with nothing to tell. *)
From Verif Require Import Base M_Raw M_Bitfield G_Layouts M_Bios M_Strings M_MemoryDevice M_Default Spec S_Decode.
Local Open Scope N_scope.

(* the device without the set it belongs to *)
Definition without_set (s : MemoryDevice) : MemoryDevice := {|
  memdev_handle := memdev_handle s;
  memdev_physical_memory_handle := memdev_physical_memory_handle s;
  memdev_memory_error_handle := memdev_memory_error_handle s;
  memdev_total_width := memdev_total_width s;
  memdev_data_width := memdev_data_width s;
  memdev_size := memdev_size s;
  memdev_form_factor := memdev_form_factor s;
  memdev_device_set := None;
  memdev_device_locator := memdev_device_locator s;
  memdev_bank_locator := memdev_bank_locator s;
  memdev_memory_type := memdev_memory_type s;
  memdev_type_detail := memdev_type_detail s;
  memdev_speed := memdev_speed s;
  memdev_manufacturer := memdev_manufacturer s;
  memdev_serial := memdev_serial s;
  memdev_asset_tag := memdev_asset_tag s;
  memdev_part_number := memdev_part_number s;
  memdev_attributes := memdev_attributes s;
  memdev_extended_size := memdev_extended_size s;
  memdev_configured_memory_speed := memdev_configured_memory_speed s;
  memdev_minimum_voltage := memdev_minimum_voltage s;
  memdev_maximum_voltage := memdev_maximum_voltage s;
  memdev_configured_voltage := memdev_configured_voltage s;
  memdev_memory_technology := memdev_memory_technology s;
  memdev_operating_mode_capability := memdev_operating_mode_capability s;
  memdev_firmware_version := memdev_firmware_version s;
  memdev_module_manufacturer := memdev_module_manufacturer s;
  memdev_module_product_id := memdev_module_product_id s;
  memdev_memory_subsystem_controller_manufacturer_id := memdev_memory_subsystem_controller_manufacturer_id s;
  memdev_memory_subsystem_controller_product_id := memdev_memory_subsystem_controller_product_id s;
  memdev_non_volatile_size := memdev_non_volatile_size s;
  memdev_volatile_size := memdev_volatile_size s;
  memdev_cache_size := memdev_cache_size s;
  memdev_logical_size := memdev_logical_size s;
  memdev_extended_speed := memdev_extended_speed s;
  memdev_extended_configured_memory_speed := memdev_extended_configured_memory_speed s
|}.

(* Everything says unknown, none or zero (the form factor 1, see C93_form_factor_refuted),
   and the formatted area ends before the fields of version 3.2. *)
Record nothing_told (r : RawStructure) : Prop := {
  _ : 0x20 <= 4 + len (data r) <= 0x28;
  _ : handle r = 0;
  _ : field_is r 0x04 2 0;
  _ : field_is r 0x06 2 0xFFFE;
  _ : field_is r 0x08 2 0xFFFF;
  _ : field_is r 0x0A 2 0xFFFF;
  _ : field_is r 0x0C 2 0xFFFF;
  _ : field_is r 0x0E 1 1;
  _ : text_field r 0x10 [];
  _ : text_field r 0x11 [];
  _ : field_is r 0x12 1 2;
  _ : exists w, field_is r 0x13 2 w /\ forall i, 1 <= i <= 15 -> (N.testbit w i = true <-> i = 2);
  _ : field_is r 0x15 2 0;
  _ : text_field r 0x17 [];
  _ : text_field r 0x18 [];
  _ : text_field r 0x19 [];
  _ : text_field r 0x1A [];
  _ : field_is r 0x1B 1 0;
  _ : field_is r 0x1C 4 0;
  _ : forall offset, In offset [0x20; 0x22; 0x24; 0x26] -> reaches r offset 2 -> field_is r offset 2 0
}.

(* the flag words that have a default, with their width in bytes *)
Definition default_flags : list (N * N * Layout) := [
  (8, Characteristics_default, Characteristics_layout);
  (1, CharacteristicsExtension1_default, CharacteristicsExtension1_layout);
  (1, CharacteristicsExtension2_default, CharacteristicsExtension2_layout);
  (1, LanguageFlags_default, LanguageFlags_layout)].
