(* Model of the code that `#[derive(Default)]` writes for the types of
   /repo/src/structures, and of the one `Default` written by hand.  The default memory
   array is in M_PhysicalMemoryArray, those of bitfield.rs are in M_BitfieldEq. *)
From Verif Require Import Base G_Enums M_Raw M_Bitfield M_Bios M_MemoryDevice.
Local Open Scope N_scope.

(* 017_memory_device.rs:101-104, 146-149, 174-177: the variant marked #[default] *)
Definition FormFactor_default : FormFactor := FormFactor_Unknown.
Definition MemoryTechnology_default : MemoryTechnology := MemoryTechnology_Unknown.
Definition MemoryType_default : MemoryType := MemoryType_Unknown.

(* 016_physical_memory_array.rs:11-15, 78-82, 121-125 *)
Definition MemoryArrayLocation_default : MemoryArrayLocation := MemoryArrayLocation_Unknown.
Definition MemoryArrayUse_default : MemoryArrayUse := MemoryArrayUse_Unknown.
Definition MemoryArrayErrorCorrectionTypes_default : MemoryArrayErrorCorrectionTypes := MemoryArrayErrorCorrectionTypes_Unknown.

(* 017_memory_device.rs:279-283 `impl Default for Detail`, written by hand: Detail::UNKNOWN *)
Definition Detail_default : N := 4.

(* 017_memory_device.rs:301 `struct MemoryDevice`: numbers 0, texts empty, options None *)
Definition MemoryDevice_default : MemoryDevice := {|
  memdev_handle := 0;
  memdev_physical_memory_handle := 0;
  memdev_memory_error_handle := None;
  memdev_total_width := None;
  memdev_data_width := None;
  memdev_size := None;
  memdev_form_factor := FormFactor_default;
  memdev_device_set := None;
  memdev_device_locator := [];
  memdev_bank_locator := [];
  memdev_memory_type := MemoryType_default;
  memdev_type_detail := Detail_default;
  memdev_speed := None;
  memdev_manufacturer := [];
  memdev_serial := [];
  memdev_asset_tag := [];
  memdev_part_number := [];
  memdev_attributes := 0;
  memdev_extended_size := 0;
  memdev_configured_memory_speed := None;
  memdev_minimum_voltage := None;
  memdev_maximum_voltage := None;
  memdev_configured_voltage := None;
  memdev_memory_technology := None;
  memdev_operating_mode_capability := None;
  memdev_firmware_version := None;
  memdev_module_manufacturer := None;
  memdev_module_product_id := None;
  memdev_memory_subsystem_controller_manufacturer_id := None;
  memdev_memory_subsystem_controller_product_id := None;
  memdev_non_volatile_size := None;
  memdev_volatile_size := None;
  memdev_cache_size := None;
  memdev_logical_size := None;
  memdev_extended_speed := None;
  memdev_extended_configured_memory_speed := None
|}.

(* 000_bios.rs:56, 64 and 71: BiosRevision, FirmwareRevision, RomSize *)
Definition Revision_default : Revision := {| rev_major := 0; rev_minor := 0 |}.
Definition RomSize_default : RomSize := {| basic := 0; extended := None |}.

(* 000_bios.rs:42, 47, 52 and 013_bios_language.rs:29: the bit fields are 0 *)
Definition Characteristics_default : N := 0.
Definition CharacteristicsExtension1_default : N := 0.
Definition CharacteristicsExtension2_default : N := 0.
Definition LanguageFlags_default : N := 0.

(* 000_bios.rs:11 `struct Bios` *)
Definition Bios_default : Bios := {|
  bios_handle := 0;
  bios_vendor := [];
  bios_bios_version := [];
  bios_starting_address_segment := 0;
  bios_release_date := [];
  bios_rom_size := RomSize_default;
  bios_characteristics := Characteristics_default;
  bios_characteristics_extension_1 := None;
  bios_characteristics_extension_2 := None;
  bios_revision := None;
  bios_firmware_revision := None
|}.

(* bitfield.rs:20-26 `enum FlagType`: the variant marked #[default] *)
Definition FlagType_default : FlagType := FUnknown.
