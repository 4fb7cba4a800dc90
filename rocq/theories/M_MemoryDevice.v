(* Model of /repo/src/structures/017_memory_device.rs *)
From Coq Require Import String.
From Verif Require Import Base G_Enums M_Raw.
Local Open Scope N_scope.

(* 017_memory_device.rs:298-378 `struct MemoryDevice`; Detail and OperatingModes
   are their bits *)
Record MemoryDevice := {
  memdev_handle : N;
  memdev_physical_memory_handle : N;
  memdev_memory_error_handle : option N;
  memdev_total_width : option N;
  memdev_data_width : option N;
  memdev_size : option N;
  memdev_form_factor : FormFactor;
  memdev_device_set : option N;
  memdev_device_locator : text;
  memdev_bank_locator : text;
  memdev_memory_type : MemoryType;
  memdev_type_detail : N;
  memdev_speed : option N;
  memdev_manufacturer : text;
  memdev_serial : text;
  memdev_asset_tag : text;
  memdev_part_number : text;
  memdev_attributes : N;
  memdev_extended_size : N;
  memdev_configured_memory_speed : option N;
  memdev_minimum_voltage : option N;
  memdev_maximum_voltage : option N;
  memdev_configured_voltage : option N;
  memdev_memory_technology : option MemoryTechnology;
  memdev_operating_mode_capability : option N;
  memdev_firmware_version : option text;
  memdev_module_manufacturer : option N;
  memdev_module_product_id : option N;
  memdev_memory_subsystem_controller_manufacturer_id : option N;
  memdev_memory_subsystem_controller_product_id : option N;
  memdev_non_volatile_size : option N;
  memdev_volatile_size : option N;
  memdev_cache_size : option N;
  memdev_logical_size : option N;
  memdev_extended_speed : option N;
  memdev_extended_configured_memory_speed : option N
}.

(* 017_memory_device.rs:256-282 `bitflags! Detail`: bits 1..15 are named;
   284-295 `bitflags! OperatingModes`: bits 1..5 *)
Definition Detail_truncate (w : N) : N := N.land w 0xFFFE.
Definition OperatingModes_truncate (w : N) : N := N.land w 0x3E.

(* 017_memory_device.rs:380-431 `MemoryDevice::try_from` *)
Definition MemoryDevice_try_from (c : cfg) (r : RawStructure) : out (res MemoryDevice) :=
  if len (data r) + 4 <? 0x15 then
    Val (Err (InvalidFormattedSectionLength InfoType_MemoryDevice (handle r) "at least" 0x15))
  else
  let? physical_memory_handle := get c 2 0x04 r in
  let! memory_error_handle := get_ok c 2 0x06 r in
  let! total_width := get_ok c 2 0x08 r in
  let! data_width := get_ok c 2 0x0A r in
  let! size := get_ok c 2 0x0C r in
  let? form_factor := get c 1 0x0E r in
  let? device_set := get c 1 0x0F r in
  let? device_locator := get_string c 0x10 r in
  let? bank_locator := get_string c 0x11 r in
  let? memory_type := get c 1 0x12 r in
  let? type_detail := get c 2 0x13 r in
  let! speed := get_ok c 2 0x15 r in
  let? manufacturer := get_string c 0x17 r in
  let? serial := get_string c 0x18 r in
  let? asset_tag := get_string c 0x19 r in
  let? part_number := get_string c 0x1A r in
  let? attributes := get c 1 0x1B r in
  let? extended_size := get c 4 0x1C r in
  let! configured_memory_speed := get_ok c 2 0x20 r in
  let! minimum_voltage := get_ok c 2 0x22 r in
  let! maximum_voltage := get_ok c 2 0x24 r in
  let! configured_voltage := get_ok c 2 0x26 r in
  let! memory_technology := get_ok c 1 0x28 r in
  let! operating_mode_capability := get_ok c 2 0x29 r in
  let! firmware_version := get_string_ok c 0x2B r in
  let! module_manufacturer := get_ok c 2 0x2C r in
  let! module_product_id := get_ok c 2 0x2E r in
  let! subsystem_manufacturer := get_ok c 2 0x30 r in
  let! subsystem_product := get_ok c 2 0x32 r in
  let! non_volatile_size := get_ok c 8 0x34 r in
  let! volatile_size := get_ok c 8 0x3C r in
  let! cache_size := get_ok c 8 0x44 r in
  let! logical_size := get_ok c 8 0x4C r in
  let! extended_speed := get_ok c 4 0x54 r in
  let! extended_configured_memory_speed := get_ok c 4 0x58 r in
  Val (Ok {|
    memdev_handle := handle r;
    memdev_physical_memory_handle := physical_memory_handle;
    memdev_memory_error_handle := ofilter (fun v => negb (v =? 0xFFFE)) memory_error_handle;
    memdev_total_width := ofilter (fun v => negb (v =? 0xFFFF)) total_width;
    memdev_data_width := ofilter (fun v => negb (v =? 0xFFFF)) data_width;
    memdev_size := ofilter (fun v => negb (v =? 0xFFFF)) size;
    memdev_form_factor := FormFactor_from form_factor;
    memdev_device_set := Some device_set;
    memdev_device_locator := device_locator;
    memdev_bank_locator := bank_locator;
    memdev_memory_type := MemoryType_from memory_type;
    memdev_type_detail := Detail_truncate type_detail;
    memdev_speed := ofilter (fun v => negb (v =? 0)) speed;
    memdev_manufacturer := manufacturer;
    memdev_serial := serial;
    memdev_asset_tag := asset_tag;
    memdev_part_number := part_number;
    memdev_attributes := attributes;
    memdev_extended_size := extended_size;
    memdev_configured_memory_speed := ofilter (fun v => negb (v =? 0)) configured_memory_speed;
    memdev_minimum_voltage := ofilter (fun v => negb (v =? 0)) minimum_voltage;
    memdev_maximum_voltage := ofilter (fun v => negb (v =? 0)) maximum_voltage;
    memdev_configured_voltage := ofilter (fun v => negb (v =? 0)) configured_voltage;
    memdev_memory_technology := option_map MemoryTechnology_from memory_technology;
    memdev_operating_mode_capability := option_map OperatingModes_truncate operating_mode_capability;
    memdev_firmware_version := firmware_version;
    memdev_module_manufacturer := module_manufacturer;
    memdev_module_product_id := module_product_id;
    memdev_memory_subsystem_controller_manufacturer_id := subsystem_manufacturer;
    memdev_memory_subsystem_controller_product_id := subsystem_product;
    memdev_non_volatile_size := non_volatile_size;
    memdev_volatile_size := volatile_size;
    memdev_cache_size := cache_size;
    memdev_logical_size := logical_size;
    memdev_extended_speed := extended_speed;
    memdev_extended_configured_memory_speed := extended_configured_memory_speed
  |}).
