(* What a longer formatted area may change in the result of decoding. *)
From Verif Require Import Base G_Enums M_Raw M_Enclosure M_SystemSlots M_Strings M_GroupAssociations M_MemoryDevice M_Iter.
From Verif Require Import Spec S_Decode S_Iter S_Versions.
Local Open Scope N_scope.

(* the same structure with the bytes e behind the fields that it had *)
Definition lengthened (e : list N) (r : RawStructure) : RawStructure := {|
  version := version r; info := info r; length_ := length_ r + len e; handle := handle r;
  data := data r ++ e; strings := strings r; after := after r |}.

(* the decoders that take only the one length that the standard of 2.1 to 3.2 gave
   the structure *)
Definition one_length (v : SmbiosVersion) (i : InfoType) : Prop :=
  match i with
  | InfoType_SystemSlots => before_version v 3 2
  | InfoType_SystemEventLog | InfoType_MemoryError32 | InfoType_MemoryArrayMappedAddress
  | InfoType_MemoryDeviceMappedAddress | InfoType_BuiltInPointingDevice | InfoType_PortableBattery => True
  | _ => False
  end.

(* an optional list of elements that is there stays there with the same elements;
   the memory behind it is another one *)
Definition kept_elements (o o' : option ContainedElements) : Prop := forall a, o = Some a -> exists b, o' = Some b /\
  ce_chunks a = ce_chunks b /\ ce_count a = ce_count b /\ ce_record_length a = ce_record_length b.

Record Enclosure_longer (x y : Enclosure) : Prop := {
  _ : enclosure_handle x = enclosure_handle y;
  _ : enclosure_manufacturer x = enclosure_manufacturer y;
  _ : enclosure_chassis_lock x = enclosure_chassis_lock y;
  _ : enclosure_enclosure_type x = enclosure_enclosure_type y;
  _ : enclosure_version x = enclosure_version y;
  _ : enclosure_serial_number x = enclosure_serial_number y;
  _ : enclosure_asset_tag_number x = enclosure_asset_tag_number y;
  _ : kept (enclosure_boot_up_state x) (enclosure_boot_up_state y);
  _ : kept (enclosure_power_supply_state x) (enclosure_power_supply_state y);
  _ : kept (enclosure_thermal_state x) (enclosure_thermal_state y);
  _ : kept (enclosure_security_status x) (enclosure_security_status y);
  _ : kept (enclosure_oem_defined x) (enclosure_oem_defined y);
  _ : kept (enclosure_height x) (enclosure_height y);
  _ : kept (enclosure_power_cords_number x) (enclosure_power_cords_number y);
  _ : kept_elements (enclosure_contained_elements x) (enclosure_contained_elements y);
  _ : kept (enclosure_sku_number x) (enclosure_sku_number y)
}.

Record SystemSlots_longer (x y : SystemSlots) : Prop := {
  _ : slots_handle x = slots_handle y;
  _ : slots_slot_designation x = slots_slot_designation y;
  _ : slots_slot_type x = slots_slot_type y;
  _ : slots_slot_data_bus_width x = slots_slot_data_bus_width y;
  _ : slots_current_usage x = slots_current_usage y;
  _ : slots_slot_length x = slots_slot_length y;
  _ : slots_slot_id x = slots_slot_id y;
  _ : slots_slot_characteristics_1 x = slots_slot_characteristics_1 y;
  _ : kept (slots_slot_characteristics_2 x) (slots_slot_characteristics_2 y);
  _ : kept (slots_segment_group_number x) (slots_segment_group_number y);
  _ : kept (slots_bus_number x) (slots_bus_number y);
  _ : kept (slots_device_and_function_number x) (slots_device_and_function_number y);
  _ : kept (slots_data_bus_width x) (slots_data_bus_width y);
  _ : kept (slots_peer_devices x) (slots_peer_devices y);
  _ : kept (slots_slot_information x) (slots_slot_information y);
  _ : kept (slots_slot_physical_width x) (slots_slot_physical_width y);
  _ : kept (slots_slot_pitch x) (slots_slot_pitch y)
}.

Record MemoryDevice_longer (x y : MemoryDevice) : Prop := {
  _ : memdev_handle x = memdev_handle y;
  _ : memdev_physical_memory_handle x = memdev_physical_memory_handle y;
  _ : kept (memdev_memory_error_handle x) (memdev_memory_error_handle y);
  _ : kept (memdev_total_width x) (memdev_total_width y);
  _ : kept (memdev_data_width x) (memdev_data_width y);
  _ : kept (memdev_size x) (memdev_size y);
  _ : memdev_form_factor x = memdev_form_factor y;
  _ : kept (memdev_device_set x) (memdev_device_set y);
  _ : memdev_device_locator x = memdev_device_locator y;
  _ : memdev_bank_locator x = memdev_bank_locator y;
  _ : memdev_memory_type x = memdev_memory_type y;
  _ : memdev_type_detail x = memdev_type_detail y;
  _ : kept (memdev_speed x) (memdev_speed y);
  _ : memdev_manufacturer x = memdev_manufacturer y;
  _ : memdev_serial x = memdev_serial y;
  _ : memdev_asset_tag x = memdev_asset_tag y;
  _ : memdev_part_number x = memdev_part_number y;
  _ : memdev_attributes x = memdev_attributes y;
  _ : memdev_extended_size x = memdev_extended_size y;
  _ : kept (memdev_configured_memory_speed x) (memdev_configured_memory_speed y);
  _ : kept (memdev_minimum_voltage x) (memdev_minimum_voltage y);
  _ : kept (memdev_maximum_voltage x) (memdev_maximum_voltage y);
  _ : kept (memdev_configured_voltage x) (memdev_configured_voltage y);
  _ : kept (memdev_memory_technology x) (memdev_memory_technology y);
  _ : kept (memdev_operating_mode_capability x) (memdev_operating_mode_capability y);
  _ : kept (memdev_firmware_version x) (memdev_firmware_version y);
  _ : kept (memdev_module_manufacturer x) (memdev_module_manufacturer y);
  _ : kept (memdev_module_product_id x) (memdev_module_product_id y);
  _ : kept (memdev_memory_subsystem_controller_manufacturer_id x) (memdev_memory_subsystem_controller_manufacturer_id y);
  _ : kept (memdev_memory_subsystem_controller_product_id x) (memdev_memory_subsystem_controller_product_id y);
  _ : kept (memdev_non_volatile_size x) (memdev_non_volatile_size y);
  _ : kept (memdev_volatile_size x) (memdev_volatile_size y);
  _ : kept (memdev_cache_size x) (memdev_cache_size y);
  _ : kept (memdev_logical_size x) (memdev_logical_size y);
  _ : kept (memdev_extended_speed x) (memdev_extended_speed y);
  _ : kept (memdev_extended_configured_memory_speed x) (memdev_extended_configured_memory_speed y)
}.

(* the new bytes are new items of a group *)
Record GroupAssociations_longer (e : list N) (x y : GroupAssociations) : Prop := {
  _ : group_handle x = group_handle y;
  _ : group_group_name x = group_group_name y;
  _ : gi_index (group_items x) = gi_index (group_items y);
  _ : gi_data (group_items y) = gi_data (group_items x) ++ e
}.

(* the languages are taken from the strings of the structure, which goes along *)
Record BiosLanguage_longer (e : list N) (x y : BiosLanguage) : Prop := {
  _ : language_handle x = language_handle y;
  _ : language_flags x = language_flags y;
  _ : language_current_language x = language_current_language y;
  _ : il_index (language_installable_languages x) = il_index (language_installable_languages y);
  _ : il_structure (language_installable_languages y) = lengthened e (il_structure (language_installable_languages x))
}.

(* everything else stays the same (a structure of an undecoded type is its bytes) *)
Definition longer (e : list N) (x y : Structure) : Prop :=
  match x, y with
  | SEnclosure a, SEnclosure b => Enclosure_longer a b
  | SSystemSlots a, SSystemSlots b => SystemSlots_longer a b
  | SMemoryDevice a, SMemoryDevice b => MemoryDevice_longer a b
  | SGroupAssociations a, SGroupAssociations b => GroupAssociations_longer e a b
  | SBiosLanguage a, SBiosLanguage b => BiosLanguage_longer e a b
  | SOther a, SOther b => b = lengthened e a
  | _, _ => x = y
  end.

(* an enclosure that goes as far as its last field; other structures *)
Definition complete_enclosure (x : Structure) : Prop :=
  match x with SEnclosure a => enclosure_sku_number a <> None | _ => True end.

(* an encoded structure with e behind its fields *)
Definition widened (s : encodable) (e : list N) : encodable :=
  {| e_type := e_type s; e_handle := e_handle s; e_body := e_body s ++ e; e_strings := e_strings s |}.
