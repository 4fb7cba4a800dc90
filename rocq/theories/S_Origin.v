(* Which handle and which texts a decoded structure shows. *)
From Verif Require Import Base G_Enums M_Raw M_Bios M_System M_BaseBoard M_Enclosure
  M_Processor M_Cache M_PortConnector M_SystemSlots M_Strings M_GroupAssociations
  M_SystemEventLog M_PhysicalMemoryArray M_MemoryDevice M_Memory M_PortableBattery M_Iter Spec.
Local Open Scope N_scope.

(* the text is empty or one of the strings of the structure *)
Definition own_text (r : RawStructure) (t : text) : Prop := t = [] \/ exists k, string_number (strings r) k t.

Definition shown_handle (s : Structure) : N :=
  match s with
  | SBios s => bios_handle s
  | SSystem s => system_handle s
  | SBaseBoard s => baseboard_handle s
  | SEnclosure s => enclosure_handle s
  | SProcessor s => processor_handle s
  | SCache s => cache_handle s
  | SPortConnector s => port_handle s
  | SSystemSlots s => slots_handle s
  | SOemStrings s => oem_handle s
  | SSystemConfigurationOptions s => options_handle s
  | SBiosLanguage s => language_handle s
  | SGroupAssociations s => group_handle s
  | SSystemEventLog s => log_handle s
  | SMemoryDevice s => memdev_handle s
  | SMemoryError32 s => me_handle s
  | SMemoryArrayMappedAddress s => ama_handle s
  | SMemoryDeviceMappedAddress s => dma_handle s
  | SBuiltInPointingDevice s => pd_handle s
  | SPortableBattery s => battery_handle s
  | SPhysicalMemoryArray s => array_handle s
  | SOther s => handle s
  end.

Definition optional (o : option text) : list text := match o with Some t => [t] | None => [] end.
Definition date_text (d : ManufactureDate) : list text := match d with MD_Basic t => [t] | _ => [] end.
Definition serial_text (d : SerialNumber) : list text := match d with SN_Basic t => [t] | _ => [] end.
Definition chemistry_text (d : DeviceChemistry) : list text := match d with Chem_SmartBatteryDataSpecification t => [t] | _ => [] end.

(* the texts in the fields of a decoded structure *)
Definition shown_texts (s : Structure) : list text :=
  match s with
  | SBios s => [bios_vendor s; bios_bios_version s; bios_release_date s]
  | SSystem s => [system_manufacturer s; system_product s; system_version s; system_serial s] ++
      optional (system_sku s) ++ optional (system_family s)
  | SBaseBoard s => [baseboard_manufacturer s; baseboard_product s; baseboard_version s; baseboard_serial s] ++
      optional (baseboard_asset s) ++ optional (baseboard_location_in_chassis s)
  | SEnclosure s => [enclosure_manufacturer s; enclosure_version s; enclosure_serial_number s; enclosure_asset_tag_number s] ++
      optional (enclosure_sku_number s)
  | SProcessor s => [processor_socket_designation s; processor_processor_manufacturer s; processor_processor_version s] ++
      optional (processor_serial_number s) ++ optional (processor_asset_tag s) ++ optional (processor_part_number s)
  | SCache s => [cache_socket_designation s]
  | SPortConnector s => [port_internal_reference_designator s; port_external_reference_designator s]
  | SSystemSlots s => [slots_slot_designation s]
  | SGroupAssociations s => [group_group_name s]
  | SMemoryDevice s => [memdev_device_locator s; memdev_bank_locator s; memdev_manufacturer s; memdev_serial s;
      memdev_asset_tag s; memdev_part_number s] ++ optional (memdev_firmware_version s)
  | SPortableBattery s => [battery_location s; battery_manufacturer s] ++ date_text (battery_manufacture_date s) ++
      serial_text (battery_serial_number s) ++ [battery_device_name s] ++ chemistry_text (battery_device_chemistry s) ++
      [battery_sbds_version_number s]
  | _ => []
  end.

(* where the lazily read strings of a structure come from *)
Definition shown_strings (s : Structure) : option (list N) :=
  match s with
  | SOemStrings s => Some (bytes (oem_strings s))
  | SSystemConfigurationOptions s => Some (bytes (options_strings s))
  | SBiosLanguage s => Some (strings (il_structure (language_installable_languages s)))
  | SOther s => Some (strings s)
  | _ => None
  end.
