(* Generated by tools/gen_eq.py; do not edit by hand.  The parts of two values of a type
   are of the same kinds up to the first difference. *)
From Coq Require Import String.
From Verif Require Import Base G_Enums M_Raw M_Entry M_Bios M_System M_BaseBoard M_Enclosure M_Processor M_Cache
  M_PortConnector M_SystemSlots M_Strings M_GroupAssociations M_SystemEventLog M_PhysicalMemoryArray M_MemoryDevice
  M_Memory M_PortableBattery M_Iter M_Hash M_Eq G_Eq L_GEq L_Stream.
Local Open Scope N_scope.

Lemma InfoType_coh : coh InfoType_parts.
Proof. apply (variant_coh U8 InfoType_tag InfoType_value InfoType_has); intros []; reflexivity. Qed.
Lemma InfoType_small : small InfoType_parts.
Proof. apply (variant_small U8). reflexivity. Qed.

Lemma WakeupType_coh : coh WakeupType_parts.
Proof. apply (variant_coh U8 WakeupType_tag WakeupType_value WakeupType_has); intros []; reflexivity. Qed.
Lemma WakeupType_small : small WakeupType_parts.
Proof. apply (variant_small U8). reflexivity. Qed.

Lemma BoardType_coh : coh BoardType_parts.
Proof. apply (variant_coh U8 BoardType_tag BoardType_value BoardType_has); intros []; reflexivity. Qed.
Lemma BoardType_small : small BoardType_parts.
Proof. apply (variant_small U8). reflexivity. Qed.

Lemma EnclosureType_coh : coh EnclosureType_parts.
Proof. apply (variant_coh U8 EnclosureType_tag EnclosureType_value EnclosureType_has); intros []; reflexivity. Qed.
Lemma EnclosureType_small : small EnclosureType_parts.
Proof. apply (variant_small U8). reflexivity. Qed.

Lemma State_coh : coh State_parts.
Proof. apply (variant_coh U8 State_tag State_value State_has); intros []; reflexivity. Qed.
Lemma State_small : small State_parts.
Proof. apply (variant_small U8). reflexivity. Qed.

Lemma SecurityStatus_coh : coh SecurityStatus_parts.
Proof. apply (variant_coh U8 SecurityStatus_tag SecurityStatus_value SecurityStatus_has); intros []; reflexivity. Qed.
Lemma SecurityStatus_small : small SecurityStatus_parts.
Proof. apply (variant_small U8). reflexivity. Qed.

Lemma ProcessorType_coh : coh ProcessorType_parts.
Proof. apply (variant_coh U8 ProcessorType_tag ProcessorType_value ProcessorType_has); intros []; reflexivity. Qed.
Lemma ProcessorType_small : small ProcessorType_parts.
Proof. apply (variant_small U8). reflexivity. Qed.

Lemma ProcessorFamily_coh : coh ProcessorFamily_parts.
Proof. apply (variant_coh U16 ProcessorFamily_tag ProcessorFamily_value ProcessorFamily_has); intros []; reflexivity. Qed.
Lemma ProcessorFamily_small : small ProcessorFamily_parts.
Proof. apply (variant_small U16). reflexivity. Qed.

Lemma ProcessorUpgrade_coh : coh ProcessorUpgrade_parts.
Proof. apply (variant_coh U8 ProcessorUpgrade_tag ProcessorUpgrade_value ProcessorUpgrade_has); intros []; reflexivity. Qed.
Lemma ProcessorUpgrade_small : small ProcessorUpgrade_parts.
Proof. apply (variant_small U8). reflexivity. Qed.

Lemma CacheLevel_coh : coh CacheLevel_parts.
Proof. apply (variant_coh U8 CacheLevel_tag CacheLevel_value CacheLevel_has); intros []; reflexivity. Qed.
Lemma CacheLevel_small : small CacheLevel_parts.
Proof. apply (variant_small U8). reflexivity. Qed.

Lemma CacheLocation_coh : coh CacheLocation_parts.
Proof. apply (variant_coh U8 CacheLocation_tag CacheLocation_value CacheLocation_has); intros []; reflexivity. Qed.
Lemma CacheLocation_small : small CacheLocation_parts.
Proof. apply (variant_small U8). reflexivity. Qed.

Lemma CacheOperationalMode_coh : coh CacheOperationalMode_parts.
Proof. apply (variant_coh U8 CacheOperationalMode_tag CacheOperationalMode_value CacheOperationalMode_has); intros []; reflexivity. Qed.
Lemma CacheOperationalMode_small : small CacheOperationalMode_parts.
Proof. apply (variant_small U8). reflexivity. Qed.

Lemma CacheErrorCorrectionType_coh : coh CacheErrorCorrectionType_parts.
Proof. apply (variant_coh U8 CacheErrorCorrectionType_tag CacheErrorCorrectionType_value CacheErrorCorrectionType_has); intros []; reflexivity. Qed.
Lemma CacheErrorCorrectionType_small : small CacheErrorCorrectionType_parts.
Proof. apply (variant_small U8). reflexivity. Qed.

Lemma SystemCacheType_coh : coh SystemCacheType_parts.
Proof. apply (variant_coh U8 SystemCacheType_tag SystemCacheType_value SystemCacheType_has); intros []; reflexivity. Qed.
Lemma SystemCacheType_small : small SystemCacheType_parts.
Proof. apply (variant_small U8). reflexivity. Qed.

Lemma CacheAssociativity_coh : coh CacheAssociativity_parts.
Proof. apply (variant_coh U8 CacheAssociativity_tag CacheAssociativity_value CacheAssociativity_has); intros []; reflexivity. Qed.
Lemma CacheAssociativity_small : small CacheAssociativity_parts.
Proof. apply (variant_small U8). reflexivity. Qed.

Lemma ConnectorType_coh : coh ConnectorType_parts.
Proof. apply (variant_coh U8 ConnectorType_tag ConnectorType_value ConnectorType_has); intros []; reflexivity. Qed.
Lemma ConnectorType_small : small ConnectorType_parts.
Proof. apply (variant_small U8). reflexivity. Qed.

Lemma PortType_coh : coh PortType_parts.
Proof. apply (variant_coh U8 PortType_tag PortType_value PortType_has); intros []; reflexivity. Qed.
Lemma PortType_small : small PortType_parts.
Proof. apply (variant_small U8). reflexivity. Qed.

Lemma SlotType_coh : coh SlotType_parts.
Proof. apply (variant_coh U8 SlotType_tag SlotType_value SlotType_has); intros []; reflexivity. Qed.
Lemma SlotType_small : small SlotType_parts.
Proof. apply (variant_small U8). reflexivity. Qed.

Lemma SlotWidth_coh : coh SlotWidth_parts.
Proof. apply (variant_coh U8 SlotWidth_tag SlotWidth_value SlotWidth_has); intros []; reflexivity. Qed.
Lemma SlotWidth_small : small SlotWidth_parts.
Proof. apply (variant_small U8). reflexivity. Qed.

Lemma CurrentUsage_coh : coh CurrentUsage_parts.
Proof. apply (variant_coh U8 CurrentUsage_tag CurrentUsage_value CurrentUsage_has); intros []; reflexivity. Qed.
Lemma CurrentUsage_small : small CurrentUsage_parts.
Proof. apply (variant_small U8). reflexivity. Qed.

Lemma SlotLength_coh : coh SlotLength_parts.
Proof. apply (variant_coh U8 SlotLength_tag SlotLength_value SlotLength_has); intros []; reflexivity. Qed.
Lemma SlotLength_small : small SlotLength_parts.
Proof. apply (variant_small U8). reflexivity. Qed.

Lemma EventLogType_coh : coh EventLogType_parts.
Proof. apply (variant_coh U8 EventLogType_tag EventLogType_value EventLogType_has); intros []; reflexivity. Qed.
Lemma EventLogType_small : small EventLogType_parts.
Proof. apply (variant_small U8). reflexivity. Qed.

Lemma LogHeaderFormat_coh : coh LogHeaderFormat_parts.
Proof. apply (variant_coh U8 LogHeaderFormat_tag LogHeaderFormat_value LogHeaderFormat_has); intros []; reflexivity. Qed.
Lemma LogHeaderFormat_small : small LogHeaderFormat_parts.
Proof. apply (variant_small U8). reflexivity. Qed.

Lemma MemoryArrayLocation_coh : coh MemoryArrayLocation_parts.
Proof. apply (variant_coh U8 MemoryArrayLocation_tag MemoryArrayLocation_value MemoryArrayLocation_has); intros []; reflexivity. Qed.
Lemma MemoryArrayLocation_small : small MemoryArrayLocation_parts.
Proof. apply (variant_small U8). reflexivity. Qed.

Lemma MemoryArrayUse_coh : coh MemoryArrayUse_parts.
Proof. apply (variant_coh U8 MemoryArrayUse_tag MemoryArrayUse_value MemoryArrayUse_has); intros []; reflexivity. Qed.
Lemma MemoryArrayUse_small : small MemoryArrayUse_parts.
Proof. apply (variant_small U8). reflexivity. Qed.

Lemma MemoryArrayErrorCorrectionTypes_coh : coh MemoryArrayErrorCorrectionTypes_parts.
Proof. apply (variant_coh U8 MemoryArrayErrorCorrectionTypes_tag MemoryArrayErrorCorrectionTypes_value MemoryArrayErrorCorrectionTypes_has); intros []; reflexivity. Qed.
Lemma MemoryArrayErrorCorrectionTypes_small : small MemoryArrayErrorCorrectionTypes_parts.
Proof. apply (variant_small U8). reflexivity. Qed.

Lemma MDErrorGranularity_coh : coh MDErrorGranularity_parts.
Proof. apply (variant_coh U8 MDErrorGranularity_tag MDErrorGranularity_value MDErrorGranularity_has); intros []; reflexivity. Qed.
Lemma MDErrorGranularity_small : small MDErrorGranularity_parts.
Proof. apply (variant_small U8). reflexivity. Qed.

Lemma MDErrorOperation_coh : coh MDErrorOperation_parts.
Proof. apply (variant_coh U8 MDErrorOperation_tag MDErrorOperation_value MDErrorOperation_has); intros []; reflexivity. Qed.
Lemma MDErrorOperation_small : small MDErrorOperation_parts.
Proof. apply (variant_small U8). reflexivity. Qed.

Lemma MDErrorType_coh : coh MDErrorType_parts.
Proof. apply (variant_coh U8 MDErrorType_tag MDErrorType_value MDErrorType_has); intros []; reflexivity. Qed.
Lemma MDErrorType_small : small MDErrorType_parts.
Proof. apply (variant_small U8). reflexivity. Qed.

Lemma FormFactor_coh : coh FormFactor_parts.
Proof. apply (variant_coh U8 FormFactor_tag FormFactor_value FormFactor_has); intros []; reflexivity. Qed.
Lemma FormFactor_small : small FormFactor_parts.
Proof. apply (variant_small U8). reflexivity. Qed.

Lemma MemoryTechnology_coh : coh MemoryTechnology_parts.
Proof. apply (variant_coh U8 MemoryTechnology_tag MemoryTechnology_value MemoryTechnology_has); intros []; reflexivity. Qed.
Lemma MemoryTechnology_small : small MemoryTechnology_parts.
Proof. apply (variant_small U8). reflexivity. Qed.

Lemma MemoryType_coh : coh MemoryType_parts.
Proof. apply (variant_coh U8 MemoryType_tag MemoryType_value MemoryType_has); intros []; reflexivity. Qed.
Lemma MemoryType_small : small MemoryType_parts.
Proof. apply (variant_small U8). reflexivity. Qed.

Lemma MEErrorType_coh : coh MEErrorType_parts.
Proof. apply (variant_coh U8 MEErrorType_tag MEErrorType_value MEErrorType_has); intros []; reflexivity. Qed.
Lemma MEErrorType_small : small MEErrorType_parts.
Proof. apply (variant_small U8). reflexivity. Qed.

Lemma MEErrorGranularity_coh : coh MEErrorGranularity_parts.
Proof. apply (variant_coh U8 MEErrorGranularity_tag MEErrorGranularity_value MEErrorGranularity_has); intros []; reflexivity. Qed.
Lemma MEErrorGranularity_small : small MEErrorGranularity_parts.
Proof. apply (variant_small U8). reflexivity. Qed.

Lemma MEErrorOperation_coh : coh MEErrorOperation_parts.
Proof. apply (variant_coh U8 MEErrorOperation_tag MEErrorOperation_value MEErrorOperation_has); intros []; reflexivity. Qed.
Lemma MEErrorOperation_small : small MEErrorOperation_parts.
Proof. apply (variant_small U8). reflexivity. Qed.

Lemma PointingDeviceType_coh : coh PointingDeviceType_parts.
Proof. apply (variant_coh U8 PointingDeviceType_tag PointingDeviceType_value PointingDeviceType_has); intros []; reflexivity. Qed.
Lemma PointingDeviceType_small : small PointingDeviceType_parts.
Proof. apply (variant_small U8). reflexivity. Qed.

Lemma PointingDeviceInterface_coh : coh PointingDeviceInterface_parts.
Proof. apply (variant_coh U8 PointingDeviceInterface_tag PointingDeviceInterface_value PointingDeviceInterface_has); intros []; reflexivity. Qed.
Lemma PointingDeviceInterface_small : small PointingDeviceInterface_parts.
Proof. apply (variant_small U8). reflexivity. Qed.

Lemma SmbiosVersion_coh : coh SmbiosVersion_parts.
Proof. exact (then_coh (on_coh major (num_coh U8))
  (on_coh minor (num_coh U8))). Qed.
Lemma SmbiosVersion_small : small SmbiosVersion_parts.
Proof. exact (then_small (on_small major (num_small U8 eq_refl))
  (on_small minor (num_small U8 eq_refl))). Qed.

Lemma RawStructure_coh : coh RawStructure_parts.
Proof. exact (then_coh (on_coh version SmbiosVersion_coh)
  (then_coh (on_coh info InfoType_coh)
  (then_coh (on_coh length_ (num_coh U8))
  (then_coh (on_coh handle (num_coh U16))
  (then_coh (on_coh data slice_coh)
  (on_coh strings slice_coh)))))). Qed.

Lemma StructureStrings_coh : coh StructureStrings_parts.
Proof. exact (then_coh (on_coh bytes slice_coh)
  (on_coh start (num_coh Usize))). Qed.

Lemma Revision_coh : coh Revision_parts.
Proof. exact (then_coh (on_coh rev_major (num_coh U8))
  (on_coh rev_minor (num_coh U8))). Qed.
Lemma Revision_small : small Revision_parts.
Proof. exact (then_small (on_small rev_major (num_small U8 eq_refl))
  (on_small rev_minor (num_small U8 eq_refl))). Qed.

Lemma RomSize_coh : coh RomSize_parts.
Proof. exact (then_coh (on_coh basic (num_coh U8))
  (on_coh extended (option_coh (num_coh U16)))). Qed.
Lemma RomSize_small : small RomSize_parts.
Proof. exact (then_small (on_small basic (num_small U8 eq_refl))
  (on_small extended (option_small (num_small U16 eq_refl)))). Qed.

Lemma Bios_coh : coh Bios_parts.
Proof. exact (then_coh (on_coh bios_handle (num_coh U16))
  (then_coh (on_coh bios_vendor str_coh)
  (then_coh (on_coh bios_bios_version str_coh)
  (then_coh (on_coh bios_starting_address_segment (num_coh U16))
  (then_coh (on_coh bios_release_date str_coh)
  (then_coh (on_coh bios_rom_size RomSize_coh)
  (then_coh (on_coh bios_characteristics (num_coh U64))
  (then_coh (on_coh bios_characteristics_extension_1 (option_coh (num_coh U8)))
  (then_coh (on_coh bios_characteristics_extension_2 (option_coh (num_coh U8)))
  (then_coh (on_coh bios_revision (option_coh Revision_coh))
  (on_coh bios_firmware_revision (option_coh Revision_coh)))))))))))). Qed.
Lemma Bios_small : small Bios_parts.
Proof. exact (then_small (on_small bios_handle (num_small U16 eq_refl))
  (then_small (on_small bios_vendor str_small)
  (then_small (on_small bios_bios_version str_small)
  (then_small (on_small bios_starting_address_segment (num_small U16 eq_refl))
  (then_small (on_small bios_release_date str_small)
  (then_small (on_small bios_rom_size RomSize_small)
  (then_small (on_small bios_characteristics (num_small U64 eq_refl))
  (then_small (on_small bios_characteristics_extension_1 (option_small (num_small U8 eq_refl)))
  (then_small (on_small bios_characteristics_extension_2 (option_small (num_small U8 eq_refl)))
  (then_small (on_small bios_revision (option_small Revision_small))
  (on_small bios_firmware_revision (option_small Revision_small)))))))))))). Qed.

Lemma System_coh : coh System_parts.
Proof. exact (then_coh (on_coh system_handle (num_coh U16))
  (then_coh (on_coh system_manufacturer str_coh)
  (then_coh (on_coh system_product str_coh)
  (then_coh (on_coh system_version str_coh)
  (then_coh (on_coh system_serial str_coh)
  (then_coh (on_coh system_uuid (option_coh slice_coh))
  (then_coh (on_coh system_wakeup (option_coh WakeupType_coh))
  (then_coh (on_coh system_sku (option_coh str_coh))
  (on_coh system_family (option_coh str_coh)))))))))). Qed.

Lemma BaseBoard_coh : coh BaseBoard_parts.
Proof. exact (then_coh (on_coh baseboard_handle (num_coh U16))
  (then_coh (on_coh baseboard_manufacturer str_coh)
  (then_coh (on_coh baseboard_product str_coh)
  (then_coh (on_coh baseboard_version str_coh)
  (then_coh (on_coh baseboard_serial str_coh)
  (then_coh (on_coh baseboard_asset (option_coh str_coh))
  (then_coh (on_coh baseboard_feature_flags (option_coh (num_coh U8)))
  (then_coh (on_coh baseboard_location_in_chassis (option_coh str_coh))
  (then_coh (on_coh baseboard_chassis_handle (option_coh (num_coh U16)))
  (on_coh baseboard_board_type (option_coh BoardType_coh))))))))))). Qed.
Lemma BaseBoard_small : small BaseBoard_parts.
Proof. exact (then_small (on_small baseboard_handle (num_small U16 eq_refl))
  (then_small (on_small baseboard_manufacturer str_small)
  (then_small (on_small baseboard_product str_small)
  (then_small (on_small baseboard_version str_small)
  (then_small (on_small baseboard_serial str_small)
  (then_small (on_small baseboard_asset (option_small str_small))
  (then_small (on_small baseboard_feature_flags (option_small (num_small U8 eq_refl)))
  (then_small (on_small baseboard_location_in_chassis (option_small str_small))
  (then_small (on_small baseboard_chassis_handle (option_small (num_small U16 eq_refl)))
  (on_small baseboard_board_type (option_small BoardType_small))))))))))). Qed.

Lemma ContainedElementType_coh : coh ContainedElementType_parts.
Proof.
  intros a b l m H. destruct a, b; cbn [ContainedElementType_parts app]; (apply tag_coh; [reflexivity|reflexivity|intros E; try discriminate E]);
    rewrite <- ?app_assoc; repeat first [exact H|apply BoardType_coh|apply InfoType_coh].
Qed.
Lemma ContainedElementType_small : small ContainedElementType_parts.
Proof. intros []; cbn [ContainedElementType_parts]; (constructor; [reflexivity|]); repeat first [apply Forall_app; split|apply BoardType_small|apply InfoType_small|constructor]. Qed.

Lemma ContainedElement_coh : coh ContainedElement_parts.
Proof. exact (then_coh (on_coh cel_type ContainedElementType_coh)
  (then_coh (on_coh cel_minimum (num_coh U8))
  (on_coh cel_maximum (num_coh U8)))). Qed.
Lemma ContainedElement_small : small ContainedElement_parts.
Proof. exact (then_small (on_small cel_type ContainedElementType_small)
  (then_small (on_small cel_minimum (num_small U8 eq_refl))
  (on_small cel_maximum (num_small U8 eq_refl)))). Qed.

Lemma Enclosure_coh : coh Enclosure_parts.
Proof. exact (then_coh (on_coh enclosure_handle (num_coh U16))
  (then_coh (on_coh enclosure_manufacturer str_coh)
  (then_coh (on_coh enclosure_chassis_lock flag_coh)
  (then_coh (on_coh enclosure_enclosure_type EnclosureType_coh)
  (then_coh (on_coh enclosure_version str_coh)
  (then_coh (on_coh enclosure_serial_number str_coh)
  (then_coh (on_coh enclosure_asset_tag_number str_coh)
  (then_coh (on_coh enclosure_boot_up_state (option_coh State_coh))
  (then_coh (on_coh enclosure_power_supply_state (option_coh State_coh))
  (then_coh (on_coh enclosure_thermal_state (option_coh State_coh))
  (then_coh (on_coh enclosure_security_status (option_coh SecurityStatus_coh))
  (then_coh (on_coh enclosure_oem_defined (option_coh (num_coh U32)))
  (then_coh (on_coh enclosure_height (option_coh (num_coh U8)))
  (then_coh (on_coh enclosure_power_cords_number (option_coh (num_coh U8)))
  (then_coh (on_coh enclosure_contained_elements (option_coh elements_coh))
  (on_coh enclosure_sku_number (option_coh str_coh))))))))))))))))). Qed.

Lemma Voltage_coh : coh Voltage_parts.
Proof.
  intros a b l m H. destruct a, b; cbn [Voltage_parts app]; (apply tag_coh; [reflexivity|reflexivity|intros E; try discriminate E]);
    rewrite <- ?app_assoc; repeat first [exact H|apply (num_coh U8)].
Qed.
Lemma Voltage_small : small Voltage_parts.
Proof. intros []; cbn [Voltage_parts]; (constructor; [reflexivity|]); repeat first [apply Forall_app; split|apply (num_small U8 eq_refl)|constructor]. Qed.

Lemma Processor_coh : coh Processor_parts.
Proof. exact (then_coh (on_coh processor_handle (num_coh U16))
  (then_coh (on_coh processor_socket_designation str_coh)
  (then_coh (on_coh processor_processor_type ProcessorType_coh)
  (then_coh (on_coh processor_processor_family ProcessorFamily_coh)
  (then_coh (on_coh processor_processor_manufacturer str_coh)
  (then_coh (on_coh processor_processor_id (num_coh U64))
  (then_coh (on_coh processor_processor_version str_coh)
  (then_coh (on_coh processor_voltage Voltage_coh)
  (then_coh (on_coh processor_external_clock (num_coh U16))
  (then_coh (on_coh processor_max_speed (num_coh U16))
  (then_coh (on_coh processor_current_speed (num_coh U16))
  (then_coh (on_coh processor_status (num_coh U8))
  (then_coh (on_coh processor_processor_upgrade ProcessorUpgrade_coh)
  (then_coh (on_coh processor_l1_cache_handle (option_coh (num_coh U16)))
  (then_coh (on_coh processor_l2_cache_handle (option_coh (num_coh U16)))
  (then_coh (on_coh processor_l3_cache_handle (option_coh (num_coh U16)))
  (then_coh (on_coh processor_serial_number (option_coh str_coh))
  (then_coh (on_coh processor_asset_tag (option_coh str_coh))
  (then_coh (on_coh processor_part_number (option_coh str_coh))
  (then_coh (on_coh processor_core_count (option_coh (num_coh U16)))
  (then_coh (on_coh processor_core_enabled (option_coh (num_coh U16)))
  (then_coh (on_coh processor_thread_count (option_coh (num_coh U16)))
  (on_coh processor_processor_characteristics (option_coh (num_coh U16))))))))))))))))))))))))). Qed.
Lemma Processor_small : small Processor_parts.
Proof. exact (then_small (on_small processor_handle (num_small U16 eq_refl))
  (then_small (on_small processor_socket_designation str_small)
  (then_small (on_small processor_processor_type ProcessorType_small)
  (then_small (on_small processor_processor_family ProcessorFamily_small)
  (then_small (on_small processor_processor_manufacturer str_small)
  (then_small (on_small processor_processor_id (num_small U64 eq_refl))
  (then_small (on_small processor_processor_version str_small)
  (then_small (on_small processor_voltage Voltage_small)
  (then_small (on_small processor_external_clock (num_small U16 eq_refl))
  (then_small (on_small processor_max_speed (num_small U16 eq_refl))
  (then_small (on_small processor_current_speed (num_small U16 eq_refl))
  (then_small (on_small processor_status (num_small U8 eq_refl))
  (then_small (on_small processor_processor_upgrade ProcessorUpgrade_small)
  (then_small (on_small processor_l1_cache_handle (option_small (num_small U16 eq_refl)))
  (then_small (on_small processor_l2_cache_handle (option_small (num_small U16 eq_refl)))
  (then_small (on_small processor_l3_cache_handle (option_small (num_small U16 eq_refl)))
  (then_small (on_small processor_serial_number (option_small str_small))
  (then_small (on_small processor_asset_tag (option_small str_small))
  (then_small (on_small processor_part_number (option_small str_small))
  (then_small (on_small processor_core_count (option_small (num_small U16 eq_refl)))
  (then_small (on_small processor_core_enabled (option_small (num_small U16 eq_refl)))
  (then_small (on_small processor_thread_count (option_small (num_small U16 eq_refl)))
  (on_small processor_processor_characteristics (option_small (num_small U16 eq_refl))))))))))))))))))))))))). Qed.

Lemma CacheConfiguration_coh : coh CacheConfiguration_parts.
Proof. exact (then_coh (on_coh level CacheLevel_coh)
  (then_coh (on_coh socketed flag_coh)
  (then_coh (on_coh location CacheLocation_coh)
  (then_coh (on_coh enabled_at_boot_time flag_coh)
  (on_coh operational_mode CacheOperationalMode_coh))))). Qed.
Lemma CacheConfiguration_small : small CacheConfiguration_parts.
Proof. exact (then_small (on_small level CacheLevel_small)
  (then_small (on_small socketed flag_small)
  (then_small (on_small location CacheLocation_small)
  (then_small (on_small enabled_at_boot_time flag_small)
  (on_small operational_mode CacheOperationalMode_small))))). Qed.

Lemma CacheSize_coh : coh CacheSize_parts.
Proof.
  intros a b l m H. destruct a, b; cbn [CacheSize_parts app]; (apply tag_coh; [reflexivity|reflexivity|intros E; try discriminate E]);
    rewrite <- ?app_assoc; repeat first [exact H|apply (num_coh U16)].
Qed.
Lemma CacheSize_small : small CacheSize_parts.
Proof. intros []; cbn [CacheSize_parts]; (constructor; [reflexivity|]); repeat first [apply Forall_app; split|apply (num_small U16 eq_refl)|constructor]. Qed.

Lemma CacheSize2_coh : coh CacheSize2_parts.
Proof.
  intros a b l m H. destruct a, b; cbn [CacheSize2_parts app]; (apply tag_coh; [reflexivity|reflexivity|intros E; try discriminate E]);
    rewrite <- ?app_assoc; repeat first [exact H|apply (num_coh U32)].
Qed.
Lemma CacheSize2_small : small CacheSize2_parts.
Proof. intros []; cbn [CacheSize2_parts]; (constructor; [reflexivity|]); repeat first [apply Forall_app; split|apply (num_small U32 eq_refl)|constructor]. Qed.

Lemma Cache_coh : coh Cache_parts.
Proof. exact (then_coh (on_coh cache_handle (num_coh U16))
  (then_coh (on_coh cache_socket_designation str_coh)
  (then_coh (on_coh cache_cache_configuration CacheConfiguration_coh)
  (then_coh (on_coh cache_maximum_cache_size CacheSize_coh)
  (then_coh (on_coh cache_installed_size CacheSize_coh)
  (then_coh (on_coh cache_supported_sram_type (num_coh U16))
  (then_coh (on_coh cache_current_sram_type (num_coh U16))
  (then_coh (on_coh cache_cache_speed (option_coh (num_coh U8)))
  (then_coh (on_coh cache_error_correction_type (option_coh CacheErrorCorrectionType_coh))
  (then_coh (on_coh cache_system_cache_type (option_coh SystemCacheType_coh))
  (then_coh (on_coh cache_associativity (option_coh CacheAssociativity_coh))
  (then_coh (on_coh cache_maximum_cache_size_2 (option_coh CacheSize2_coh))
  (on_coh cache_installed_size_2 (option_coh CacheSize2_coh)))))))))))))). Qed.
Lemma Cache_small : small Cache_parts.
Proof. exact (then_small (on_small cache_handle (num_small U16 eq_refl))
  (then_small (on_small cache_socket_designation str_small)
  (then_small (on_small cache_cache_configuration CacheConfiguration_small)
  (then_small (on_small cache_maximum_cache_size CacheSize_small)
  (then_small (on_small cache_installed_size CacheSize_small)
  (then_small (on_small cache_supported_sram_type (num_small U16 eq_refl))
  (then_small (on_small cache_current_sram_type (num_small U16 eq_refl))
  (then_small (on_small cache_cache_speed (option_small (num_small U8 eq_refl)))
  (then_small (on_small cache_error_correction_type (option_small CacheErrorCorrectionType_small))
  (then_small (on_small cache_system_cache_type (option_small SystemCacheType_small))
  (then_small (on_small cache_associativity (option_small CacheAssociativity_small))
  (then_small (on_small cache_maximum_cache_size_2 (option_small CacheSize2_small))
  (on_small cache_installed_size_2 (option_small CacheSize2_small)))))))))))))). Qed.

Lemma PortConnector_coh : coh PortConnector_parts.
Proof. exact (then_coh (on_coh port_handle (num_coh U16))
  (then_coh (on_coh port_internal_reference_designator str_coh)
  (then_coh (on_coh port_internal_connector_type ConnectorType_coh)
  (then_coh (on_coh port_external_reference_designator str_coh)
  (then_coh (on_coh port_external_connector_type ConnectorType_coh)
  (on_coh port_port_type PortType_coh)))))). Qed.
Lemma PortConnector_small : small PortConnector_parts.
Proof. exact (then_small (on_small port_handle (num_small U16 eq_refl))
  (then_small (on_small port_internal_reference_designator str_small)
  (then_small (on_small port_internal_connector_type ConnectorType_small)
  (then_small (on_small port_external_reference_designator str_small)
  (then_small (on_small port_external_connector_type ConnectorType_small)
  (on_small port_port_type PortType_small)))))). Qed.

Lemma DeviceAndFunctionNumber_coh : coh DeviceAndFunctionNumber_parts.
Proof. exact (then_coh (on_coh dev (num_coh U8))
  (on_coh fun_ (num_coh U8))). Qed.
Lemma DeviceAndFunctionNumber_small : small DeviceAndFunctionNumber_parts.
Proof. exact (then_small (on_small dev (num_small U8 eq_refl))
  (on_small fun_ (num_small U8 eq_refl))). Qed.

Lemma Device_coh : coh Device_parts.
Proof. exact (then_coh (on_coh device_segment_group_number (num_coh U16))
  (then_coh (on_coh device_bus_number (num_coh U8))
  (then_coh (on_coh device_device_and_function_number DeviceAndFunctionNumber_coh)
  (on_coh device_data_bus_width (num_coh U8))))). Qed.
Lemma Device_small : small Device_parts.
Proof. exact (then_small (on_small device_segment_group_number (num_small U16 eq_refl))
  (then_small (on_small device_bus_number (num_small U8 eq_refl))
  (then_small (on_small device_device_and_function_number DeviceAndFunctionNumber_small)
  (on_small device_data_bus_width (num_small U8 eq_refl))))). Qed.

Lemma SystemSlots_coh : coh SystemSlots_parts.
Proof. exact (then_coh (on_coh slots_handle (num_coh U16))
  (then_coh (on_coh slots_slot_designation str_coh)
  (then_coh (on_coh slots_slot_type SlotType_coh)
  (then_coh (on_coh slots_slot_data_bus_width SlotWidth_coh)
  (then_coh (on_coh slots_current_usage CurrentUsage_coh)
  (then_coh (on_coh slots_slot_length SlotLength_coh)
  (then_coh (on_coh slots_slot_id (num_coh U16))
  (then_coh (on_coh slots_slot_characteristics_1 (num_coh U8))
  (then_coh (on_coh slots_slot_characteristics_2 (option_coh (num_coh U8)))
  (then_coh (on_coh slots_segment_group_number (option_coh (num_coh U16)))
  (then_coh (on_coh slots_bus_number (option_coh (num_coh U8)))
  (then_coh (on_coh slots_device_and_function_number (option_coh DeviceAndFunctionNumber_coh))
  (then_coh (on_coh slots_data_bus_width (option_coh (num_coh U8)))
  (then_coh (on_coh slots_peer_devices (option_coh peers_coh))
  (then_coh (on_coh slots_slot_information (option_coh (num_coh U8)))
  (then_coh (on_coh slots_slot_physical_width (option_coh SlotWidth_coh))
  (on_coh slots_slot_pitch (option_coh (num_coh U16))))))))))))))))))). Qed.

Lemma OemStrings_coh : coh OemStrings_parts.
Proof. exact (then_coh (on_coh oem_handle (num_coh U16))
  (on_coh oem_strings StructureStrings_coh)). Qed.

Lemma SystemConfigurationOptions_coh : coh SystemConfigurationOptions_parts.
Proof. exact (then_coh (on_coh options_handle (num_coh U16))
  (on_coh options_strings StructureStrings_coh)). Qed.

Lemma InstallableLanguages_coh : coh InstallableLanguages_parts.
Proof. exact (then_coh (on_coh il_structure RawStructure_coh)
  (on_coh il_index (num_coh U8))). Qed.

Lemma BiosLanguage_coh : coh BiosLanguage_parts.
Proof. exact (then_coh (on_coh language_handle (num_coh U16))
  (then_coh (on_coh language_installable_languages InstallableLanguages_coh)
  (then_coh (on_coh language_flags (option_coh (num_coh U8)))
  (on_coh language_current_language (num_coh U8))))). Qed.

Lemma GroupItems_coh : coh GroupItems_parts.
Proof. exact (then_coh (on_coh gi_data slice_coh)
  (on_coh gi_index (num_coh Usize))). Qed.

Lemma GroupItem_coh : coh GroupItem_parts.
Proof. exact (then_coh (on_coh gi_type (num_coh U8))
  (on_coh gi_handle (num_coh U16))). Qed.
Lemma GroupItem_small : small GroupItem_parts.
Proof. exact (then_small (on_small gi_type (num_small U8 eq_refl))
  (on_small gi_handle (num_small U16 eq_refl))). Qed.

Lemma GroupAssociations_coh : coh GroupAssociations_parts.
Proof. exact (then_coh (on_coh group_handle (num_coh U16))
  (then_coh (on_coh group_group_name str_coh)
  (on_coh group_items GroupItems_coh))). Qed.

Lemma SystemManagementType_coh : coh SystemManagementType_parts.
Proof.
  intros a b l m H. destruct a, b; cbn [SystemManagementType_parts app]; (apply tag_coh; [reflexivity|reflexivity|intros E; try discriminate E]);
    rewrite <- ?app_assoc; repeat first [exact H|apply (num_coh U16)|apply (num_coh U32)|apply (num_coh U8)].
Qed.
Lemma SystemManagementType_small : small SystemManagementType_parts.
Proof. intros []; cbn [SystemManagementType_parts]; (constructor; [reflexivity|]); repeat first [apply Forall_app; split|apply (num_small U16 eq_refl)|apply (num_small U32 eq_refl)|apply (num_small U8 eq_refl)|constructor]. Qed.

Lemma VariableDataFormatType_coh : coh VariableDataFormatType_parts.
Proof.
  intros a b l m H. destruct a, b; cbn [VariableDataFormatType_parts app]; (apply tag_coh; [reflexivity|reflexivity|intros E; try discriminate E]);
    rewrite <- ?app_assoc; repeat first [exact H|apply (num_coh U16)|apply (num_coh U32)|apply (num_coh U64)|apply (num_coh U8)|apply SystemManagementType_coh].
Qed.
Lemma VariableDataFormatType_small : small VariableDataFormatType_parts.
Proof. intros []; cbn [VariableDataFormatType_parts]; (constructor; [reflexivity|]); repeat first [apply Forall_app; split|apply (num_small U16 eq_refl)|apply (num_small U32 eq_refl)|apply (num_small U64 eq_refl)|apply (num_small U8 eq_refl)|apply SystemManagementType_small|constructor]. Qed.

Lemma EventLogTypeDescriptor_coh : coh EventLogTypeDescriptor_parts.
Proof. exact (then_coh (on_coh log_type EventLogType_coh)
  (on_coh variable_data_format_type VariableDataFormatType_coh)). Qed.
Lemma EventLogTypeDescriptor_small : small EventLogTypeDescriptor_parts.
Proof. exact (then_small (on_small log_type EventLogType_small)
  (on_small variable_data_format_type VariableDataFormatType_small)). Qed.

Lemma AccessMethod_coh : coh AccessMethod_parts.
Proof.
  intros a b l m H. destruct a, b; cbn [AccessMethod_parts app]; (apply tag_coh; [reflexivity|reflexivity|intros E; try discriminate E]);
    rewrite <- ?app_assoc; repeat first [exact H|apply (num_coh U16)|apply (num_coh U32)|apply (num_coh U8)|apply slice_coh].
Qed.

Lemma SystemEventLog_coh : coh SystemEventLog_parts.
Proof. exact (then_coh (on_coh log_handle (num_coh U16))
  (then_coh (on_coh log_log_area_length (num_coh U16))
  (then_coh (on_coh log_log_header_start_offset (num_coh U16))
  (then_coh (on_coh log_log_data_start_offset (num_coh U16))
  (then_coh (on_coh log_access_method AccessMethod_coh)
  (then_coh (on_coh log_log_status (num_coh U8))
  (then_coh (on_coh log_log_change_token (num_coh U32))
  (then_coh (on_coh log_log_header_format (option_coh LogHeaderFormat_coh))
  (on_coh log_descriptors (option_coh descriptors_coh)))))))))). Qed.

Lemma PhysicalMemoryArray_coh : coh PhysicalMemoryArray_parts.
Proof. exact (then_coh (on_coh array_handle (num_coh U16))
  (then_coh (on_coh array_location MemoryArrayLocation_coh)
  (then_coh (on_coh array_use MemoryArrayUse_coh)
  (then_coh (on_coh array_memory_error_correction MemoryArrayErrorCorrectionTypes_coh)
  (then_coh (on_coh array_maximum_capacity (option_coh (num_coh U32)))
  (then_coh (on_coh array_memory_error_information_handle (option_coh (num_coh U16)))
  (then_coh (on_coh array_number_of_memory_devices (num_coh U16))
  (on_coh array_extended_maximum_capacity (option_coh (num_coh U64)))))))))). Qed.
Lemma PhysicalMemoryArray_small : small PhysicalMemoryArray_parts.
Proof. exact (then_small (on_small array_handle (num_small U16 eq_refl))
  (then_small (on_small array_location MemoryArrayLocation_small)
  (then_small (on_small array_use MemoryArrayUse_small)
  (then_small (on_small array_memory_error_correction MemoryArrayErrorCorrectionTypes_small)
  (then_small (on_small array_maximum_capacity (option_small (num_small U32 eq_refl)))
  (then_small (on_small array_memory_error_information_handle (option_small (num_small U16 eq_refl)))
  (then_small (on_small array_number_of_memory_devices (num_small U16 eq_refl))
  (on_small array_extended_maximum_capacity (option_small (num_small U64 eq_refl)))))))))). Qed.

Lemma MemoryDevice_coh : coh MemoryDevice_parts.
Proof. exact (then_coh (on_coh memdev_handle (num_coh U16))
  (then_coh (on_coh memdev_physical_memory_handle (num_coh U16))
  (then_coh (on_coh memdev_memory_error_handle (option_coh (num_coh U16)))
  (then_coh (on_coh memdev_total_width (option_coh (num_coh U16)))
  (then_coh (on_coh memdev_data_width (option_coh (num_coh U16)))
  (then_coh (on_coh memdev_size (option_coh (num_coh U16)))
  (then_coh (on_coh memdev_form_factor FormFactor_coh)
  (then_coh (on_coh memdev_device_set (option_coh (num_coh U8)))
  (then_coh (on_coh memdev_device_locator str_coh)
  (then_coh (on_coh memdev_bank_locator str_coh)
  (then_coh (on_coh memdev_memory_type MemoryType_coh)
  (then_coh (on_coh memdev_type_detail (num_coh U16))
  (then_coh (on_coh memdev_speed (option_coh (num_coh U16)))
  (then_coh (on_coh memdev_manufacturer str_coh)
  (then_coh (on_coh memdev_serial str_coh)
  (then_coh (on_coh memdev_asset_tag str_coh)
  (then_coh (on_coh memdev_part_number str_coh)
  (then_coh (on_coh memdev_attributes (num_coh U8))
  (then_coh (on_coh memdev_extended_size (num_coh U32))
  (then_coh (on_coh memdev_configured_memory_speed (option_coh (num_coh U16)))
  (then_coh (on_coh memdev_minimum_voltage (option_coh (num_coh U16)))
  (then_coh (on_coh memdev_maximum_voltage (option_coh (num_coh U16)))
  (then_coh (on_coh memdev_configured_voltage (option_coh (num_coh U16)))
  (then_coh (on_coh memdev_memory_technology (option_coh MemoryTechnology_coh))
  (then_coh (on_coh memdev_operating_mode_capability (option_coh (num_coh U16)))
  (then_coh (on_coh memdev_firmware_version (option_coh str_coh))
  (then_coh (on_coh memdev_module_manufacturer (option_coh (num_coh U16)))
  (then_coh (on_coh memdev_module_product_id (option_coh (num_coh U16)))
  (then_coh (on_coh memdev_memory_subsystem_controller_manufacturer_id (option_coh (num_coh U16)))
  (then_coh (on_coh memdev_memory_subsystem_controller_product_id (option_coh (num_coh U16)))
  (then_coh (on_coh memdev_non_volatile_size (option_coh (num_coh U64)))
  (then_coh (on_coh memdev_volatile_size (option_coh (num_coh U64)))
  (then_coh (on_coh memdev_cache_size (option_coh (num_coh U64)))
  (then_coh (on_coh memdev_logical_size (option_coh (num_coh U64)))
  (then_coh (on_coh memdev_extended_speed (option_coh (num_coh U32)))
  (on_coh memdev_extended_configured_memory_speed (option_coh (num_coh U32)))))))))))))))))))))))))))))))))))))). Qed.
Lemma MemoryDevice_small : small MemoryDevice_parts.
Proof. exact (then_small (on_small memdev_handle (num_small U16 eq_refl))
  (then_small (on_small memdev_physical_memory_handle (num_small U16 eq_refl))
  (then_small (on_small memdev_memory_error_handle (option_small (num_small U16 eq_refl)))
  (then_small (on_small memdev_total_width (option_small (num_small U16 eq_refl)))
  (then_small (on_small memdev_data_width (option_small (num_small U16 eq_refl)))
  (then_small (on_small memdev_size (option_small (num_small U16 eq_refl)))
  (then_small (on_small memdev_form_factor FormFactor_small)
  (then_small (on_small memdev_device_set (option_small (num_small U8 eq_refl)))
  (then_small (on_small memdev_device_locator str_small)
  (then_small (on_small memdev_bank_locator str_small)
  (then_small (on_small memdev_memory_type MemoryType_small)
  (then_small (on_small memdev_type_detail (num_small U16 eq_refl))
  (then_small (on_small memdev_speed (option_small (num_small U16 eq_refl)))
  (then_small (on_small memdev_manufacturer str_small)
  (then_small (on_small memdev_serial str_small)
  (then_small (on_small memdev_asset_tag str_small)
  (then_small (on_small memdev_part_number str_small)
  (then_small (on_small memdev_attributes (num_small U8 eq_refl))
  (then_small (on_small memdev_extended_size (num_small U32 eq_refl))
  (then_small (on_small memdev_configured_memory_speed (option_small (num_small U16 eq_refl)))
  (then_small (on_small memdev_minimum_voltage (option_small (num_small U16 eq_refl)))
  (then_small (on_small memdev_maximum_voltage (option_small (num_small U16 eq_refl)))
  (then_small (on_small memdev_configured_voltage (option_small (num_small U16 eq_refl)))
  (then_small (on_small memdev_memory_technology (option_small MemoryTechnology_small))
  (then_small (on_small memdev_operating_mode_capability (option_small (num_small U16 eq_refl)))
  (then_small (on_small memdev_firmware_version (option_small str_small))
  (then_small (on_small memdev_module_manufacturer (option_small (num_small U16 eq_refl)))
  (then_small (on_small memdev_module_product_id (option_small (num_small U16 eq_refl)))
  (then_small (on_small memdev_memory_subsystem_controller_manufacturer_id (option_small (num_small U16 eq_refl)))
  (then_small (on_small memdev_memory_subsystem_controller_product_id (option_small (num_small U16 eq_refl)))
  (then_small (on_small memdev_non_volatile_size (option_small (num_small U64 eq_refl)))
  (then_small (on_small memdev_volatile_size (option_small (num_small U64 eq_refl)))
  (then_small (on_small memdev_cache_size (option_small (num_small U64 eq_refl)))
  (then_small (on_small memdev_logical_size (option_small (num_small U64 eq_refl)))
  (then_small (on_small memdev_extended_speed (option_small (num_small U32 eq_refl)))
  (on_small memdev_extended_configured_memory_speed (option_small (num_small U32 eq_refl)))))))))))))))))))))))))))))))))))))). Qed.

Lemma MemoryError32_coh : coh MemoryError32_parts.
Proof. exact (then_coh (on_coh me_handle (num_coh U16))
  (then_coh (on_coh me_error_type MEErrorType_coh)
  (then_coh (on_coh me_error_granularity MEErrorGranularity_coh)
  (then_coh (on_coh me_error_operation MEErrorOperation_coh)
  (then_coh (on_coh me_vendor_syndrome (num_coh U32))
  (then_coh (on_coh me_memory_array_error_address (num_coh U32))
  (then_coh (on_coh me_device_error_address (num_coh U32))
  (on_coh me_error_resolution (num_coh U32))))))))). Qed.
Lemma MemoryError32_small : small MemoryError32_parts.
Proof. exact (then_small (on_small me_handle (num_small U16 eq_refl))
  (then_small (on_small me_error_type MEErrorType_small)
  (then_small (on_small me_error_granularity MEErrorGranularity_small)
  (then_small (on_small me_error_operation MEErrorOperation_small)
  (then_small (on_small me_vendor_syndrome (num_small U32 eq_refl))
  (then_small (on_small me_memory_array_error_address (num_small U32 eq_refl))
  (then_small (on_small me_device_error_address (num_small U32 eq_refl))
  (on_small me_error_resolution (num_small U32 eq_refl))))))))). Qed.

Lemma MemoryArrayMappedAddress_coh : coh MemoryArrayMappedAddress_parts.
Proof. exact (then_coh (on_coh ama_handle (num_coh U16))
  (then_coh (on_coh ama_starting_address (num_coh U32))
  (then_coh (on_coh ama_ending_address (num_coh U32))
  (then_coh (on_coh ama_memory_array_handle (num_coh U16))
  (then_coh (on_coh ama_partition_width (num_coh U8))
  (then_coh (on_coh ama_extended_starting_address (option_coh (num_coh U64)))
  (on_coh ama_extended_ending_address (option_coh (num_coh U64))))))))). Qed.
Lemma MemoryArrayMappedAddress_small : small MemoryArrayMappedAddress_parts.
Proof. exact (then_small (on_small ama_handle (num_small U16 eq_refl))
  (then_small (on_small ama_starting_address (num_small U32 eq_refl))
  (then_small (on_small ama_ending_address (num_small U32 eq_refl))
  (then_small (on_small ama_memory_array_handle (num_small U16 eq_refl))
  (then_small (on_small ama_partition_width (num_small U8 eq_refl))
  (then_small (on_small ama_extended_starting_address (option_small (num_small U64 eq_refl)))
  (on_small ama_extended_ending_address (option_small (num_small U64 eq_refl))))))))). Qed.

Lemma MemoryDeviceMappedAddress_coh : coh MemoryDeviceMappedAddress_parts.
Proof. exact (then_coh (on_coh dma_handle (num_coh U16))
  (then_coh (on_coh dma_starting_address (num_coh U32))
  (then_coh (on_coh dma_ending_address (num_coh U32))
  (then_coh (on_coh dma_memory_device_handle (num_coh U16))
  (then_coh (on_coh dma_memory_array_mapped_address_handle (num_coh U16))
  (then_coh (on_coh dma_partition_row_position (num_coh U8))
  (then_coh (on_coh dma_interleave_position (num_coh U8))
  (then_coh (on_coh dma_interleaved_data_depth (num_coh U8))
  (then_coh (on_coh dma_extended_starting_address (option_coh (num_coh U64)))
  (on_coh dma_extended_ending_address (option_coh (num_coh U64)))))))))))). Qed.
Lemma MemoryDeviceMappedAddress_small : small MemoryDeviceMappedAddress_parts.
Proof. exact (then_small (on_small dma_handle (num_small U16 eq_refl))
  (then_small (on_small dma_starting_address (num_small U32 eq_refl))
  (then_small (on_small dma_ending_address (num_small U32 eq_refl))
  (then_small (on_small dma_memory_device_handle (num_small U16 eq_refl))
  (then_small (on_small dma_memory_array_mapped_address_handle (num_small U16 eq_refl))
  (then_small (on_small dma_partition_row_position (num_small U8 eq_refl))
  (then_small (on_small dma_interleave_position (num_small U8 eq_refl))
  (then_small (on_small dma_interleaved_data_depth (num_small U8 eq_refl))
  (then_small (on_small dma_extended_starting_address (option_small (num_small U64 eq_refl)))
  (on_small dma_extended_ending_address (option_small (num_small U64 eq_refl)))))))))))). Qed.

Lemma BuiltInPointingDevice_coh : coh BuiltInPointingDevice_parts.
Proof. exact (then_coh (on_coh pd_handle (num_coh U16))
  (then_coh (on_coh pd_type PointingDeviceType_coh)
  (then_coh (on_coh pd_interface PointingDeviceInterface_coh)
  (on_coh pd_number_of_buttons (num_coh U8))))). Qed.
Lemma BuiltInPointingDevice_small : small BuiltInPointingDevice_parts.
Proof. exact (then_small (on_small pd_handle (num_small U16 eq_refl))
  (then_small (on_small pd_type PointingDeviceType_small)
  (then_small (on_small pd_interface PointingDeviceInterface_small)
  (on_small pd_number_of_buttons (num_small U8 eq_refl))))). Qed.

Lemma ManufactureDate_coh : coh ManufactureDate_parts.
Proof.
  intros a b l m H. destruct a, b; cbn [ManufactureDate_parts app]; (apply tag_coh; [reflexivity|reflexivity|intros E; try discriminate E]);
    rewrite <- ?app_assoc; repeat first [exact H|apply (num_coh U16)|apply (num_coh U8)|apply str_coh].
Qed.
Lemma ManufactureDate_small : small ManufactureDate_parts.
Proof. intros []; cbn [ManufactureDate_parts]; (constructor; [reflexivity|]); repeat first [apply Forall_app; split|apply (num_small U16 eq_refl)|apply (num_small U8 eq_refl)|apply str_small|constructor]. Qed.

Lemma SerialNumber_coh : coh SerialNumber_parts.
Proof.
  intros a b l m H. destruct a, b; cbn [SerialNumber_parts app]; (apply tag_coh; [reflexivity|reflexivity|intros E; try discriminate E]);
    rewrite <- ?app_assoc; repeat first [exact H|apply (num_coh U16)|apply str_coh].
Qed.
Lemma SerialNumber_small : small SerialNumber_parts.
Proof. intros []; cbn [SerialNumber_parts]; (constructor; [reflexivity|]); repeat first [apply Forall_app; split|apply (num_small U16 eq_refl)|apply str_small|constructor]. Qed.

Lemma DesignCapacity_coh : coh DesignCapacity_parts.
Proof.
  intros a b l m H. destruct a, b; cbn [DesignCapacity_parts app]; (apply tag_coh; [reflexivity|reflexivity|intros E; try discriminate E]);
    rewrite <- ?app_assoc; repeat first [exact H|apply (num_coh U16)|apply (num_coh U8)].
Qed.
Lemma DesignCapacity_small : small DesignCapacity_parts.
Proof. intros []; cbn [DesignCapacity_parts]; (constructor; [reflexivity|]); repeat first [apply Forall_app; split|apply (num_small U16 eq_refl)|apply (num_small U8 eq_refl)|constructor]. Qed.

Lemma DeviceChemistry_coh : coh DeviceChemistry_parts.
Proof.
  intros a b l m H. destruct a, b; cbn [DeviceChemistry_parts app]; (apply tag_coh; [reflexivity|reflexivity|intros E; try discriminate E]);
    rewrite <- ?app_assoc; repeat first [exact H|apply (num_coh U8)|apply str_coh].
Qed.
Lemma DeviceChemistry_small : small DeviceChemistry_parts.
Proof. intros []; cbn [DeviceChemistry_parts]; (constructor; [reflexivity|]); repeat first [apply Forall_app; split|apply (num_small U8 eq_refl)|apply str_small|constructor]. Qed.

Lemma PortableBattery_coh : coh PortableBattery_parts.
Proof. exact (then_coh (on_coh battery_handle (num_coh U16))
  (then_coh (on_coh battery_location str_coh)
  (then_coh (on_coh battery_manufacturer str_coh)
  (then_coh (on_coh battery_manufacture_date ManufactureDate_coh)
  (then_coh (on_coh battery_serial_number SerialNumber_coh)
  (then_coh (on_coh battery_device_name str_coh)
  (then_coh (on_coh battery_device_chemistry DeviceChemistry_coh)
  (then_coh (on_coh battery_design_capacity DesignCapacity_coh)
  (then_coh (on_coh battery_design_voltage (num_coh U16))
  (then_coh (on_coh battery_sbds_version_number str_coh)
  (then_coh (on_coh battery_maximum_error_in_battery_data (num_coh U8))
  (on_coh battery_oem_specific (option_coh (num_coh U32)))))))))))))). Qed.
Lemma PortableBattery_small : small PortableBattery_parts.
Proof. exact (then_small (on_small battery_handle (num_small U16 eq_refl))
  (then_small (on_small battery_location str_small)
  (then_small (on_small battery_manufacturer str_small)
  (then_small (on_small battery_manufacture_date ManufactureDate_small)
  (then_small (on_small battery_serial_number SerialNumber_small)
  (then_small (on_small battery_device_name str_small)
  (then_small (on_small battery_device_chemistry DeviceChemistry_small)
  (then_small (on_small battery_design_capacity DesignCapacity_small)
  (then_small (on_small battery_design_voltage (num_small U16 eq_refl))
  (then_small (on_small battery_sbds_version_number str_small)
  (then_small (on_small battery_maximum_error_in_battery_data (num_small U8 eq_refl))
  (on_small battery_oem_specific (option_small (num_small U32 eq_refl)))))))))))))). Qed.

Lemma Structure_coh : coh Structure_parts.
Proof.
  intros a b l m H. destruct a, b; cbn [Structure_parts app]; (apply tag_coh; [reflexivity|reflexivity|intros E; try discriminate E]);
    rewrite <- ?app_assoc; repeat first [exact H|apply BaseBoard_coh|apply BiosLanguage_coh|apply Bios_coh|apply BuiltInPointingDevice_coh|apply Cache_coh|apply Enclosure_coh|apply GroupAssociations_coh|apply MemoryArrayMappedAddress_coh|apply MemoryDeviceMappedAddress_coh|apply MemoryDevice_coh|apply MemoryError32_coh|apply OemStrings_coh|apply PhysicalMemoryArray_coh|apply PortConnector_coh|apply PortableBattery_coh|apply Processor_coh|apply RawStructure_coh|apply SystemConfigurationOptions_coh|apply SystemEventLog_coh|apply SystemSlots_coh|apply System_coh].
Qed.

Lemma Structures_coh : coh Structures_parts.
Proof. exact (then_coh (on_coh smbios_version SmbiosVersion_coh)
  (then_coh (on_coh smbios_len_ (num_coh U32))
  (then_coh (on_coh idx (num_coh U32))
  (on_coh buffer slice_coh)))). Qed.

Lemma EntryPointV2_coh : coh EntryPointV2_parts.
Proof. exact (then_coh (on_coh v2_signature (num_coh U32))
  (then_coh (on_coh v2_checksum (num_coh U8))
  (then_coh (on_coh v2_len (num_coh U8))
  (then_coh (on_coh v2_major (num_coh U8))
  (then_coh (on_coh v2_minor (num_coh U8))
  (then_coh (on_coh v2_struct_max (num_coh U16))
  (then_coh (on_coh v2_revision (num_coh U8))
  (then_coh (on_coh v2_formatted slice_coh)
  (then_coh (on_coh v2_dmi_signature slice_coh)
  (then_coh (on_coh v2_dmi_checksum (num_coh U8))
  (then_coh (on_coh v2_smbios_len (num_coh U16))
  (then_coh (on_coh v2_smbios_address (num_coh U32))
  (then_coh (on_coh v2_smbios_count (num_coh U16))
  (on_coh v2_bcd_revision (num_coh U8))))))))))))))). Qed.

Lemma EntryPointV3_coh : coh EntryPointV3_parts.
Proof. exact (then_coh (on_coh v3_signature slice_coh)
  (then_coh (on_coh v3_checksum (num_coh U8))
  (then_coh (on_coh v3_len (num_coh U8))
  (then_coh (on_coh v3_major (num_coh U8))
  (then_coh (on_coh v3_minor (num_coh U8))
  (then_coh (on_coh v3_docrev (num_coh U8))
  (then_coh (on_coh v3_revision (num_coh U8))
  (then_coh (on_coh v3_reserved (num_coh U8))
  (then_coh (on_coh v3_smbios_len_max (num_coh U32))
  (on_coh v3_smbios_address (num_coh U64))))))))))). Qed.

Lemma EntryPoint_coh : coh EntryPoint_parts.
Proof.
  intros a b l m H. destruct a, b; cbn [EntryPoint_parts app]; (apply tag_coh; [reflexivity|reflexivity|intros E; try discriminate E]);
    rewrite <- ?app_assoc; repeat first [exact H|apply EntryPointV2_coh|apply EntryPointV3_coh].
Qed.

