(* What the decoders of types 4, 7, 8 and 9 are to return (SMBIOS 7.5, 7.8 to 7.10). *)
From Coq Require Import String.
From Verif Require Import Base G_Enums M_Raw M_Processor M_Cache M_PortConnector M_SystemSlots Spec S_Enums S_Decode.
Local Open Scope N_scope.

(* ------------------------------------------------------- type 4, processor *)

Definition Processor_area (v : SmbiosVersion) : N :=
  if since v 3 0 then 44 else if since v 2 6 then 38 else if since v 2 5 then 36
  else if since v 2 3 then 31 else if since v 2 1 then 28 else 22.

(* 7.5.4: bit 7 set: bits 6:0 are ten times the voltage; else bits 2:0 are legacy
   voltage flags, and bits 6:3 are reserved (zero) *)
Definition voltage_means (k : N) : Voltage :=
  if 128 <=? k then Voltage_Current (k - 128) else if k <? 8 then Voltage_Legacy k else Voltage_Undefined k.

(* 7.5.2: from 2.6 on, family FEh refers to the Processor Family 2 field *)
Definition family_field (r : RawStructure) (x : ProcessorFamily) : Prop :=
  exists k, field_is r 0x06 1 k /\
    (before_version (version r) 2 6 \/ k <> 0xFE -> x = meaning ProcessorFamily_codes ProcessorFamily_other k) /\
    (from_version (version r) 2 6 -> k = 0xFE -> code_field r 0x28 2 ProcessorFamily_codes ProcessorFamily_other x).

(* 7.5.6: from 3.0 on, a count of FFh refers to the 16-bit field *)
Definition count_field (r : RawStructure) (offset offset2 : N) (x : N) : Prop :=
  exists k, field_is r offset 1 k /\
    (before_version (version r) 3 0 \/ k <> 0xFF -> x = k) /\
    (from_version (version r) 3 0 -> k = 0xFF -> field_is r offset2 2 x).

Record Processor_says (r : RawStructure) (s : Processor) : Prop := {
  _ : processor_handle s = handle r;
  _ : text_field r 0x04 (processor_socket_designation s);
  _ : code_field r 0x05 1 ProcessorType_codes ProcessorType_Undefined (processor_processor_type s);
  _ : family_field r (processor_processor_family s);
  _ : text_field r 0x07 (processor_processor_manufacturer s);
  _ : field_is r 0x08 8 (processor_processor_id s);
  _ : text_field r 0x10 (processor_processor_version s);
  _ : mapped_field r 0x11 1 voltage_means (processor_voltage s);
  _ : field_is r 0x12 2 (processor_external_clock s);
  _ : field_is r 0x14 2 (processor_max_speed s);
  _ : field_is r 0x16 2 (processor_current_speed s);
  _ : flags_field r 0x18 1 [0; 1; 2; 6] (processor_status s);
  _ : code_field r 0x19 1 ProcessorUpgrade_codes ProcessorUpgrade_Undefined (processor_processor_upgrade s);
  _ : when (from_version (version r) 2 1) (field_is r 0x1A 2) (processor_l1_cache_handle s);
  _ : when (from_version (version r) 2 1) (field_is r 0x1C 2) (processor_l2_cache_handle s);
  _ : when (from_version (version r) 2 1) (field_is r 0x1E 2) (processor_l3_cache_handle s);
  _ : when (from_version (version r) 2 3) (text_field r 0x20) (processor_serial_number s);
  _ : when (from_version (version r) 2 3) (text_field r 0x21) (processor_asset_tag s);
  _ : when (from_version (version r) 2 3) (text_field r 0x22) (processor_part_number s);
  _ : when (from_version (version r) 2 5) (count_field r 0x23 0x2A) (processor_core_count s);
  _ : when (from_version (version r) 2 5) (count_field r 0x24 0x2C) (processor_core_enabled s);
  _ : when (from_version (version r) 2 5) (count_field r 0x25 0x2E) (processor_thread_count s);
  (* the standard has this field from 2.5 on, see C27_characteristics_2_5_refuted, and a
     meaning for bit 8, see C76_128_bit_refuted *)
  _ : when (from_version (version r) 2 6) (flags_field r 0x26 2 [0; 1; 2; 3; 4; 5; 6; 7; 9]) (processor_processor_characteristics s)
}.

Definition Processor_texts (v : SmbiosVersion) : list N :=
  [0x04; 0x07; 0x10] ++ (if since v 2 3 then [0x20; 0x21; 0x22] else []).

(* ----------------------------------------------------------- type 7, cache *)

(* 7.8: cache configuration word *)
Definition configuration_means (w : N) (x : CacheConfiguration) : Prop :=
  named CacheLevel_codes (w mod 8) = Some (level x) /\
  socketed x = N.testbit w 3 /\
  named CacheLocation_codes (w / 32 mod 4) = Some (location x) /\
  enabled_at_boot_time x = N.testbit w 7 /\
  named CacheOperationalMode_codes (w / 256 mod 4) = Some (operational_mode x).

(* 7.8: bit 15 (31) selects the granularity *)
Definition size_means (w : N) : CacheSize := if w <? 0x8000 then Granularity1K w else Granularity64K (w - 0x8000).
Definition size2_means (w : N) : CacheSize2 :=
  if w <? 0x80000000 then Granularity1K_2 w else Granularity64K_2 (w - 0x80000000).

(* The versions are those of the crate; the standard introduces the fields one minor
   version earlier each, see C28_*_refuted. *)
Definition Cache_area (v : SmbiosVersion) : N := if since v 3 2 then 23 else if since v 2 2 then 15 else 11.

Record Cache_says (r : RawStructure) (s : Cache) : Prop := {
  _ : cache_handle s = handle r;
  _ : text_field r 0x04 (cache_socket_designation s);
  _ : exists w, field_is r 0x05 2 w /\ configuration_means w (cache_cache_configuration s);
  _ : mapped_field r 0x07 2 size_means (cache_maximum_cache_size s);
  _ : mapped_field r 0x09 2 size_means (cache_installed_size s);
  _ : flags_field r 0x0B 2 [0; 1; 2; 3; 4; 5; 6] (cache_supported_sram_type s);
  _ : flags_field r 0x0D 2 [0; 1; 2; 3; 4; 5; 6] (cache_current_sram_type s);
  _ : when (from_version (version r) 2 2) (field_is r 0x0F 1) (cache_cache_speed s);
  _ : when (from_version (version r) 2 2)
        (code_field r 0x10 1 CacheErrorCorrectionType_codes CacheErrorCorrectionType_Undefined) (cache_error_correction_type s);
  _ : when (from_version (version r) 2 2) (code_field r 0x11 1 SystemCacheType_codes SystemCacheType_Undefined) (cache_system_cache_type s);
  _ : when (from_version (version r) 2 2) (code_field r 0x12 1 CacheAssociativity_codes CacheAssociativity_Undefined) (cache_associativity s);
  _ : when (from_version (version r) 3 2) (mapped_field r 0x13 4 size2_means) (cache_maximum_cache_size_2 s);
  _ : when (from_version (version r) 3 2) (mapped_field r 0x17 4 size2_means) (cache_installed_size_2 s)
}.

(* -------------------------------------------------- type 8, port connector *)

Record PortConnector_says (r : RawStructure) (s : PortConnector) : Prop := {
  _ : port_handle s = handle r;
  _ : text_field r 0x04 (port_internal_reference_designator s);
  _ : code_field r 0x05 1 ConnectorType_codes ConnectorType_Undefined (port_internal_connector_type s);
  _ : text_field r 0x06 (port_external_reference_designator s);
  _ : code_field r 0x07 1 ConnectorType_codes ConnectorType_Undefined (port_external_connector_type s);
  _ : code_field r 0x08 1 PortType_codes PortType_Undefined (port_port_type s)
}.

(* --------------------------------------------------- type 9, system slots *)

(* 7.10: the length of the structure (with its header) follows from the version *)
Definition SystemSlots_length (v : SmbiosVersion) : length_rule :=
  if since v 3 2 then AtLeast 0x11 else if since v 2 6 then Exactly 0x11 else if since v 2 1 then Exactly 0x0D
  else if since v 2 0 then Exactly 0x0C else Any.

(* 7.10: bits 7:3 device number, bits 2:0 function number *)
Definition function_means (k : N) : DeviceAndFunctionNumber := {| dev := k / 8; fun_ := k mod 8 |}.

(* 7.10.9: a peer group of five bytes *)
Definition device_means (rec : list N) (d : Device) : Prop :=
  exists s0 s1 b f w, rec = [s0; s1; b; f; w] /\
    d = {| device_segment_group_number := s0 + 256 * s1; device_bus_number := b;
           device_device_and_function_number := function_means f; device_data_bus_width := w |}.

(* the number of peer groups: the byte at 12h, no groups if it is not there *)
Definition peer_count (r : RawStructure) : N := match field r 0x12 1 with Some n => n | None => 0 end.

Record SystemSlots_says (r : RawStructure) (s : SystemSlots) : Prop := {
  _ : slots_handle s = handle r;
  _ : text_field r 0x04 (slots_slot_designation s);
  _ : code_field r 0x05 1 SlotType_codes_here SlotType_Undefined (slots_slot_type s);
  _ : code_field r 0x06 1 SlotWidth_codes SlotWidth_Undefined (slots_slot_data_bus_width s);
  _ : code_field r 0x07 1 CurrentUsage_codes CurrentUsage_Undefined (slots_current_usage s);
  _ : code_field r 0x08 1 SlotLength_codes SlotLength_Undefined (slots_slot_length s);
  _ : field_is r 0x09 2 (slots_slot_id s);
  _ : field_is r 0x0B 1 (slots_slot_characteristics_1 s);
  _ : if_there r 0x0C 1 (slots_slot_characteristics_2 s);
  _ : if_there_but r 0x0D 2 0xFFFF (slots_segment_group_number s);
  _ : if_there_but r 0x0F 1 0xFF (slots_bus_number s);
  _ : exists o, if_there_but r 0x10 1 0xFF o /\ slots_device_and_function_number s = option_map function_means o;
  _ : if_there r 0x11 1 (slots_data_bus_width s);
  _ : bytes_if_there r 0x13 (5 * peer_count r) (option_map peer_chunks (slots_peer_devices s));
  (* one byte lies between the last peer group and these three, see C30_gap *)
  _ : if_there r (0x14 + 5 * peer_count r) 1 (slots_slot_information s);
  _ : code_if_there r (0x15 + 5 * peer_count r) 1 SlotWidth_codes SlotWidth_Undefined (slots_slot_physical_width s);
  _ : if_there r (0x16 + 5 * peer_count r) 2 (slots_slot_pitch s)
}.

Definition SystemSlots_needs : list need :=
  [Text 0x04; Num 0x05 1; Num 0x06 1; Num 0x07 1; Num 0x08 1; Num 0x09 2; Num 0x0B 1].
