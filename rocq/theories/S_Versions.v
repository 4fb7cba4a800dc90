(* What a newer announced version may change in the result of decoding the same bytes. *)
From Verif Require Import Base G_Enums M_Raw M_Bios M_System M_Processor M_Cache M_Strings M_PhysicalMemoryArray M_Iter.
From Verif Require Import Spec S_Iter.
Local Open Scope N_scope.

(* the same structure, found in a table that announces version v *)
Definition at_version (v : SmbiosVersion) (r : RawStructure) : RawStructure := {|
  version := v; info := info r; length_ := length_ r; handle := handle r;
  data := data r; strings := strings r; after := after r |}.

Definition no_later (v w : SmbiosVersion) : Prop :=
  major v < major w \/ (major v = major w /\ minor v <= minor w).

(* a.b was introduced between v and w *)
Definition between (v w : SmbiosVersion) (a b : N) : Prop := before_version v a b /\ from_version w a b.

(* an optional value that is there stays there and stays the same *)
Definition kept {A} (o o' : option A) : Prop := forall x, o = Some x -> o' = Some x.

Record Bios_grows (x y : Bios) : Prop := {
  _ : bios_handle x = bios_handle y;
  _ : bios_vendor x = bios_vendor y;
  _ : bios_bios_version x = bios_bios_version y;
  _ : bios_starting_address_segment x = bios_starting_address_segment y;
  _ : bios_release_date x = bios_release_date y;
  _ : basic (bios_rom_size x) = basic (bios_rom_size y);
  _ : kept (extended (bios_rom_size x)) (extended (bios_rom_size y));
  _ : bios_characteristics x = bios_characteristics y;
  _ : kept (bios_characteristics_extension_1 x) (bios_characteristics_extension_1 y);
  _ : kept (bios_characteristics_extension_2 x) (bios_characteristics_extension_2 y);
  _ : kept (bios_revision x) (bios_revision y);
  _ : kept (bios_firmware_revision x) (bios_firmware_revision y)
}.

(* the first three parts of a UUID reversed *)
Definition reordered (u u' : list N) : Prop :=
  exists b0 b1 b2 b3 b4 b5 b6 b7 rest,
    u = b0 :: b1 :: b2 :: b3 :: b4 :: b5 :: b6 :: b7 :: rest /\ len rest = 8 /\
    u' = b3 :: b2 :: b1 :: b0 :: b5 :: b4 :: b7 :: b6 :: rest.

(* 2.6 changed the byte order of the UUID *)
Record System_grows (v w : SmbiosVersion) (x y : System) : Prop := {
  _ : system_handle x = system_handle y;
  _ : system_manufacturer x = system_manufacturer y;
  _ : system_product x = system_product y;
  _ : system_version x = system_version y;
  _ : system_serial x = system_serial y;
  _ : ~ between v w 2 6 -> kept (system_uuid x) (system_uuid y);
  _ : between v w 2 6 -> forall u, system_uuid x = Some u -> exists u', system_uuid y = Some u' /\ reordered u u';
  _ : kept (system_wakeup x) (system_wakeup y);
  _ : kept (system_sku x) (system_sku y);
  _ : kept (system_family x) (system_family y)
}.

(* 3.0 gave the count 255 the meaning "see the wider field" *)
Definition count_grows (v w : SmbiosVersion) (o o' : option N) : Prop :=
  kept o o' \/ (between v w 3 0 /\ o = Some 255 /\ exists n, o' = Some n).

(* 2.6 gave the family FEh the meaning "see the wider field" *)
Record Processor_grows (v w : SmbiosVersion) (x y : Processor) : Prop := {
  _ : processor_handle x = processor_handle y;
  _ : processor_socket_designation x = processor_socket_designation y;
  _ : processor_processor_type x = processor_processor_type y;
  _ : processor_processor_family x = processor_processor_family y \/
      (between v w 2 6 /\ processor_processor_family x = ProcessorFamily_ProcessorFamily2);
  _ : processor_processor_manufacturer x = processor_processor_manufacturer y;
  _ : processor_processor_id x = processor_processor_id y;
  _ : processor_processor_version x = processor_processor_version y;
  _ : processor_voltage x = processor_voltage y;
  _ : processor_external_clock x = processor_external_clock y;
  _ : processor_max_speed x = processor_max_speed y;
  _ : processor_current_speed x = processor_current_speed y;
  _ : processor_status x = processor_status y;
  _ : processor_processor_upgrade x = processor_processor_upgrade y;
  _ : kept (processor_l1_cache_handle x) (processor_l1_cache_handle y);
  _ : kept (processor_l2_cache_handle x) (processor_l2_cache_handle y);
  _ : kept (processor_l3_cache_handle x) (processor_l3_cache_handle y);
  _ : kept (processor_serial_number x) (processor_serial_number y);
  _ : kept (processor_asset_tag x) (processor_asset_tag y);
  _ : kept (processor_part_number x) (processor_part_number y);
  _ : count_grows v w (processor_core_count x) (processor_core_count y);
  _ : count_grows v w (processor_core_enabled x) (processor_core_enabled y);
  _ : count_grows v w (processor_thread_count x) (processor_thread_count y);
  _ : kept (processor_processor_characteristics x) (processor_processor_characteristics y)
}.

Record Cache_grows (x y : Cache) : Prop := {
  _ : cache_handle x = cache_handle y;
  _ : cache_socket_designation x = cache_socket_designation y;
  _ : cache_cache_configuration x = cache_cache_configuration y;
  _ : cache_maximum_cache_size x = cache_maximum_cache_size y;
  _ : cache_installed_size x = cache_installed_size y;
  _ : cache_supported_sram_type x = cache_supported_sram_type y;
  _ : cache_current_sram_type x = cache_current_sram_type y;
  _ : kept (cache_cache_speed x) (cache_cache_speed y);
  _ : kept (cache_error_correction_type x) (cache_error_correction_type y);
  _ : kept (cache_system_cache_type x) (cache_system_cache_type y);
  _ : kept (cache_associativity x) (cache_associativity y);
  _ : kept (cache_maximum_cache_size_2 x) (cache_maximum_cache_size_2 y);
  _ : kept (cache_installed_size_2 x) (cache_installed_size_2 y)
}.

(* the decoder looks for the current language elsewhere before 2.1 *)
Record BiosLanguage_grows (v w : SmbiosVersion) (x y : BiosLanguage) : Prop := {
  _ : language_handle x = language_handle y;
  _ : kept (language_flags x) (language_flags y);
  _ : ~ between v w 2 1 -> language_current_language x = language_current_language y;
  _ : il_index (language_installable_languages x) = il_index (language_installable_languages y);
  _ : il_structure (language_installable_languages y) = at_version w (il_structure (language_installable_languages x))
}.

(* before 2.2 nothing is decoded *)
Record PhysicalMemoryArray_grows (x y : PhysicalMemoryArray) : Prop := {
  _ : array_handle x = array_handle y;
  _ : array_location x = array_location y;
  _ : array_use x = array_use y;
  _ : array_memory_error_correction x = array_memory_error_correction y;
  _ : array_maximum_capacity x = array_maximum_capacity y;
  _ : array_memory_error_information_handle x = array_memory_error_information_handle y;
  _ : array_number_of_memory_devices x = array_number_of_memory_devices y;
  _ : kept (array_extended_maximum_capacity x) (array_extended_maximum_capacity y)
}.

(* everything else does not depend on the version (a structure of an undecoded type
   carries the version of its table) *)
Definition grows (v w : SmbiosVersion) (x y : Structure) : Prop :=
  match x, y with
  | SBios a, SBios b => Bios_grows a b
  | SSystem a, SSystem b => System_grows v w a b
  | SProcessor a, SProcessor b => Processor_grows v w a b
  | SCache a, SCache b => Cache_grows a b
  | SBiosLanguage a, SBiosLanguage b => BiosLanguage_grows v w a b
  | SPhysicalMemoryArray a, SPhysicalMemoryArray b => between v w 2 2 \/ PhysicalMemoryArray_grows a b
  | SOther a, SOther b => b = at_version w a
  | _, _ => x = y
  end.

(* the same iterator, over a table that announces version v *)
Definition announcing (v : SmbiosVersion) (s : Structures) : Structures :=
  {| smbios_version := v; smbios_len_ := smbios_len_ s; idx := idx s; buffer := buffer s |}.

(* two answers of the iterators over the same bytes.  Errors in the framing do not
   depend on the version; a structure that is refused in one version may be accepted
   in the other. *)
Definition item_grows (v w : SmbiosVersion) (x y : res Structure) : Prop :=
  match x, y with
  | Ok a, Ok b => grows v w a b
  | Err e, _ => framing_error e -> y = Err e
  | _, Err e => ~ framing_error e
  end.
