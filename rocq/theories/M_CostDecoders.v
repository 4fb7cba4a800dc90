(* The decoders of /repo/src/structures with the steps of their string lookups counted (M_Cost.v).
   Written by tools/gen_cost.py from the decoders of the same name with _try_from; L_CostDecoders.v
   proves that they return the same. Other work of a decoder does not depend on the size of the
   structure, except for copying a list of at most 255 bytes. *)
From Coq Require Import String.
From Verif Require Import Base G_Enums M_Raw M_Bios M_System M_BaseBoard M_Enclosure M_Processor M_Cache
  M_PortConnector M_SystemSlots M_Strings M_GroupAssociations M_SystemEventLog M_PhysicalMemoryArray M_MemoryDevice
  M_Memory M_PortableBattery M_Iter M_Cost.
Local Open Scope N_scope.

(* an outcome with the steps taken *)
Definition counted (A : Type) : Type := (out A * N)%type.
Definition free {A} (m : out A) : counted A := (m, 0).
Definition pay_bind {A B} (m : counted A) (k : A -> counted B) : counted B :=
  match fst m with
  | Val a => let x := k a in (fst x, snd m + snd x)
  | Panic => (Panic, snd m)
  | UB => (UB, snd m)
  end.
Definition pay_rbind {E A B} (m : counted (result E A)) (k : A -> counted (result E B)) : counted (result E B) :=
  pay_bind m (fun x => match x with Ok a => k a | Err e => free (Val (Err e)) end).
Definition pay_map {A B} (f : A -> B) (m : counted A) : counted B := (omap f (fst m), snd m).
Notation "'pay!' x ':=' e 'in' k" := (pay_bind e (fun x => k)) (at level 200, x name, e at level 200, k at level 200).
Notation "'pay?' x ':=' e 'in' k" := (pay_rbind e (fun x => k)) (at level 200, x name, e at level 200, k at level 200).
Notation "'free!' x ':=' e 'in' k" := (pay_bind (free e) (fun x => k)) (at level 200, x name, e at level 200, k at level 200).
Notation "'free?' x ':=' e 'in' k" := (pay_rbind (free e) (fun x => k)) (at level 200, x name, e at level 200, k at level 200).

(* lib.rs:623-631 `find_string` *)
Definition look (r : RawStructure) (i : N) : counted (res text) :=
  let (t, k) := find_string_counted r i in (Val t, k).
(* `if cond { Some(find_string(i)?) } else { None }` *)
Definition look_if (b : bool) (r : RawStructure) (i : N) : counted (res (option text)) :=
  if b then pay_map (rmap Some) (look r i) else free (Val (Ok None)).
(* lib.rs:655-657 `get_string` *)
Definition look_at (c : cfg) (offset : N) (r : RawStructure) : counted (res text) :=
  free? i := get c 1 offset r in look r i.
(* `get_string(offset).ok()` *)
Definition look_at_ok (c : cfg) (offset : N) (r : RawStructure) : counted (option text) :=
  pay_map ok (look_at c offset r).
(* 022_portable_battery.rs:112-116 and 120-124 *)
Definition basic_counted (c : cfg) (offset : N) (r : RawStructure) : counted (option text) :=
  free! i := get_ok c 1 offset r in
  match ofilter (fun i => negb (i =? 0)) i with
  | Some i => pay_map ok (look r i)
  | None => free (Val None)
  end.
(* `strings().count()` *)
Fixpoint collect_counted (fuel : nat) (s : StructureStrings) : option (list text) * N :=
  match fuel with
  | O => (None, 0)
  | S f => match strings_next_counted s with
           | ((Some t, s'), k) => let (o, k') := collect_counted f s' in (option_map (cons t) o, k + k')
           | ((None, _), k) => (Some [], k)
           end
  end.
Definition count_counted (r : RawStructure) : counted N :=
  let (o, k) := collect_counted (S (length (strings r))) (raw_strings r) in
  (match o with Some l => Val (len l) | None => UB end, k).

(* 000_bios.rs:80-208 `Bios::try_from`.  The packed layouts have 22, 20 and 14 bytes. *)
Definition Bios_counted (c : cfg) (r : RawStructure) : counted (res Bios) :=
  if version_ge (version r) (version_of 3 1) then
    free! p := read_packed c 22 r in
    pay? vendor := look r (at_ 0 1 p) in
    pay? bios_version := look r (at_ 1 1 p) in
    pay? release_date := look r (at_ 4 1 p) in
    free (Val (Ok {|
      bios_handle := handle r;
      bios_vendor := vendor;
      bios_bios_version := bios_version;
      bios_starting_address_segment := at_ 2 2 p;
      bios_release_date := release_date;
      bios_rom_size := {| basic := at_ 5 1 p; extended := Some (at_ 20 2 p) |};
      bios_characteristics := at_ 6 8 p;
      bios_characteristics_extension_1 := Some (at_ 14 1 p);
      bios_characteristics_extension_2 := Some (at_ 15 1 p);
      bios_revision := Some {| rev_major := at_ 16 1 p; rev_minor := at_ 17 1 p |};
      bios_firmware_revision := Some {| rev_major := at_ 18 1 p; rev_minor := at_ 19 1 p |}
    |}))
  else if version_ge (version r) (version_of 2 4) then
    free! p := read_packed c 20 r in
    pay? vendor := look r (at_ 0 1 p) in
    pay? bios_version := look r (at_ 1 1 p) in
    pay? release_date := look r (at_ 4 1 p) in
    free (Val (Ok {|
      bios_handle := handle r;
      bios_vendor := vendor;
      bios_bios_version := bios_version;
      bios_starting_address_segment := at_ 2 2 p;
      bios_release_date := release_date;
      bios_rom_size := {| basic := at_ 5 1 p; extended := None |};
      bios_characteristics := at_ 6 8 p;
      bios_characteristics_extension_1 := Some (at_ 14 1 p);
      bios_characteristics_extension_2 := Some (at_ 15 1 p);
      bios_revision := Some {| rev_major := at_ 16 1 p; rev_minor := at_ 17 1 p |};
      bios_firmware_revision := Some {| rev_major := at_ 18 1 p; rev_minor := at_ 19 1 p |}
    |}))
  else
    free! p := read_packed c 14 r in
    pay? vendor := look r (at_ 0 1 p) in
    pay? bios_version := look r (at_ 1 1 p) in
    pay? release_date := look r (at_ 4 1 p) in
    free (Val (Ok {|
      bios_handle := handle r;
      bios_vendor := vendor;
      bios_bios_version := bios_version;
      bios_starting_address_segment := at_ 2 2 p;
      bios_release_date := release_date;
      bios_rom_size := {| basic := at_ 5 1 p; extended := None |};
      bios_characteristics := at_ 6 8 p;
      bios_characteristics_extension_1 := None;
      bios_characteristics_extension_2 := None;
      bios_revision := None;
      bios_firmware_revision := None
    |})).

(* 001_system.rs:60-154 `System::try_from`; packed layouts of 4, 21 and 23 bytes *)
Definition System_counted (c : cfg) (r : RawStructure) : counted (res System) :=
  if version_lt (version r) (version_of 2 1) then
    free! p := read_packed c 4 r in
    pay? manufacturer := look r (at_ 0 1 p) in
    pay? product := look r (at_ 1 1 p) in
    pay? version_ := look r (at_ 2 1 p) in
    pay? serial := look r (at_ 3 1 p) in
    free (Val (Ok {|
      system_handle := handle r;
      system_manufacturer := manufacturer;
      system_product := product;
      system_version := version_;
      system_serial := serial;
      system_uuid := None;
      system_wakeup := None;
      system_sku := None;
      system_family := None
    |}))
  else if version_lt (version r) (version_of 2 4) then
    free! p := read_packed c 21 r in
    pay? manufacturer := look r (at_ 0 1 p) in
    pay? product := look r (at_ 1 1 p) in
    pay? version_ := look r (at_ 2 1 p) in
    pay? serial := look r (at_ 3 1 p) in
    free (Val (Ok {|
      system_handle := handle r;
      system_manufacturer := manufacturer;
      system_product := product;
      system_version := version_;
      system_serial := serial;
      system_uuid := Some (decode_by_smbios_version (take 16 (drop 4 p)) (version r));
      system_wakeup := Some (WakeupType_from (at_ 20 1 p));
      system_sku := None;
      system_family := None
    |}))
  else
    free! p := read_packed c 23 r in
    pay? manufacturer := look r (at_ 0 1 p) in
    pay? product := look r (at_ 1 1 p) in
    pay? version_ := look r (at_ 2 1 p) in
    pay? serial := look r (at_ 3 1 p) in
    pay? sku := look r (at_ 21 1 p) in
    pay? family := look r (at_ 22 1 p) in
    free (Val (Ok {|
      system_handle := handle r;
      system_manufacturer := manufacturer;
      system_product := product;
      system_version := version_;
      system_serial := serial;
      system_uuid := Some (decode_by_smbios_version (take 16 (drop 4 p)) (version r));
      system_wakeup := Some (WakeupType_from (at_ 20 1 p));
      system_sku := Some sku;
      system_family := Some family
    |})).

(* 002_baseboard.rs:104-161 `BaseBoard::try_from`; packed layout of 10 bytes *)
Definition BaseBoard_counted (c : cfg) (r : RawStructure) : counted (res BaseBoard) :=
  free! p := read_packed c 10 r in
  pay? asset := look_if (4 <? len (data r)) r (at_ 4 1 p) in
  let feature_flags := if 5 <? len (data r) then Some (BaseBoardFlags_truncate (at_ 5 1 p)) else None in
  pay? location := look_if (6 <? len (data r)) r (at_ 6 1 p) in
  let chassis_handle := if 7 <? len (data r) then Some (at_ 7 2 p) else None in
  let board_type := if 9 <? len (data r) then Some (BoardType_from (at_ 9 1 p)) else None in
  pay? manufacturer := look r (at_ 0 1 p) in
  pay? product := look r (at_ 1 1 p) in
  pay? version_ := look r (at_ 2 1 p) in
  pay? serial := look r (at_ 3 1 p) in
  free (Val (Ok {|
    baseboard_handle := handle r;
    baseboard_manufacturer := manufacturer;
    baseboard_product := product;
    baseboard_version := version_;
    baseboard_serial := serial;
    baseboard_asset := asset;
    baseboard_feature_flags := feature_flags;
    baseboard_location_in_chassis := location;
    baseboard_chassis_handle := chassis_handle;
    baseboard_board_type := board_type
  |})).

(* 003_enclosure.rs:164-270 `Enclosure::try_from`.  The and_then chain stores each
   field when it is reached; here each step is a value depending on the previous one. *)
Definition Enclosure_counted (c : cfg) (r : RawStructure) : counted (res Enclosure) :=
  if len (data r) <? 5 then
    free (Val (Err (InvalidFormattedSectionLength (info r) (handle r) "minimum of " 5)))
  else
  let p := take 5 (data r) in
  let extra := drop 5 (data r) in
  let type_byte := at_ 1 1 p in
  pay? manufacturer := look r (at_ 0 1 p) in
  pay? version_ := look r (at_ 2 1 p) in
  pay? serial_number := look r (at_ 3 1 p) in
  pay? asset_tag_number := look r (at_ 4 1 p) in
  let boot_up_state := read_bytes 1 extra in
  let power_supply_state := oand_then boot_up_state (fun '(_, d) => read_bytes 1 d) in
  let thermal_state := oand_then power_supply_state (fun '(_, d) => read_bytes 1 d) in
  let security_status := oand_then thermal_state (fun '(_, d) => read_bytes 1 d) in
  let oem_defined := oand_then security_status (fun '(_, d) => read_bytes 4 d) in
  let height := oand_then oem_defined (fun '(_, d) => read_bytes 1 d) in
  let power_cords := oand_then height (fun '(_, d) => read_bytes 1 d) in
  free! contained := match power_cords with
                    | Some (_, d) => ContainedElements_new c d (after r)
                    | None => Val None
                    end in
  let sku := oand_then contained (fun '(_, d) => read_bytes 1 d) in
  pay? sku_number := match sku with
                     | Some (n, _) => pay_map (rmap Some) (look r n)
                     | None => free (Val (Ok None))
                     end in
  free (Val (Ok {|
    enclosure_handle := handle r;
    enclosure_manufacturer := manufacturer;
    enclosure_chassis_lock := negb (N.land type_byte 0x80 =? 0);
    enclosure_enclosure_type := EnclosureType_from (N.land type_byte 0x7F);
    enclosure_version := version_;
    enclosure_serial_number := serial_number;
    enclosure_asset_tag_number := asset_tag_number;
    enclosure_boot_up_state := option_map (fun x => State_from (fst x)) boot_up_state;
    enclosure_power_supply_state := option_map (fun x => State_from (fst x)) power_supply_state;
    enclosure_thermal_state := option_map (fun x => State_from (fst x)) thermal_state;
    enclosure_security_status := option_map (fun x => SecurityStatus_from (fst x)) security_status;
    enclosure_oem_defined := option_map fst oem_defined;
    enclosure_height := option_map fst height;
    enclosure_power_cords_number := option_map fst power_cords;
    enclosure_contained_elements := option_map fst contained;
    enclosure_sku_number := sku_number
  |})).

(* 004_processor.rs:471-822 `Processor::try_from`; packed layouts of 22, 28, 31, 36,
   38 and 44 bytes *)
Definition Processor_counted (c : cfg) (r : RawStructure) : counted (res Processor) :=
  if version_lt (version r) (version_of 2 1) then
    free! p := read_packed c 22 r in
    pay? socket_designation := look r (at_ 0 1 p) in
    pay? processor_manufacturer := look r (at_ 3 1 p) in
    pay? processor_version := look r (at_ 12 1 p) in
    free (Val (Ok {|
      processor_handle := handle r;
      processor_socket_designation := socket_designation;
      processor_processor_type := ProcessorType_from (at_ 1 1 p);
      processor_processor_family := ProcessorFamily_from_u8 (at_ 2 1 p);
      processor_processor_manufacturer := processor_manufacturer;
      processor_processor_id := at_ 4 8 p;
      processor_processor_version := processor_version;
      processor_voltage := Voltage_from (at_ 13 1 p);
      processor_external_clock := at_ 14 2 p;
      processor_max_speed := at_ 16 2 p;
      processor_current_speed := at_ 18 2 p;
      processor_status := ProcessorStatus_truncate (at_ 20 1 p);
      processor_processor_upgrade := ProcessorUpgrade_from (at_ 21 1 p);
      processor_l1_cache_handle := None;
      processor_l2_cache_handle := None;
      processor_l3_cache_handle := None;
      processor_serial_number := None;
      processor_asset_tag := None;
      processor_part_number := None;
      processor_core_count := None;
      processor_core_enabled := None;
      processor_thread_count := None;
      processor_processor_characteristics := None
    |}))
  else if version_lt (version r) (version_of 2 3) then
    free! p := read_packed c 28 r in
    pay? socket_designation := look r (at_ 0 1 p) in
    pay? processor_manufacturer := look r (at_ 3 1 p) in
    pay? processor_version := look r (at_ 12 1 p) in
    free (Val (Ok {|
      processor_handle := handle r;
      processor_socket_designation := socket_designation;
      processor_processor_type := ProcessorType_from (at_ 1 1 p);
      processor_processor_family := ProcessorFamily_from_u8 (at_ 2 1 p);
      processor_processor_manufacturer := processor_manufacturer;
      processor_processor_id := at_ 4 8 p;
      processor_processor_version := processor_version;
      processor_voltage := Voltage_from (at_ 13 1 p);
      processor_external_clock := at_ 14 2 p;
      processor_max_speed := at_ 16 2 p;
      processor_current_speed := at_ 18 2 p;
      processor_status := ProcessorStatus_truncate (at_ 20 1 p);
      processor_processor_upgrade := ProcessorUpgrade_from (at_ 21 1 p);
      processor_l1_cache_handle := Some (at_ 22 2 p);
      processor_l2_cache_handle := Some (at_ 24 2 p);
      processor_l3_cache_handle := Some (at_ 26 2 p);
      processor_serial_number := None;
      processor_asset_tag := None;
      processor_part_number := None;
      processor_core_count := None;
      processor_core_enabled := None;
      processor_thread_count := None;
      processor_processor_characteristics := None
    |}))
  else if version_lt (version r) (version_of 2 5) then
    free! p := read_packed c 31 r in
    pay? socket_designation := look r (at_ 0 1 p) in
    pay? processor_manufacturer := look r (at_ 3 1 p) in
    pay? processor_version := look r (at_ 12 1 p) in
    pay? serial_number := look r (at_ 28 1 p) in
    pay? asset_tag := look r (at_ 29 1 p) in
    pay? part_number := look r (at_ 30 1 p) in
    free (Val (Ok {|
      processor_handle := handle r;
      processor_socket_designation := socket_designation;
      processor_processor_type := ProcessorType_from (at_ 1 1 p);
      processor_processor_family := ProcessorFamily_from_u8 (at_ 2 1 p);
      processor_processor_manufacturer := processor_manufacturer;
      processor_processor_id := at_ 4 8 p;
      processor_processor_version := processor_version;
      processor_voltage := Voltage_from (at_ 13 1 p);
      processor_external_clock := at_ 14 2 p;
      processor_max_speed := at_ 16 2 p;
      processor_current_speed := at_ 18 2 p;
      processor_status := ProcessorStatus_truncate (at_ 20 1 p);
      processor_processor_upgrade := ProcessorUpgrade_from (at_ 21 1 p);
      processor_l1_cache_handle := Some (at_ 22 2 p);
      processor_l2_cache_handle := Some (at_ 24 2 p);
      processor_l3_cache_handle := Some (at_ 26 2 p);
      processor_serial_number := Some serial_number;
      processor_asset_tag := Some asset_tag;
      processor_part_number := Some part_number;
      processor_core_count := None;
      processor_core_enabled := None;
      processor_thread_count := None;
      processor_processor_characteristics := None
    |}))
  else if version_lt (version r) (version_of 2 6) then
    free! p := read_packed c 36 r in
    pay? socket_designation := look r (at_ 0 1 p) in
    pay? processor_manufacturer := look r (at_ 3 1 p) in
    pay? processor_version := look r (at_ 12 1 p) in
    pay? serial_number := look r (at_ 28 1 p) in
    pay? asset_tag := look r (at_ 29 1 p) in
    pay? part_number := look r (at_ 30 1 p) in
    free (Val (Ok {|
      processor_handle := handle r;
      processor_socket_designation := socket_designation;
      processor_processor_type := ProcessorType_from (at_ 1 1 p);
      processor_processor_family := ProcessorFamily_from_u8 (at_ 2 1 p);
      processor_processor_manufacturer := processor_manufacturer;
      processor_processor_id := at_ 4 8 p;
      processor_processor_version := processor_version;
      processor_voltage := Voltage_from (at_ 13 1 p);
      processor_external_clock := at_ 14 2 p;
      processor_max_speed := at_ 16 2 p;
      processor_current_speed := at_ 18 2 p;
      processor_status := ProcessorStatus_truncate (at_ 20 1 p);
      processor_processor_upgrade := ProcessorUpgrade_from (at_ 21 1 p);
      processor_l1_cache_handle := Some (at_ 22 2 p);
      processor_l2_cache_handle := Some (at_ 24 2 p);
      processor_l3_cache_handle := Some (at_ 26 2 p);
      processor_serial_number := Some serial_number;
      processor_asset_tag := Some asset_tag;
      processor_part_number := Some part_number;
      processor_core_count := Some (at_ 31 1 p);
      processor_core_enabled := Some (at_ 32 1 p);
      processor_thread_count := Some (at_ 33 1 p);
      processor_processor_characteristics := None
    |}))
  else if version_lt (version r) (version_of 3 0) then
    free! p := read_packed c 38 r in
    pay? socket_designation := look r (at_ 0 1 p) in
    pay? processor_manufacturer := look r (at_ 3 1 p) in
    pay? processor_version := look r (at_ 12 1 p) in
    pay? serial_number := look r (at_ 28 1 p) in
    pay? asset_tag := look r (at_ 29 1 p) in
    pay? part_number := look r (at_ 30 1 p) in
    free (Val (Ok {|
      processor_handle := handle r;
      processor_socket_designation := socket_designation;
      processor_processor_type := ProcessorType_from (at_ 1 1 p);
      processor_processor_family := processor_family_or_2 p;
      processor_processor_manufacturer := processor_manufacturer;
      processor_processor_id := at_ 4 8 p;
      processor_processor_version := processor_version;
      processor_voltage := Voltage_from (at_ 13 1 p);
      processor_external_clock := at_ 14 2 p;
      processor_max_speed := at_ 16 2 p;
      processor_current_speed := at_ 18 2 p;
      processor_status := ProcessorStatus_truncate (at_ 20 1 p);
      processor_processor_upgrade := ProcessorUpgrade_from (at_ 21 1 p);
      processor_l1_cache_handle := Some (at_ 22 2 p);
      processor_l2_cache_handle := Some (at_ 24 2 p);
      processor_l3_cache_handle := Some (at_ 26 2 p);
      processor_serial_number := Some serial_number;
      processor_asset_tag := Some asset_tag;
      processor_part_number := Some part_number;
      processor_core_count := Some (at_ 31 1 p);
      processor_core_enabled := Some (at_ 32 1 p);
      processor_thread_count := Some (at_ 33 1 p);
      processor_processor_characteristics := Some (ProcessorCharacteristics_truncate (at_ 34 2 p))
    |}))
  else
    free! p := read_packed c 44 r in
    pay? socket_designation := look r (at_ 0 1 p) in
    pay? processor_manufacturer := look r (at_ 3 1 p) in
    pay? processor_version := look r (at_ 12 1 p) in
    pay? serial_number := look r (at_ 28 1 p) in
    pay? asset_tag := look r (at_ 29 1 p) in
    pay? part_number := look r (at_ 30 1 p) in
    free (Val (Ok {|
      processor_handle := handle r;
      processor_socket_designation := socket_designation;
      processor_processor_type := ProcessorType_from (at_ 1 1 p);
      processor_processor_family := processor_family_or_2 p;
      processor_processor_manufacturer := processor_manufacturer;
      processor_processor_id := at_ 4 8 p;
      processor_processor_version := processor_version;
      processor_voltage := Voltage_from (at_ 13 1 p);
      processor_external_clock := at_ 14 2 p;
      processor_max_speed := at_ 16 2 p;
      processor_current_speed := at_ 18 2 p;
      processor_status := ProcessorStatus_truncate (at_ 20 1 p);
      processor_processor_upgrade := ProcessorUpgrade_from (at_ 21 1 p);
      processor_l1_cache_handle := Some (at_ 22 2 p);
      processor_l2_cache_handle := Some (at_ 24 2 p);
      processor_l3_cache_handle := Some (at_ 26 2 p);
      processor_serial_number := Some serial_number;
      processor_asset_tag := Some asset_tag;
      processor_part_number := Some part_number;
      processor_core_count := if at_ 31 1 p =? 0xFF then Some (at_ 38 2 p) else Some (at_ 31 1 p);
      processor_core_enabled := if at_ 32 1 p =? 0xFF then Some (at_ 40 2 p) else Some (at_ 32 1 p);
      processor_thread_count := if at_ 33 1 p =? 0xFF then Some (at_ 42 2 p) else Some (at_ 33 1 p);
      processor_processor_characteristics := Some (ProcessorCharacteristics_truncate (at_ 34 2 p))
    |})).

(* 007_cache.rs:170-272 `Cache::try_from`; packed layouts of 23, 15 and 11 bytes.
   The comparisons are strict: 3.1, 2.1 and 2.0 fall through to the next branch. *)
Definition Cache_counted (c : cfg) (r : RawStructure) : counted (res Cache) :=
  if version_gt (version r) (version_of 3 1) then
    free! p := read_packed c 23 r in
    pay? socket_designation := look r (at_ 0 1 p) in
    free! cache_configuration := CacheConfiguration_from (at_ 1 2 p) in
    free (Val (Ok {|
      cache_handle := handle r;
      cache_socket_designation := socket_designation;
      cache_cache_configuration := cache_configuration;
      cache_maximum_cache_size := CacheSize_from (at_ 3 2 p);
      cache_installed_size := CacheSize_from (at_ 5 2 p);
      cache_supported_sram_type := CacheSramType_truncate (at_ 7 2 p);
      cache_current_sram_type := CacheSramType_truncate (at_ 9 2 p);
      cache_cache_speed := Some (at_ 11 1 p);
      cache_error_correction_type := Some (CacheErrorCorrectionType_from (at_ 12 1 p));
      cache_system_cache_type := Some (SystemCacheType_from (at_ 13 1 p));
      cache_associativity := Some (CacheAssociativity_from (at_ 14 1 p));
      cache_maximum_cache_size_2 := Some (CacheSize2_from (at_ 15 4 p));
      cache_installed_size_2 := Some (CacheSize2_from (at_ 19 4 p))
    |}))
  else if version_gt (version r) (version_of 2 1) then
    free! p := read_packed c 15 r in
    pay? socket_designation := look r (at_ 0 1 p) in
    free! cache_configuration := CacheConfiguration_from (at_ 1 2 p) in
    free (Val (Ok {|
      cache_handle := handle r;
      cache_socket_designation := socket_designation;
      cache_cache_configuration := cache_configuration;
      cache_maximum_cache_size := CacheSize_from (at_ 3 2 p);
      cache_installed_size := CacheSize_from (at_ 5 2 p);
      cache_supported_sram_type := CacheSramType_truncate (at_ 7 2 p);
      cache_current_sram_type := CacheSramType_truncate (at_ 9 2 p);
      cache_cache_speed := Some (at_ 11 1 p);
      cache_error_correction_type := Some (CacheErrorCorrectionType_from (at_ 12 1 p));
      cache_system_cache_type := Some (SystemCacheType_from (at_ 13 1 p));
      cache_associativity := Some (CacheAssociativity_from (at_ 14 1 p));
      cache_maximum_cache_size_2 := None;
      cache_installed_size_2 := None
    |}))
  else if version_gt (version r) (version_of 2 0) then
    free! p := read_packed c 11 r in
    pay? socket_designation := look r (at_ 0 1 p) in
    free! cache_configuration := CacheConfiguration_from (at_ 1 2 p) in
    free (Val (Ok {|
      cache_handle := handle r;
      cache_socket_designation := socket_designation;
      cache_cache_configuration := cache_configuration;
      cache_maximum_cache_size := CacheSize_from (at_ 3 2 p);
      cache_installed_size := CacheSize_from (at_ 5 2 p);
      cache_supported_sram_type := CacheSramType_truncate (at_ 7 2 p);
      cache_current_sram_type := CacheSramType_truncate (at_ 9 2 p);
      cache_cache_speed := None;
      cache_error_correction_type := None;
      cache_system_cache_type := None;
      cache_associativity := None;
      cache_maximum_cache_size_2 := None;
      cache_installed_size_2 := None
    |}))
  else free Panic.

(* 008_port_connector.rs:128-150 `PortConnector::try_from`; packed layout of 5 bytes *)
Definition PortConnector_counted (c : cfg) (r : RawStructure) : counted (res PortConnector) :=
  free! p := read_packed c 5 r in
  pay? internal_reference_designator := look r (at_ 0 1 p) in
  pay? external_reference_designator := look r (at_ 2 1 p) in
  free (Val (Ok {|
    port_handle := handle r;
    port_internal_reference_designator := internal_reference_designator;
    port_internal_connector_type := ConnectorType_from (at_ 1 1 p);
    port_external_reference_designator := external_reference_designator;
    port_external_connector_type := ConnectorType_from (at_ 3 1 p);
    port_port_type := PortType_from (at_ 4 1 p)
  |})).

(* 009_system_slots.rs:342-405 `SystemSlots::try_from` *)
Definition SystemSlots_counted (c : cfg) (r : RawStructure) : counted (res SystemSlots) :=
  let l := len (data r) + 4 in
  let v := version r in
  let bad spec n := free (Val (Err (InvalidFormattedSectionLength InfoType_SystemSlots (handle r) spec n))) in
  if (version_ge v (version_of 2 0) && version_lt v (version_of 2 1)) && negb (l =? 0x0C) then bad EmptyString 0x0C
  else if (version_ge v (version_of 2 1) && version_lt v (version_of 2 6)) && negb (l =? 0x0D) then bad EmptyString 0x0D
  else if (version_ge v (version_of 2 6) && version_lt v (version_of 3 2)) && negb (l =? 0x11) then bad EmptyString 0x11
  else if version_ge v (version_of 3 2) && (l <? 0x11) then bad "minimum of "%string 0x11
  else
    free! count := get_ok c 1 0x12 r in
    let n := match count with Some x => x | None => 0 end in
    pay? slot_designation := look_at c 0x04 r in
    free? slot_type := get c 1 0x05 r in
    free? slot_data_bus_width := get c 1 0x06 r in
    free? current_usage := get c 1 0x07 r in
    free? slot_length := get c 1 0x08 r in
    free? slot_id := get c 2 0x09 r in
    free? slot_characteristics_1 := get c 1 0x0B r in
    free! slot_characteristics_2 := get_ok c 1 0x0C r in
    free! segment_group_number := get_ok c 2 0x0D r in
    free! bus_number := get_ok c 1 0x0F r in
    free! device_and_function_number := get_ok c 1 0x10 r in
    free! data_bus_width := get_ok c 1 0x11 r in
    free! peer_devices := get_slice c 0x13 (5 * n) r in
    free! slot_information := get_ok c 1 (0x14 + 5 * n) r in
    free! slot_physical_width := get_ok c 1 (0x15 + 5 * n) r in
    free! slot_pitch := get_ok c 2 (0x16 + 5 * n) r in
    free (Val (Ok {|
      slots_handle := handle r;
      slots_slot_designation := slot_designation;
      slots_slot_type := SlotType_from slot_type;
      slots_slot_data_bus_width := SlotWidth_from slot_data_bus_width;
      slots_current_usage := CurrentUsage_from current_usage;
      slots_slot_length := SlotLength_from slot_length;
      slots_slot_id := slot_id;
      slots_slot_characteristics_1 := slot_characteristics_1;
      slots_slot_characteristics_2 := slot_characteristics_2;
      slots_segment_group_number := ofilter (fun x => negb (x =? 0xFFFF)) segment_group_number;
      slots_bus_number := ofilter (fun x => negb (x =? 0xFF)) bus_number;
      slots_device_and_function_number :=
        option_map DeviceAndFunctionNumber_from (ofilter (fun x => negb (x =? 0xFF)) device_and_function_number);
      slots_data_bus_width := data_bus_width;
      slots_peer_devices := option_map (fun s => {| peer_chunks := s |}) peer_devices;
      slots_slot_information := slot_information;
      slots_slot_physical_width := option_map SlotWidth_from slot_physical_width;
      slots_slot_pitch := slot_pitch
    |})).

(* 012_system_configuration_options.rs:22-37 `SystemConfigurationOptions::try_from` *)
Definition SystemConfigurationOptions_counted (c : cfg) (r : RawStructure) : counted (res SystemConfigurationOptions) :=
  free? count := get c 1 0x04 r in
  pay! n := count_counted r in
  if negb (count =? n) then
    free (Val (Err (InvalidStringIndex InfoType_SystemConfigurationOptions (handle r) count)))
  else
    free (Val (Ok {| options_handle := handle r; options_strings := raw_strings r |})).

(* 014_group_associations.rs:41-59 `GroupAssociations::try_from` *)
Definition GroupAssociations_counted (c : cfg) (r : RawStructure) : counted (res GroupAssociations) :=
  free! size := u_sub c (usize_bits c) (length_ r) 5 in
  free! slice := get_slice c 0x05 size r in
  match slice with
  | None => free (Val (Err (InvalidFormattedSectionLength InfoType_GroupAssociations (handle r) EmptyString (length_ r))))
  | Some s =>
    pay? group_name := look_at c 0x04 r in
    free (Val (Ok {|
      group_handle := handle r;
      group_group_name := group_name;
      group_items := {| gi_data := s; gi_index := 0 |}
    |}))
  end.

(* 017_memory_device.rs:380-431 `MemoryDevice::try_from` *)
Definition MemoryDevice_counted (c : cfg) (r : RawStructure) : counted (res MemoryDevice) :=
  if len (data r) + 4 <? 0x15 then
    free (Val (Err (InvalidFormattedSectionLength InfoType_MemoryDevice (handle r) "at least" 0x15)))
  else
  free? physical_memory_handle := get c 2 0x04 r in
  free! memory_error_handle := get_ok c 2 0x06 r in
  free! total_width := get_ok c 2 0x08 r in
  free! data_width := get_ok c 2 0x0A r in
  free! size := get_ok c 2 0x0C r in
  free? form_factor := get c 1 0x0E r in
  free? device_set := get c 1 0x0F r in
  pay? device_locator := look_at c 0x10 r in
  pay? bank_locator := look_at c 0x11 r in
  free? memory_type := get c 1 0x12 r in
  free? type_detail := get c 2 0x13 r in
  free! speed := get_ok c 2 0x15 r in
  pay? manufacturer := look_at c 0x17 r in
  pay? serial := look_at c 0x18 r in
  pay? asset_tag := look_at c 0x19 r in
  pay? part_number := look_at c 0x1A r in
  free? attributes := get c 1 0x1B r in
  free? extended_size := get c 4 0x1C r in
  free! configured_memory_speed := get_ok c 2 0x20 r in
  free! minimum_voltage := get_ok c 2 0x22 r in
  free! maximum_voltage := get_ok c 2 0x24 r in
  free! configured_voltage := get_ok c 2 0x26 r in
  free! memory_technology := get_ok c 1 0x28 r in
  free! operating_mode_capability := get_ok c 2 0x29 r in
  pay! firmware_version := look_at_ok c 0x2B r in
  free! module_manufacturer := get_ok c 2 0x2C r in
  free! module_product_id := get_ok c 2 0x2E r in
  free! subsystem_manufacturer := get_ok c 2 0x30 r in
  free! subsystem_product := get_ok c 2 0x32 r in
  free! non_volatile_size := get_ok c 8 0x34 r in
  free! volatile_size := get_ok c 8 0x3C r in
  free! cache_size := get_ok c 8 0x44 r in
  free! logical_size := get_ok c 8 0x4C r in
  free! extended_speed := get_ok c 4 0x54 r in
  free! extended_configured_memory_speed := get_ok c 4 0x58 r in
  free (Val (Ok {|
    memdev_handle := handle r;
    memdev_physical_memory_handle := physical_memory_handle;
    memdev_memory_error_handle := ofilter (fun v => negb (v =? 0xFFFE)) memory_error_handle;
    memdev_total_width := ofilter (fun v => negb (v =? 0xFFFF)) total_width;
    memdev_data_width := ofilter (fun v => negb (v =? 0xFFFF)) data_width;
    memdev_size := ofilter (fun v => negb (v =? 0xFFFF)) size;
    memdev_form_factor := FormFactor_from form_factor;
    memdev_device_set := Some device_set;
    memdev_device_locator := device_locator;
    memdev_bank_locator := bank_locator;
    memdev_memory_type := MemoryType_from memory_type;
    memdev_type_detail := Detail_truncate type_detail;
    memdev_speed := ofilter (fun v => negb (v =? 0)) speed;
    memdev_manufacturer := manufacturer;
    memdev_serial := serial;
    memdev_asset_tag := asset_tag;
    memdev_part_number := part_number;
    memdev_attributes := attributes;
    memdev_extended_size := extended_size;
    memdev_configured_memory_speed := ofilter (fun v => negb (v =? 0)) configured_memory_speed;
    memdev_minimum_voltage := ofilter (fun v => negb (v =? 0)) minimum_voltage;
    memdev_maximum_voltage := ofilter (fun v => negb (v =? 0)) maximum_voltage;
    memdev_configured_voltage := ofilter (fun v => negb (v =? 0)) configured_voltage;
    memdev_memory_technology := option_map MemoryTechnology_from memory_technology;
    memdev_operating_mode_capability := option_map OperatingModes_truncate operating_mode_capability;
    memdev_firmware_version := firmware_version;
    memdev_module_manufacturer := module_manufacturer;
    memdev_module_product_id := module_product_id;
    memdev_memory_subsystem_controller_manufacturer_id := subsystem_manufacturer;
    memdev_memory_subsystem_controller_product_id := subsystem_product;
    memdev_non_volatile_size := non_volatile_size;
    memdev_volatile_size := volatile_size;
    memdev_cache_size := cache_size;
    memdev_logical_size := logical_size;
    memdev_extended_speed := extended_speed;
    memdev_extended_configured_memory_speed := extended_configured_memory_speed
  |})).

(* 022_portable_battery.rs:91-136 `PortableBattery::try_from` *)
Definition PortableBattery_counted (c : cfg) (r : RawStructure) : counted (res PortableBattery) :=
  let v := version r in
  let bad n := free (Val (Err (InvalidFormattedSectionLength InfoType_PortableBattery (handle r) EmptyString n))) in
  if version_eq v (version_of 2 1) && negb (length_ r =? 0x10) then bad 0x10
  else if version_ge v (version_of 2 2) && negb (length_ r =? 0x1A) then bad 0x1A
  else
    pay? location := look_at c 0x04 r in
    pay? manufacturer := look_at c 0x05 r in
    pay! date_basic := basic_counted c 0x06 r in
    free! date_sbds := get_ok c 2 0x12 r in
    pay! serial_basic := basic_counted c 0x07 r in
    free! serial_sbds := get_ok c 2 0x10 r in
    pay? device_name := look_at c 0x08 r in
    free? chemistry := get c 1 0x09 r in
    pay! chemistry_sbds := look_at_ok c 0x14 r in
    free? capacity := get c 2 0x0A r in
    free! multiplier := get_ok c 1 0x15 r in
    free? design_voltage := get c 2 0x0C r in
    pay? sbds_version_number := look_at c 0x0E r in
    free? maximum_error := get c 1 0x0F r in
    free! oem_specific := get_ok c 4 0x16 r in
    free (Val (Ok {|
      battery_handle := handle r;
      battery_location := location;
      battery_manufacturer := manufacturer;
      battery_manufacture_date := ManufactureDate_new date_basic date_sbds;
      battery_serial_number := SerialNumber_new serial_basic serial_sbds;
      battery_device_name := device_name;
      battery_device_chemistry := DeviceChemistry_new chemistry chemistry_sbds;
      battery_design_capacity := DesignCapacity_new capacity multiplier;
      battery_design_voltage := design_voltage;
      battery_sbds_version_number := sbds_version_number;
      battery_maximum_error_in_battery_data := maximum_error;
      battery_oem_specific := oem_specific
    |})).

(* lib.rs:487-520 the dispatch on `structure.info` *)
Definition dispatch_counted (c : cfg) (r : RawStructure) : counted (res Structure) :=
  match info r with
  | InfoType_Bios => pay_map (rmap SBios) (Bios_counted c r)
  | InfoType_System => pay_map (rmap SSystem) (System_counted c r)
  | InfoType_BaseBoard => pay_map (rmap SBaseBoard) (BaseBoard_counted c r)
  | InfoType_Enclosure => pay_map (rmap SEnclosure) (Enclosure_counted c r)
  | InfoType_Processor => pay_map (rmap SProcessor) (Processor_counted c r)
  | InfoType_Cache => pay_map (rmap SCache) (Cache_counted c r)
  | InfoType_PortConnector => pay_map (rmap SPortConnector) (PortConnector_counted c r)
  | InfoType_SystemSlots => pay_map (rmap SSystemSlots) (SystemSlots_counted c r)
  | InfoType_SystemConfigurationOptions => pay_map (rmap SSystemConfigurationOptions) (SystemConfigurationOptions_counted c r)
  | InfoType_GroupAssociations => pay_map (rmap SGroupAssociations) (GroupAssociations_counted c r)
  | InfoType_MemoryDevice => pay_map (rmap SMemoryDevice) (MemoryDevice_counted c r)
  | InfoType_PortableBattery => pay_map (rmap SPortableBattery) (PortableBattery_counted c r)
  | _ => free (dispatch c r)
  end.

(* lib.rs:467-521 `next`, with the turns of next_raw and the steps of the decoder *)
Definition next_counted (c : cfg) (s : Structures) : counted (option (res Structure) * Structures) :=
  pay! raw := next_raw_counted c s in
  let (item, s1) := raw in
  match item with
  | None => free (Val (None, s1))
  | Some (Err e) =>
    free (Val (Some (Err e), {| smbios_version := smbios_version s1; smbios_len_ := idx s1;
                                idx := idx s1; buffer := buffer s1 |}))
  | Some (Ok r) =>
    let s2 := if (3 <=? major (smbios_version s1)) && is_end (info r)
              then {| smbios_version := smbios_version s1; smbios_len_ := idx s1;
                      idx := idx s1; buffer := buffer s1 |}
              else s1 in
    pay! x := dispatch_counted c r in
    free (Val (Some x, s2))
  end.

(* 013_bios_language.rs:80-87 `Iterator for InstallableLanguages`, next *)
Definition InstallableLanguages_next_counted (c : cfg) (s : InstallableLanguages) :
  counted (option text * InstallableLanguages) :=
  free! i := u_add c 8 (il_index s) 1 in
  pay! t := pay_map ok (look (il_structure s) (il_index s)) in
  free (Val (t, {| il_structure := il_structure s; il_index := i |})).
