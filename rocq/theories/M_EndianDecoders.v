(* The decoders of /repo/src/structures that copy packed structures, on machines of either
   byte order.  `let_as_struct!` (lib.rs:69-76) and `read_bytes` (003_enclosure.rs:504-512)
   copy the bytes as they are, so that an integer field wider than a byte is read in the order
   of the machine.  Everything else asks for little endian (lib.rs:584-609 and the helpers of
   the structure files), so that the decoders that are not repeated here are the same on every
   machine.  Each definition is the one of the same name without `_on`, with `field_on big` in
   the place of `at_` and `read_bytes_on big` in the place of `read_bytes`. *)
From Coq Require Import String.
From Verif Require Import Base G_Enums M_Raw M_Bios M_System M_BaseBoard M_Enclosure M_Processor M_Cache
  M_PortConnector M_SystemSlots M_Strings M_GroupAssociations M_SystemEventLog M_PhysicalMemoryArray M_MemoryDevice
  M_Memory M_PortableBattery M_Iter M_Endian.
Local Open Scope N_scope.

(* 000_bios.rs:80-208 `Bios::try_from` *)
Definition Bios_try_from_on (big : bool) (c : cfg) (r : RawStructure) : out (res Bios) :=
  if version_ge (version r) (version_of 3 1) then
    let! p := read_packed c 22 r in
    let? vendor := Val (find_string r (field_on big 0 1 p)) in
    let? bios_version := Val (find_string r (field_on big 1 1 p)) in
    let? release_date := Val (find_string r (field_on big 4 1 p)) in
    Val (Ok {|
      bios_handle := handle r;
      bios_vendor := vendor;
      bios_bios_version := bios_version;
      bios_starting_address_segment := field_on big 2 2 p;
      bios_release_date := release_date;
      bios_rom_size := {| basic := field_on big 5 1 p; extended := Some (field_on big 20 2 p) |};
      bios_characteristics := field_on big 6 8 p;
      bios_characteristics_extension_1 := Some (field_on big 14 1 p);
      bios_characteristics_extension_2 := Some (field_on big 15 1 p);
      bios_revision := Some {| rev_major := field_on big 16 1 p; rev_minor := field_on big 17 1 p |};
      bios_firmware_revision := Some {| rev_major := field_on big 18 1 p; rev_minor := field_on big 19 1 p |}
    |})
  else if version_ge (version r) (version_of 2 4) then
    let! p := read_packed c 20 r in
    let? vendor := Val (find_string r (field_on big 0 1 p)) in
    let? bios_version := Val (find_string r (field_on big 1 1 p)) in
    let? release_date := Val (find_string r (field_on big 4 1 p)) in
    Val (Ok {|
      bios_handle := handle r;
      bios_vendor := vendor;
      bios_bios_version := bios_version;
      bios_starting_address_segment := field_on big 2 2 p;
      bios_release_date := release_date;
      bios_rom_size := {| basic := field_on big 5 1 p; extended := None |};
      bios_characteristics := field_on big 6 8 p;
      bios_characteristics_extension_1 := Some (field_on big 14 1 p);
      bios_characteristics_extension_2 := Some (field_on big 15 1 p);
      bios_revision := Some {| rev_major := field_on big 16 1 p; rev_minor := field_on big 17 1 p |};
      bios_firmware_revision := Some {| rev_major := field_on big 18 1 p; rev_minor := field_on big 19 1 p |}
    |})
  else
    let! p := read_packed c 14 r in
    let? vendor := Val (find_string r (field_on big 0 1 p)) in
    let? bios_version := Val (find_string r (field_on big 1 1 p)) in
    let? release_date := Val (find_string r (field_on big 4 1 p)) in
    Val (Ok {|
      bios_handle := handle r;
      bios_vendor := vendor;
      bios_bios_version := bios_version;
      bios_starting_address_segment := field_on big 2 2 p;
      bios_release_date := release_date;
      bios_rom_size := {| basic := field_on big 5 1 p; extended := None |};
      bios_characteristics := field_on big 6 8 p;
      bios_characteristics_extension_1 := None;
      bios_characteristics_extension_2 := None;
      bios_revision := None;
      bios_firmware_revision := None
    |}).

(* 001_system.rs:60-154 `System::try_from`; the UUID is an array of bytes *)
Definition System_try_from_on (big : bool) (c : cfg) (r : RawStructure) : out (res System) :=
  if version_lt (version r) (version_of 2 1) then
    let! p := read_packed c 4 r in
    let? manufacturer := Val (find_string r (field_on big 0 1 p)) in
    let? product := Val (find_string r (field_on big 1 1 p)) in
    let? version_ := Val (find_string r (field_on big 2 1 p)) in
    let? serial := Val (find_string r (field_on big 3 1 p)) in
    Val (Ok {|
      system_handle := handle r;
      system_manufacturer := manufacturer;
      system_product := product;
      system_version := version_;
      system_serial := serial;
      system_uuid := None;
      system_wakeup := None;
      system_sku := None;
      system_family := None
    |})
  else if version_lt (version r) (version_of 2 4) then
    let! p := read_packed c 21 r in
    let? manufacturer := Val (find_string r (field_on big 0 1 p)) in
    let? product := Val (find_string r (field_on big 1 1 p)) in
    let? version_ := Val (find_string r (field_on big 2 1 p)) in
    let? serial := Val (find_string r (field_on big 3 1 p)) in
    Val (Ok {|
      system_handle := handle r;
      system_manufacturer := manufacturer;
      system_product := product;
      system_version := version_;
      system_serial := serial;
      system_uuid := Some (decode_by_smbios_version (take 16 (drop 4 p)) (version r));
      system_wakeup := Some (WakeupType_from (field_on big 20 1 p));
      system_sku := None;
      system_family := None
    |})
  else
    let! p := read_packed c 23 r in
    let? manufacturer := Val (find_string r (field_on big 0 1 p)) in
    let? product := Val (find_string r (field_on big 1 1 p)) in
    let? version_ := Val (find_string r (field_on big 2 1 p)) in
    let? serial := Val (find_string r (field_on big 3 1 p)) in
    let? sku := Val (find_string r (field_on big 21 1 p)) in
    let? family := Val (find_string r (field_on big 22 1 p)) in
    Val (Ok {|
      system_handle := handle r;
      system_manufacturer := manufacturer;
      system_product := product;
      system_version := version_;
      system_serial := serial;
      system_uuid := Some (decode_by_smbios_version (take 16 (drop 4 p)) (version r));
      system_wakeup := Some (WakeupType_from (field_on big 20 1 p));
      system_sku := Some sku;
      system_family := Some family
    |}).

(* 002_baseboard.rs:104-161 `BaseBoard::try_from` *)
Definition BaseBoard_try_from_on (big : bool) (c : cfg) (r : RawStructure) : out (res BaseBoard) :=
  let! p := read_packed c 10 r in
  let? asset := some_if (4 <? len (data r)) (find_string r (field_on big 4 1 p)) in
  let feature_flags := if 5 <? len (data r) then Some (BaseBoardFlags_truncate (field_on big 5 1 p)) else None in
  let? location := some_if (6 <? len (data r)) (find_string r (field_on big 6 1 p)) in
  let chassis_handle := if 7 <? len (data r) then Some (field_on big 7 2 p) else None in
  let board_type := if 9 <? len (data r) then Some (BoardType_from (field_on big 9 1 p)) else None in
  let? manufacturer := Val (find_string r (field_on big 0 1 p)) in
  let? product := Val (find_string r (field_on big 1 1 p)) in
  let? version_ := Val (find_string r (field_on big 2 1 p)) in
  let? serial := Val (find_string r (field_on big 3 1 p)) in
  Val (Ok {|
    baseboard_handle := handle r;
    baseboard_manufacturer := manufacturer;
    baseboard_product := product;
    baseboard_version := version_;
    baseboard_serial := serial;
    baseboard_asset := asset;
    baseboard_feature_flags := feature_flags;
    baseboard_location_in_chassis := location;
    baseboard_chassis_handle := chassis_handle;
    baseboard_board_type := board_type
  |}).

(* 003_enclosure.rs:504-512 `read_bytes::<T>`: `ptr::read_unaligned` *)
Definition read_bytes_on (big : bool) (w : N) (d : list N) : option (N * list N) :=
  if len d <? w then None else Some (field_on big 0 w d, drop w d).

(* 003_enclosure.rs:412-432 `ContainedElements::new` *)
Definition ContainedElements_new_on (big : bool) (c : cfg) (d aft : list N) : out (option (ContainedElements * list N)) :=
  match read_bytes_on big 1 d with
  | None => Val None
  | Some (count, d1) =>
    match read_bytes_on big 1 d1 with
    | None => Val None
    | Some (record_length, d2) =>
      if (count =? 0) || (record_length =? 0) then
        Val (Some ({| ce_chunks := []; ce_after := []; ce_count := count; ce_record_length := record_length |}, d2))
      else
        let! length := u_mul c 8 count record_length in
        match slice_get d2 0 length with
        | None => Val None
        | Some s =>
          Val (Some ({| ce_chunks := s; ce_after := drop length d2 ++ aft;
                        ce_count := count; ce_record_length := record_length |}, drop length d2))
        end
    end
  end.

(* 003_enclosure.rs:462-478 `impl From<&[u8]> for ContainedElement` *)
Definition ContainedElement_from_on (big : bool) (c : cfg) (d aft : list N) : out ContainedElement :=
  let! p := if 3 <=? len d then Val (take 3 d)
            else if flat_memory c && (3 <=? len (d ++ aft)) then Val (take 3 (d ++ aft))
            else UB in
  Val {| cel_type := ContainedElementType_from (field_on big 0 1 p);
         cel_minimum := field_on big 1 1 p; cel_maximum := field_on big 2 1 p |}.

(* 003_enclosure.rs:454-460 `Iterator for ContainedElements`, next *)
Definition ContainedElements_next_on (big : bool) (c : cfg) (e : ContainedElements) : out (option ContainedElement * ContainedElements) :=
  match ce_chunks e with
  | [] => Val (None, e)
  | _ :: _ =>
    let chunk := take (ce_record_length e) (ce_chunks e) in
    let rest := drop (ce_record_length e) (ce_chunks e) in
    let! x := ContainedElement_from_on big c chunk (rest ++ ce_after e) in
    Val (Some x, {| ce_chunks := rest; ce_after := ce_after e;
                    ce_count := ce_count e; ce_record_length := ce_record_length e |})
  end.

(* 003_enclosure.rs:164-270 `Enclosure::try_from` *)
Definition Enclosure_try_from_on (big : bool) (c : cfg) (r : RawStructure) : out (res Enclosure) :=
  if len (data r) <? 5 then
    Val (Err (InvalidFormattedSectionLength (info r) (handle r) "minimum of " 5))
  else
  let p := take 5 (data r) in
  let extra := drop 5 (data r) in
  let type_byte := field_on big 1 1 p in
  let? manufacturer := Val (find_string r (field_on big 0 1 p)) in
  let? version_ := Val (find_string r (field_on big 2 1 p)) in
  let? serial_number := Val (find_string r (field_on big 3 1 p)) in
  let? asset_tag_number := Val (find_string r (field_on big 4 1 p)) in
  let boot_up_state := read_bytes_on big 1 extra in
  let power_supply_state := oand_then boot_up_state (fun '(_, d) => read_bytes_on big 1 d) in
  let thermal_state := oand_then power_supply_state (fun '(_, d) => read_bytes_on big 1 d) in
  let security_status := oand_then thermal_state (fun '(_, d) => read_bytes_on big 1 d) in
  let oem_defined := oand_then security_status (fun '(_, d) => read_bytes_on big 4 d) in
  let height := oand_then oem_defined (fun '(_, d) => read_bytes_on big 1 d) in
  let power_cords := oand_then height (fun '(_, d) => read_bytes_on big 1 d) in
  let! contained := match power_cords with
                    | Some (_, d) => ContainedElements_new_on big c d (after r)
                    | None => Val None
                    end in
  let sku := oand_then contained (fun '(_, d) => read_bytes_on big 1 d) in
  let? sku_number := match sku with
                     | Some (n, _) => Val (rmap Some (find_string r n))
                     | None => Val (Ok None)
                     end in
  Val (Ok {|
    enclosure_handle := handle r;
    enclosure_manufacturer := manufacturer;
    enclosure_chassis_lock := negb (N.land type_byte 0x80 =? 0);
    enclosure_enclosure_type := EnclosureType_from (N.land type_byte 0x7F);
    enclosure_version := version_;
    enclosure_serial_number := serial_number;
    enclosure_asset_tag_number := asset_tag_number;
    enclosure_boot_up_state := option_map (fun x => State_from (fst x)) boot_up_state;
    enclosure_power_supply_state := option_map (fun x => State_from (fst x)) power_supply_state;
    enclosure_thermal_state := option_map (fun x => State_from (fst x)) thermal_state;
    enclosure_security_status := option_map (fun x => SecurityStatus_from (fst x)) security_status;
    enclosure_oem_defined := option_map fst oem_defined;
    enclosure_height := option_map fst height;
    enclosure_power_cords_number := option_map fst power_cords;
    enclosure_contained_elements := option_map fst contained;
    enclosure_sku_number := sku_number
  |}).

(* 004_processor.rs:727-730 and 763-766 *)
Definition processor_family_or_2_on (big : bool) (p : list N) : ProcessorFamily :=
  match ProcessorFamily_from_u8 (field_on big 2 1 p) with
  | ProcessorFamily_ProcessorFamily2 => ProcessorFamily_from (field_on big 36 2 p)
  | family => family
  end.

(* 004_processor.rs:471-822 `Processor::try_from` *)
Definition Processor_try_from_on (big : bool) (c : cfg) (r : RawStructure) : out (res Processor) :=
  if version_lt (version r) (version_of 2 1) then
    let! p := read_packed c 22 r in
    let? socket_designation := Val (find_string r (field_on big 0 1 p)) in
    let? processor_manufacturer := Val (find_string r (field_on big 3 1 p)) in
    let? processor_version := Val (find_string r (field_on big 12 1 p)) in
    Val (Ok {|
      processor_handle := handle r;
      processor_socket_designation := socket_designation;
      processor_processor_type := ProcessorType_from (field_on big 1 1 p);
      processor_processor_family := ProcessorFamily_from_u8 (field_on big 2 1 p);
      processor_processor_manufacturer := processor_manufacturer;
      processor_processor_id := field_on big 4 8 p;
      processor_processor_version := processor_version;
      processor_voltage := Voltage_from (field_on big 13 1 p);
      processor_external_clock := field_on big 14 2 p;
      processor_max_speed := field_on big 16 2 p;
      processor_current_speed := field_on big 18 2 p;
      processor_status := ProcessorStatus_truncate (field_on big 20 1 p);
      processor_processor_upgrade := ProcessorUpgrade_from (field_on big 21 1 p);
      processor_l1_cache_handle := None;
      processor_l2_cache_handle := None;
      processor_l3_cache_handle := None;
      processor_serial_number := None;
      processor_asset_tag := None;
      processor_part_number := None;
      processor_core_count := None;
      processor_core_enabled := None;
      processor_thread_count := None;
      processor_processor_characteristics := None
    |})
  else if version_lt (version r) (version_of 2 3) then
    let! p := read_packed c 28 r in
    let? socket_designation := Val (find_string r (field_on big 0 1 p)) in
    let? processor_manufacturer := Val (find_string r (field_on big 3 1 p)) in
    let? processor_version := Val (find_string r (field_on big 12 1 p)) in
    Val (Ok {|
      processor_handle := handle r;
      processor_socket_designation := socket_designation;
      processor_processor_type := ProcessorType_from (field_on big 1 1 p);
      processor_processor_family := ProcessorFamily_from_u8 (field_on big 2 1 p);
      processor_processor_manufacturer := processor_manufacturer;
      processor_processor_id := field_on big 4 8 p;
      processor_processor_version := processor_version;
      processor_voltage := Voltage_from (field_on big 13 1 p);
      processor_external_clock := field_on big 14 2 p;
      processor_max_speed := field_on big 16 2 p;
      processor_current_speed := field_on big 18 2 p;
      processor_status := ProcessorStatus_truncate (field_on big 20 1 p);
      processor_processor_upgrade := ProcessorUpgrade_from (field_on big 21 1 p);
      processor_l1_cache_handle := Some (field_on big 22 2 p);
      processor_l2_cache_handle := Some (field_on big 24 2 p);
      processor_l3_cache_handle := Some (field_on big 26 2 p);
      processor_serial_number := None;
      processor_asset_tag := None;
      processor_part_number := None;
      processor_core_count := None;
      processor_core_enabled := None;
      processor_thread_count := None;
      processor_processor_characteristics := None
    |})
  else if version_lt (version r) (version_of 2 5) then
    let! p := read_packed c 31 r in
    let? socket_designation := Val (find_string r (field_on big 0 1 p)) in
    let? processor_manufacturer := Val (find_string r (field_on big 3 1 p)) in
    let? processor_version := Val (find_string r (field_on big 12 1 p)) in
    let? serial_number := Val (find_string r (field_on big 28 1 p)) in
    let? asset_tag := Val (find_string r (field_on big 29 1 p)) in
    let? part_number := Val (find_string r (field_on big 30 1 p)) in
    Val (Ok {|
      processor_handle := handle r;
      processor_socket_designation := socket_designation;
      processor_processor_type := ProcessorType_from (field_on big 1 1 p);
      processor_processor_family := ProcessorFamily_from_u8 (field_on big 2 1 p);
      processor_processor_manufacturer := processor_manufacturer;
      processor_processor_id := field_on big 4 8 p;
      processor_processor_version := processor_version;
      processor_voltage := Voltage_from (field_on big 13 1 p);
      processor_external_clock := field_on big 14 2 p;
      processor_max_speed := field_on big 16 2 p;
      processor_current_speed := field_on big 18 2 p;
      processor_status := ProcessorStatus_truncate (field_on big 20 1 p);
      processor_processor_upgrade := ProcessorUpgrade_from (field_on big 21 1 p);
      processor_l1_cache_handle := Some (field_on big 22 2 p);
      processor_l2_cache_handle := Some (field_on big 24 2 p);
      processor_l3_cache_handle := Some (field_on big 26 2 p);
      processor_serial_number := Some serial_number;
      processor_asset_tag := Some asset_tag;
      processor_part_number := Some part_number;
      processor_core_count := None;
      processor_core_enabled := None;
      processor_thread_count := None;
      processor_processor_characteristics := None
    |})
  else if version_lt (version r) (version_of 2 6) then
    let! p := read_packed c 36 r in
    let? socket_designation := Val (find_string r (field_on big 0 1 p)) in
    let? processor_manufacturer := Val (find_string r (field_on big 3 1 p)) in
    let? processor_version := Val (find_string r (field_on big 12 1 p)) in
    let? serial_number := Val (find_string r (field_on big 28 1 p)) in
    let? asset_tag := Val (find_string r (field_on big 29 1 p)) in
    let? part_number := Val (find_string r (field_on big 30 1 p)) in
    Val (Ok {|
      processor_handle := handle r;
      processor_socket_designation := socket_designation;
      processor_processor_type := ProcessorType_from (field_on big 1 1 p);
      processor_processor_family := ProcessorFamily_from_u8 (field_on big 2 1 p);
      processor_processor_manufacturer := processor_manufacturer;
      processor_processor_id := field_on big 4 8 p;
      processor_processor_version := processor_version;
      processor_voltage := Voltage_from (field_on big 13 1 p);
      processor_external_clock := field_on big 14 2 p;
      processor_max_speed := field_on big 16 2 p;
      processor_current_speed := field_on big 18 2 p;
      processor_status := ProcessorStatus_truncate (field_on big 20 1 p);
      processor_processor_upgrade := ProcessorUpgrade_from (field_on big 21 1 p);
      processor_l1_cache_handle := Some (field_on big 22 2 p);
      processor_l2_cache_handle := Some (field_on big 24 2 p);
      processor_l3_cache_handle := Some (field_on big 26 2 p);
      processor_serial_number := Some serial_number;
      processor_asset_tag := Some asset_tag;
      processor_part_number := Some part_number;
      processor_core_count := Some (field_on big 31 1 p);
      processor_core_enabled := Some (field_on big 32 1 p);
      processor_thread_count := Some (field_on big 33 1 p);
      processor_processor_characteristics := None
    |})
  else if version_lt (version r) (version_of 3 0) then
    let! p := read_packed c 38 r in
    let? socket_designation := Val (find_string r (field_on big 0 1 p)) in
    let? processor_manufacturer := Val (find_string r (field_on big 3 1 p)) in
    let? processor_version := Val (find_string r (field_on big 12 1 p)) in
    let? serial_number := Val (find_string r (field_on big 28 1 p)) in
    let? asset_tag := Val (find_string r (field_on big 29 1 p)) in
    let? part_number := Val (find_string r (field_on big 30 1 p)) in
    Val (Ok {|
      processor_handle := handle r;
      processor_socket_designation := socket_designation;
      processor_processor_type := ProcessorType_from (field_on big 1 1 p);
      processor_processor_family := processor_family_or_2_on big p;
      processor_processor_manufacturer := processor_manufacturer;
      processor_processor_id := field_on big 4 8 p;
      processor_processor_version := processor_version;
      processor_voltage := Voltage_from (field_on big 13 1 p);
      processor_external_clock := field_on big 14 2 p;
      processor_max_speed := field_on big 16 2 p;
      processor_current_speed := field_on big 18 2 p;
      processor_status := ProcessorStatus_truncate (field_on big 20 1 p);
      processor_processor_upgrade := ProcessorUpgrade_from (field_on big 21 1 p);
      processor_l1_cache_handle := Some (field_on big 22 2 p);
      processor_l2_cache_handle := Some (field_on big 24 2 p);
      processor_l3_cache_handle := Some (field_on big 26 2 p);
      processor_serial_number := Some serial_number;
      processor_asset_tag := Some asset_tag;
      processor_part_number := Some part_number;
      processor_core_count := Some (field_on big 31 1 p);
      processor_core_enabled := Some (field_on big 32 1 p);
      processor_thread_count := Some (field_on big 33 1 p);
      processor_processor_characteristics := Some (ProcessorCharacteristics_truncate (field_on big 34 2 p))
    |})
  else
    let! p := read_packed c 44 r in
    let? socket_designation := Val (find_string r (field_on big 0 1 p)) in
    let? processor_manufacturer := Val (find_string r (field_on big 3 1 p)) in
    let? processor_version := Val (find_string r (field_on big 12 1 p)) in
    let? serial_number := Val (find_string r (field_on big 28 1 p)) in
    let? asset_tag := Val (find_string r (field_on big 29 1 p)) in
    let? part_number := Val (find_string r (field_on big 30 1 p)) in
    Val (Ok {|
      processor_handle := handle r;
      processor_socket_designation := socket_designation;
      processor_processor_type := ProcessorType_from (field_on big 1 1 p);
      processor_processor_family := processor_family_or_2_on big p;
      processor_processor_manufacturer := processor_manufacturer;
      processor_processor_id := field_on big 4 8 p;
      processor_processor_version := processor_version;
      processor_voltage := Voltage_from (field_on big 13 1 p);
      processor_external_clock := field_on big 14 2 p;
      processor_max_speed := field_on big 16 2 p;
      processor_current_speed := field_on big 18 2 p;
      processor_status := ProcessorStatus_truncate (field_on big 20 1 p);
      processor_processor_upgrade := ProcessorUpgrade_from (field_on big 21 1 p);
      processor_l1_cache_handle := Some (field_on big 22 2 p);
      processor_l2_cache_handle := Some (field_on big 24 2 p);
      processor_l3_cache_handle := Some (field_on big 26 2 p);
      processor_serial_number := Some serial_number;
      processor_asset_tag := Some asset_tag;
      processor_part_number := Some part_number;
      processor_core_count := if field_on big 31 1 p =? 0xFF then Some (field_on big 38 2 p) else Some (field_on big 31 1 p);
      processor_core_enabled := if field_on big 32 1 p =? 0xFF then Some (field_on big 40 2 p) else Some (field_on big 32 1 p);
      processor_thread_count := if field_on big 33 1 p =? 0xFF then Some (field_on big 42 2 p) else Some (field_on big 33 1 p);
      processor_processor_characteristics := Some (ProcessorCharacteristics_truncate (field_on big 34 2 p))
    |}).

(* 007_cache.rs:170-272 `Cache::try_from` *)
Definition Cache_try_from_on (big : bool) (c : cfg) (r : RawStructure) : out (res Cache) :=
  if version_gt (version r) (version_of 3 1) then
    let! p := read_packed c 23 r in
    let? socket_designation := Val (find_string r (field_on big 0 1 p)) in
    let! cache_configuration := CacheConfiguration_from (field_on big 1 2 p) in
    Val (Ok {|
      cache_handle := handle r;
      cache_socket_designation := socket_designation;
      cache_cache_configuration := cache_configuration;
      cache_maximum_cache_size := CacheSize_from (field_on big 3 2 p);
      cache_installed_size := CacheSize_from (field_on big 5 2 p);
      cache_supported_sram_type := CacheSramType_truncate (field_on big 7 2 p);
      cache_current_sram_type := CacheSramType_truncate (field_on big 9 2 p);
      cache_cache_speed := Some (field_on big 11 1 p);
      cache_error_correction_type := Some (CacheErrorCorrectionType_from (field_on big 12 1 p));
      cache_system_cache_type := Some (SystemCacheType_from (field_on big 13 1 p));
      cache_associativity := Some (CacheAssociativity_from (field_on big 14 1 p));
      cache_maximum_cache_size_2 := Some (CacheSize2_from (field_on big 15 4 p));
      cache_installed_size_2 := Some (CacheSize2_from (field_on big 19 4 p))
    |})
  else if version_gt (version r) (version_of 2 1) then
    let! p := read_packed c 15 r in
    let? socket_designation := Val (find_string r (field_on big 0 1 p)) in
    let! cache_configuration := CacheConfiguration_from (field_on big 1 2 p) in
    Val (Ok {|
      cache_handle := handle r;
      cache_socket_designation := socket_designation;
      cache_cache_configuration := cache_configuration;
      cache_maximum_cache_size := CacheSize_from (field_on big 3 2 p);
      cache_installed_size := CacheSize_from (field_on big 5 2 p);
      cache_supported_sram_type := CacheSramType_truncate (field_on big 7 2 p);
      cache_current_sram_type := CacheSramType_truncate (field_on big 9 2 p);
      cache_cache_speed := Some (field_on big 11 1 p);
      cache_error_correction_type := Some (CacheErrorCorrectionType_from (field_on big 12 1 p));
      cache_system_cache_type := Some (SystemCacheType_from (field_on big 13 1 p));
      cache_associativity := Some (CacheAssociativity_from (field_on big 14 1 p));
      cache_maximum_cache_size_2 := None;
      cache_installed_size_2 := None
    |})
  else if version_gt (version r) (version_of 2 0) then
    let! p := read_packed c 11 r in
    let? socket_designation := Val (find_string r (field_on big 0 1 p)) in
    let! cache_configuration := CacheConfiguration_from (field_on big 1 2 p) in
    Val (Ok {|
      cache_handle := handle r;
      cache_socket_designation := socket_designation;
      cache_cache_configuration := cache_configuration;
      cache_maximum_cache_size := CacheSize_from (field_on big 3 2 p);
      cache_installed_size := CacheSize_from (field_on big 5 2 p);
      cache_supported_sram_type := CacheSramType_truncate (field_on big 7 2 p);
      cache_current_sram_type := CacheSramType_truncate (field_on big 9 2 p);
      cache_cache_speed := None;
      cache_error_correction_type := None;
      cache_system_cache_type := None;
      cache_associativity := None;
      cache_maximum_cache_size_2 := None;
      cache_installed_size_2 := None
    |})
  else Panic.

(* 008_port_connector.rs:128-150 `PortConnector::try_from` *)
Definition PortConnector_try_from_on (big : bool) (c : cfg) (r : RawStructure) : out (res PortConnector) :=
  let! p := read_packed c 5 r in
  let? internal_reference_designator := Val (find_string r (field_on big 0 1 p)) in
  let? external_reference_designator := Val (find_string r (field_on big 2 1 p)) in
  Val (Ok {|
    port_handle := handle r;
    port_internal_reference_designator := internal_reference_designator;
    port_internal_connector_type := ConnectorType_from (field_on big 1 1 p);
    port_external_reference_designator := external_reference_designator;
    port_external_connector_type := ConnectorType_from (field_on big 3 1 p);
    port_port_type := PortType_from (field_on big 4 1 p)
  |}).

(* 009_system_slots.rs:798-808 `impl From<&[u8]> for Device` *)
Definition Device_from_on (big : bool) (p : list N) : out Device :=
  if 5 <=? len p then
    Val {| device_segment_group_number := field_on big 0 2 p;
           device_bus_number := field_on big 2 1 p;
           device_device_and_function_number := DeviceAndFunctionNumber_from (field_on big 3 1 p);
           device_data_bus_width := field_on big 4 1 p |}
  else UB.

(* 009_system_slots.rs:862-868 `Iterator for PeerDevices`, next *)
Definition PeerDevices_next_on (big : bool) (s : PeerDevices) : out (option Device * PeerDevices) :=
  match peer_chunks s with
  | [] => Val (None, s)
  | _ :: _ =>
    let! d := Device_from_on big (take 5 (peer_chunks s)) in
    Val (Some d, {| peer_chunks := drop 5 (peer_chunks s) |})
  end.

(* 013_bios_language.rs:33-71 `BiosLanguage::try_from` *)
Definition BiosLanguage_try_from_on (big : bool) (c : cfg) (r : RawStructure) : out (res BiosLanguage) :=
  if version_ge (version r) (version_of 2 1) then
    let! p := read_packed c 18 r in
    Val (Ok {|
      language_handle := handle r;
      language_installable_languages := InstallableLanguages_new r;
      language_flags := Some (field_on big 1 1 p);
      language_current_language := field_on big 17 1 p
    |})
  else
    let! p := read_packed c 17 r in
    Val (Ok {|
      language_handle := handle r;
      language_installable_languages := InstallableLanguages_new r;
      language_flags := None;
      language_current_language := field_on big 16 1 p
    |}).

(* lib.rs:489-519 the dispatch on `structure.info` *)
Definition dispatch_on (big : bool) (c : cfg) (r : RawStructure) : out (res Structure) :=
  match info r with
  | InfoType_Bios => map_ok SBios (Bios_try_from_on big c r)
  | InfoType_System => map_ok SSystem (System_try_from_on big c r)
  | InfoType_BaseBoard => map_ok SBaseBoard (BaseBoard_try_from_on big c r)
  | InfoType_Enclosure => map_ok SEnclosure (Enclosure_try_from_on big c r)
  | InfoType_Processor => map_ok SProcessor (Processor_try_from_on big c r)
  | InfoType_Cache => map_ok SCache (Cache_try_from_on big c r)
  | InfoType_PortConnector => map_ok SPortConnector (PortConnector_try_from_on big c r)
  | InfoType_SystemSlots => map_ok SSystemSlots (SystemSlots_try_from c r)
  | InfoType_OemStrings => map_ok SOemStrings (OemStrings_try_from c r)
  | InfoType_SystemConfigurationOptions =>
      map_ok SSystemConfigurationOptions (SystemConfigurationOptions_try_from c r)
  | InfoType_BiosLanguage => map_ok SBiosLanguage (BiosLanguage_try_from_on big c r)
  | InfoType_GroupAssociations => map_ok SGroupAssociations (GroupAssociations_try_from c r)
  | InfoType_SystemEventLog => map_ok SSystemEventLog (SystemEventLog_try_from c r)
  | InfoType_PhysicalMemoryArray => map_ok SPhysicalMemoryArray (PhysicalMemoryArray_try_from c r)
  | InfoType_MemoryDevice => map_ok SMemoryDevice (MemoryDevice_try_from c r)
  | InfoType_MemoryError32 => map_ok SMemoryError32 (MemoryError32_try_from c r)
  | InfoType_MemoryArrayMappedAddress =>
      map_ok SMemoryArrayMappedAddress (MemoryArrayMappedAddress_try_from c r)
  | InfoType_MemoryDeviceMappedAddress =>
      map_ok SMemoryDeviceMappedAddress (MemoryDeviceMappedAddress_try_from c r)
  | InfoType_BuiltInPointingDevice => map_ok SBuiltInPointingDevice (BuiltInPointingDevice_try_from c r)
  | InfoType_PortableBattery => map_ok SPortableBattery (PortableBattery_try_from c r)
  | _ => Val (Ok (SOther r))
  end.

(* lib.rs:467-521 `Iterator for Structures`, next *)
Definition next_on (big : bool) (c : cfg) (s : Structures) : out (option (res Structure) * Structures) :=
  let! (item, s1) := next_raw_on big c s in
  match item with
  | None => Val (None, s1)
  | Some (Err e) =>
    Val (Some (Err e), {| smbios_version := smbios_version s1; smbios_len_ := idx s1;
                          idx := idx s1; buffer := buffer s1 |})
  | Some (Ok r) =>
    let s2 := if (3 <=? major (smbios_version s1)) && is_end (info r)
              then {| smbios_version := smbios_version s1; smbios_len_ := idx s1;
                      idx := idx s1; buffer := buffer s1 |}
              else s1 in
    let! x := dispatch_on big c r in
    Val (Some x, s2)
  end.
