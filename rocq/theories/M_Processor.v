(* Model of /repo/src/structures/004_processor.rs *)
From Verif Require Import Base G_Enums M_Raw.
Local Open Scope N_scope.

(* 004_processor.rs:387-391 `enum Voltage`; 393-401 VoltageLegacy is its bits *)
Inductive Voltage := Voltage_Legacy (bits : N) | Voltage_Current (v : N) | Voltage_Undefined (v : N).

(* 004_processor.rs:1467-1479 `impl From<u8> for Voltage`; VoltageLegacy names bits
   0 to 2, from_bits_truncate keeps those *)
Definition Voltage_from (byte : N) : Voltage :=
  if N.land byte 0x80 =? 0 then
    if negb (N.land byte 0x78 =? 0) then Voltage_Undefined byte
    else Voltage_Legacy (N.land byte 0x07)
  else Voltage_Current (N.land byte 0x7F).

(* 004_processor.rs:41-53 `bitflags! ProcessorStatus`: the named bits are 0,1,2,6 *)
Definition ProcessorStatus_truncate (b : N) : N := N.land b 0x47.

(* 004_processor.rs:55-69 `bitflags! ProcessorCharacteristics`: bits 0..7 and 9 *)
Definition ProcessorCharacteristics_truncate (b : N) : N := N.land b 0x2FF.

(* 004_processor.rs:75-126 `struct Processor` *)
Record Processor := {
  processor_handle : N;
  processor_socket_designation : text;
  processor_processor_type : ProcessorType;
  processor_processor_family : ProcessorFamily;
  processor_processor_manufacturer : text;
  processor_processor_id : N;
  processor_processor_version : text;
  processor_voltage : Voltage;
  processor_external_clock : N;
  processor_max_speed : N;
  processor_current_speed : N;
  processor_status : N;
  processor_processor_upgrade : ProcessorUpgrade;
  processor_l1_cache_handle : option N;
  processor_l2_cache_handle : option N;
  processor_l3_cache_handle : option N;
  processor_serial_number : option text;
  processor_asset_tag : option text;
  processor_part_number : option text;
  processor_core_count : option N;
  processor_core_enabled : option N;
  processor_thread_count : option N;
  processor_processor_characteristics : option N
}.

(* 004_processor.rs:825-829 `impl From<u8> for ProcessorFamily` goes through u16 *)
Definition ProcessorFamily_from_u8 (b : N) : ProcessorFamily := ProcessorFamily_from b.

(* 004_processor.rs:727-730 and 763-766: family FEh means "see Processor Family 2" *)
Definition processor_family_or_2 (p : list N) : ProcessorFamily :=
  match ProcessorFamily_from_u8 (at_ 2 1 p) with
  | ProcessorFamily_ProcessorFamily2 => ProcessorFamily_from (at_ 36 2 p)
  | family => family
  end.

(* 004_processor.rs:471-822 `Processor::try_from`; packed layouts of 22, 28, 31, 36,
   38 and 44 bytes *)
Definition Processor_try_from (c : cfg) (r : RawStructure) : out (res Processor) :=
  if version_lt (version r) (version_of 2 1) then
    let! p := read_packed c 22 r in
    let? socket_designation := Val (find_string r (at_ 0 1 p)) in
    let? processor_manufacturer := Val (find_string r (at_ 3 1 p)) in
    let? processor_version := Val (find_string r (at_ 12 1 p)) in
    Val (Ok {|
      processor_handle := handle r;
      processor_socket_designation := socket_designation;
      processor_processor_type := ProcessorType_from (at_ 1 1 p);
      processor_processor_family := ProcessorFamily_from_u8 (at_ 2 1 p);
      processor_processor_manufacturer := processor_manufacturer;
      processor_processor_id := at_ 4 8 p;
      processor_processor_version := processor_version;
      processor_voltage := Voltage_from (at_ 13 1 p);
      processor_external_clock := at_ 14 2 p;
      processor_max_speed := at_ 16 2 p;
      processor_current_speed := at_ 18 2 p;
      processor_status := ProcessorStatus_truncate (at_ 20 1 p);
      processor_processor_upgrade := ProcessorUpgrade_from (at_ 21 1 p);
      processor_l1_cache_handle := None;
      processor_l2_cache_handle := None;
      processor_l3_cache_handle := None;
      processor_serial_number := None;
      processor_asset_tag := None;
      processor_part_number := None;
      processor_core_count := None;
      processor_core_enabled := None;
      processor_thread_count := None;
      processor_processor_characteristics := None
    |})
  else if version_lt (version r) (version_of 2 3) then
    let! p := read_packed c 28 r in
    let? socket_designation := Val (find_string r (at_ 0 1 p)) in
    let? processor_manufacturer := Val (find_string r (at_ 3 1 p)) in
    let? processor_version := Val (find_string r (at_ 12 1 p)) in
    Val (Ok {|
      processor_handle := handle r;
      processor_socket_designation := socket_designation;
      processor_processor_type := ProcessorType_from (at_ 1 1 p);
      processor_processor_family := ProcessorFamily_from_u8 (at_ 2 1 p);
      processor_processor_manufacturer := processor_manufacturer;
      processor_processor_id := at_ 4 8 p;
      processor_processor_version := processor_version;
      processor_voltage := Voltage_from (at_ 13 1 p);
      processor_external_clock := at_ 14 2 p;
      processor_max_speed := at_ 16 2 p;
      processor_current_speed := at_ 18 2 p;
      processor_status := ProcessorStatus_truncate (at_ 20 1 p);
      processor_processor_upgrade := ProcessorUpgrade_from (at_ 21 1 p);
      processor_l1_cache_handle := Some (at_ 22 2 p);
      processor_l2_cache_handle := Some (at_ 24 2 p);
      processor_l3_cache_handle := Some (at_ 26 2 p);
      processor_serial_number := None;
      processor_asset_tag := None;
      processor_part_number := None;
      processor_core_count := None;
      processor_core_enabled := None;
      processor_thread_count := None;
      processor_processor_characteristics := None
    |})
  else if version_lt (version r) (version_of 2 5) then
    let! p := read_packed c 31 r in
    let? socket_designation := Val (find_string r (at_ 0 1 p)) in
    let? processor_manufacturer := Val (find_string r (at_ 3 1 p)) in
    let? processor_version := Val (find_string r (at_ 12 1 p)) in
    let? serial_number := Val (find_string r (at_ 28 1 p)) in
    let? asset_tag := Val (find_string r (at_ 29 1 p)) in
    let? part_number := Val (find_string r (at_ 30 1 p)) in
    Val (Ok {|
      processor_handle := handle r;
      processor_socket_designation := socket_designation;
      processor_processor_type := ProcessorType_from (at_ 1 1 p);
      processor_processor_family := ProcessorFamily_from_u8 (at_ 2 1 p);
      processor_processor_manufacturer := processor_manufacturer;
      processor_processor_id := at_ 4 8 p;
      processor_processor_version := processor_version;
      processor_voltage := Voltage_from (at_ 13 1 p);
      processor_external_clock := at_ 14 2 p;
      processor_max_speed := at_ 16 2 p;
      processor_current_speed := at_ 18 2 p;
      processor_status := ProcessorStatus_truncate (at_ 20 1 p);
      processor_processor_upgrade := ProcessorUpgrade_from (at_ 21 1 p);
      processor_l1_cache_handle := Some (at_ 22 2 p);
      processor_l2_cache_handle := Some (at_ 24 2 p);
      processor_l3_cache_handle := Some (at_ 26 2 p);
      processor_serial_number := Some serial_number;
      processor_asset_tag := Some asset_tag;
      processor_part_number := Some part_number;
      processor_core_count := None;
      processor_core_enabled := None;
      processor_thread_count := None;
      processor_processor_characteristics := None
    |})
  else if version_lt (version r) (version_of 2 6) then
    let! p := read_packed c 36 r in
    let? socket_designation := Val (find_string r (at_ 0 1 p)) in
    let? processor_manufacturer := Val (find_string r (at_ 3 1 p)) in
    let? processor_version := Val (find_string r (at_ 12 1 p)) in
    let? serial_number := Val (find_string r (at_ 28 1 p)) in
    let? asset_tag := Val (find_string r (at_ 29 1 p)) in
    let? part_number := Val (find_string r (at_ 30 1 p)) in
    Val (Ok {|
      processor_handle := handle r;
      processor_socket_designation := socket_designation;
      processor_processor_type := ProcessorType_from (at_ 1 1 p);
      processor_processor_family := ProcessorFamily_from_u8 (at_ 2 1 p);
      processor_processor_manufacturer := processor_manufacturer;
      processor_processor_id := at_ 4 8 p;
      processor_processor_version := processor_version;
      processor_voltage := Voltage_from (at_ 13 1 p);
      processor_external_clock := at_ 14 2 p;
      processor_max_speed := at_ 16 2 p;
      processor_current_speed := at_ 18 2 p;
      processor_status := ProcessorStatus_truncate (at_ 20 1 p);
      processor_processor_upgrade := ProcessorUpgrade_from (at_ 21 1 p);
      processor_l1_cache_handle := Some (at_ 22 2 p);
      processor_l2_cache_handle := Some (at_ 24 2 p);
      processor_l3_cache_handle := Some (at_ 26 2 p);
      processor_serial_number := Some serial_number;
      processor_asset_tag := Some asset_tag;
      processor_part_number := Some part_number;
      processor_core_count := Some (at_ 31 1 p);
      processor_core_enabled := Some (at_ 32 1 p);
      processor_thread_count := Some (at_ 33 1 p);
      processor_processor_characteristics := None
    |})
  else if version_lt (version r) (version_of 3 0) then
    let! p := read_packed c 38 r in
    let? socket_designation := Val (find_string r (at_ 0 1 p)) in
    let? processor_manufacturer := Val (find_string r (at_ 3 1 p)) in
    let? processor_version := Val (find_string r (at_ 12 1 p)) in
    let? serial_number := Val (find_string r (at_ 28 1 p)) in
    let? asset_tag := Val (find_string r (at_ 29 1 p)) in
    let? part_number := Val (find_string r (at_ 30 1 p)) in
    Val (Ok {|
      processor_handle := handle r;
      processor_socket_designation := socket_designation;
      processor_processor_type := ProcessorType_from (at_ 1 1 p);
      processor_processor_family := processor_family_or_2 p;
      processor_processor_manufacturer := processor_manufacturer;
      processor_processor_id := at_ 4 8 p;
      processor_processor_version := processor_version;
      processor_voltage := Voltage_from (at_ 13 1 p);
      processor_external_clock := at_ 14 2 p;
      processor_max_speed := at_ 16 2 p;
      processor_current_speed := at_ 18 2 p;
      processor_status := ProcessorStatus_truncate (at_ 20 1 p);
      processor_processor_upgrade := ProcessorUpgrade_from (at_ 21 1 p);
      processor_l1_cache_handle := Some (at_ 22 2 p);
      processor_l2_cache_handle := Some (at_ 24 2 p);
      processor_l3_cache_handle := Some (at_ 26 2 p);
      processor_serial_number := Some serial_number;
      processor_asset_tag := Some asset_tag;
      processor_part_number := Some part_number;
      processor_core_count := Some (at_ 31 1 p);
      processor_core_enabled := Some (at_ 32 1 p);
      processor_thread_count := Some (at_ 33 1 p);
      processor_processor_characteristics := Some (ProcessorCharacteristics_truncate (at_ 34 2 p))
    |})
  else
    let! p := read_packed c 44 r in
    let? socket_designation := Val (find_string r (at_ 0 1 p)) in
    let? processor_manufacturer := Val (find_string r (at_ 3 1 p)) in
    let? processor_version := Val (find_string r (at_ 12 1 p)) in
    let? serial_number := Val (find_string r (at_ 28 1 p)) in
    let? asset_tag := Val (find_string r (at_ 29 1 p)) in
    let? part_number := Val (find_string r (at_ 30 1 p)) in
    Val (Ok {|
      processor_handle := handle r;
      processor_socket_designation := socket_designation;
      processor_processor_type := ProcessorType_from (at_ 1 1 p);
      processor_processor_family := processor_family_or_2 p;
      processor_processor_manufacturer := processor_manufacturer;
      processor_processor_id := at_ 4 8 p;
      processor_processor_version := processor_version;
      processor_voltage := Voltage_from (at_ 13 1 p);
      processor_external_clock := at_ 14 2 p;
      processor_max_speed := at_ 16 2 p;
      processor_current_speed := at_ 18 2 p;
      processor_status := ProcessorStatus_truncate (at_ 20 1 p);
      processor_processor_upgrade := ProcessorUpgrade_from (at_ 21 1 p);
      processor_l1_cache_handle := Some (at_ 22 2 p);
      processor_l2_cache_handle := Some (at_ 24 2 p);
      processor_l3_cache_handle := Some (at_ 26 2 p);
      processor_serial_number := Some serial_number;
      processor_asset_tag := Some asset_tag;
      processor_part_number := Some part_number;
      processor_core_count := if at_ 31 1 p =? 0xFF then Some (at_ 38 2 p) else Some (at_ 31 1 p);
      processor_core_enabled := if at_ 32 1 p =? 0xFF then Some (at_ 40 2 p) else Some (at_ 32 1 p);
      processor_thread_count := if at_ 33 1 p =? 0xFF then Some (at_ 42 2 p) else Some (at_ 33 1 p);
      processor_processor_characteristics := Some (ProcessorCharacteristics_truncate (at_ 34 2 p))
    |}).
