(* Model of /repo/src/structures/009_system_slots.rs.  The LAYOUT tables are in
   G_Layouts. *)
From Coq Require Import String.
From Verif Require Import Base G_Enums M_Raw.
Local Open Scope N_scope.

(* 009_system_slots.rs:312-313 `struct DeviceAndFunctionNumber(u8, u8)` *)
Record DeviceAndFunctionNumber := { dev : N; fun_ : N }.

(* 009_system_slots.rs:300-310 `struct Device` *)
Record Device := {
  device_segment_group_number : N;
  device_bus_number : N;
  device_device_and_function_number : DeviceAndFunctionNumber;
  device_data_bus_width : N
}.

(* 009_system_slots.rs:325-327 `struct PeerDevices(Chunks)`: the part of the slice
   not yet yielded *)
Record PeerDevices := { peer_chunks : list N }.

(* 009_system_slots.rs:22-72 `struct SystemSlots`; the characteristics and the slot
   pitch are their integer *)
Record SystemSlots := {
  slots_handle : N;
  slots_slot_designation : text;
  slots_slot_type : SlotType;
  slots_slot_data_bus_width : SlotWidth;
  slots_current_usage : CurrentUsage;
  slots_slot_length : SlotLength;
  slots_slot_id : N;
  slots_slot_characteristics_1 : N;
  slots_slot_characteristics_2 : option N;
  slots_segment_group_number : option N;
  slots_bus_number : option N;
  slots_device_and_function_number : option DeviceAndFunctionNumber;
  slots_data_bus_width : option N;
  slots_peer_devices : option PeerDevices;
  slots_slot_information : option N;
  slots_slot_physical_width : option SlotWidth;
  slots_slot_pitch : option N
}.

(* 009_system_slots.rs:835-839 `impl From<u8> for DeviceAndFunctionNumber` *)
Definition DeviceAndFunctionNumber_from (byte : N) : DeviceAndFunctionNumber :=
  {| dev := N.shiftr byte 3; fun_ := N.land byte 7 |}.

(* 009_system_slots.rs:840-844 `impl From<DeviceAndFunctionNumber> for u8`; u8 shift *)
Definition DeviceAndFunctionNumber_to (df : DeviceAndFunctionNumber) : N :=
  N.lor (cast 8 (N.shiftl (dev df) 3)) (fun_ df).

(* 009_system_slots.rs:798-808 `impl From<&[u8]> for Device`: copies five bytes
   without a length check; the model has no memory after a chunk, a shorter chunk
   is undefined behaviour *)
Definition Device_from (p : list N) : out Device :=
  if 5 <=? len p then
    Val {| device_segment_group_number := at_ 0 2 p;
           device_bus_number := at_ 2 1 p;
           device_device_and_function_number := DeviceAndFunctionNumber_from (at_ 3 1 p);
           device_data_bus_width := at_ 4 1 p |}
  else UB.

(* 009_system_slots.rs:809-820 `impl From<&Device> for [u8; 5]` (little endian) *)
Definition Device_to (d : Device) : list N :=
  [device_segment_group_number d mod 256; device_segment_group_number d / 256;
   device_bus_number d; DeviceAndFunctionNumber_to (device_device_and_function_number d);
   device_data_bus_width d].

(* 009_system_slots.rs:862-868 `Iterator for PeerDevices`, next: chunks(5) *)
Definition PeerDevices_next (s : PeerDevices) : out (option Device * PeerDevices) :=
  match peer_chunks s with
  | [] => Val (None, s)
  | _ :: _ =>
    let! d := Device_from (take 5 (peer_chunks s)) in
    Val (Some d, {| peer_chunks := drop 5 (peer_chunks s) |})
  end.

(* 009_system_slots.rs:342-405 `SystemSlots::try_from` *)
Definition SystemSlots_try_from (c : cfg) (r : RawStructure) : out (res SystemSlots) :=
  let l := len (data r) + 4 in
  let v := version r in
  let bad spec n := Val (Err (InvalidFormattedSectionLength InfoType_SystemSlots (handle r) spec n)) in
  if (version_ge v (version_of 2 0) && version_lt v (version_of 2 1)) && negb (l =? 0x0C) then bad EmptyString 0x0C
  else if (version_ge v (version_of 2 1) && version_lt v (version_of 2 6)) && negb (l =? 0x0D) then bad EmptyString 0x0D
  else if (version_ge v (version_of 2 6) && version_lt v (version_of 3 2)) && negb (l =? 0x11) then bad EmptyString 0x11
  else if version_ge v (version_of 3 2) && (l <? 0x11) then bad "minimum of "%string 0x11
  else
    let! count := get_ok c 1 0x12 r in
    let n := match count with Some x => x | None => 0 end in
    let? slot_designation := get_string c 0x04 r in
    let? slot_type := get c 1 0x05 r in
    let? slot_data_bus_width := get c 1 0x06 r in
    let? current_usage := get c 1 0x07 r in
    let? slot_length := get c 1 0x08 r in
    let? slot_id := get c 2 0x09 r in
    let? slot_characteristics_1 := get c 1 0x0B r in
    let! slot_characteristics_2 := get_ok c 1 0x0C r in
    let! segment_group_number := get_ok c 2 0x0D r in
    let! bus_number := get_ok c 1 0x0F r in
    let! device_and_function_number := get_ok c 1 0x10 r in
    let! data_bus_width := get_ok c 1 0x11 r in
    let! peer_devices := get_slice c 0x13 (5 * n) r in
    let! slot_information := get_ok c 1 (0x14 + 5 * n) r in
    let! slot_physical_width := get_ok c 1 (0x15 + 5 * n) r in
    let! slot_pitch := get_ok c 2 (0x16 + 5 * n) r in
    Val (Ok {|
      slots_handle := handle r;
      slots_slot_designation := slot_designation;
      slots_slot_type := SlotType_from slot_type;
      slots_slot_data_bus_width := SlotWidth_from slot_data_bus_width;
      slots_current_usage := CurrentUsage_from current_usage;
      slots_slot_length := SlotLength_from slot_length;
      slots_slot_id := slot_id;
      slots_slot_characteristics_1 := slot_characteristics_1;
      slots_slot_characteristics_2 := slot_characteristics_2;
      slots_segment_group_number := ofilter (fun x => negb (x =? 0xFFFF)) segment_group_number;
      slots_bus_number := ofilter (fun x => negb (x =? 0xFF)) bus_number;
      slots_device_and_function_number :=
        option_map DeviceAndFunctionNumber_from (ofilter (fun x => negb (x =? 0xFF)) device_and_function_number);
      slots_data_bus_width := data_bus_width;
      slots_peer_devices := option_map (fun s => {| peer_chunks := s |}) peer_devices;
      slots_slot_information := slot_information;
      slots_slot_physical_width := option_map SlotWidth_from slot_physical_width;
      slots_slot_pitch := slot_pitch
    |}).
