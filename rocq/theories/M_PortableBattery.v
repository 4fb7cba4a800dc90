(* Model of /repo/src/structures/022_portable_battery.rs *)
From Coq Require Import String.
From Verif Require Import Base G_Enums M_Raw.
Local Open Scope N_scope.

(* 022_portable_battery.rs:45-89 the value types of the fields *)
Inductive ManufactureDate :=
| MD_None | MD_Basic (s : text) | MD_SmartBatteryDataSpecification (year month date : N).
Inductive SerialNumber :=
| SN_None | SN_Basic (s : text) | SN_SmartBatteryDataSpecification (word : N).
Inductive DesignCapacity := DC_Unknown | DC_Data (value multiplier : N).
Inductive DeviceChemistry :=
| Chem_Other | Chem_Unknown | Chem_LeadAcid | Chem_NickelCadmium | Chem_NickelMetalHydride
| Chem_LithiumIon | Chem_ZincAir | Chem_LithiumPolymer | Chem_Undefined (v : N)
| Chem_SmartBatteryDataSpecification (s : text).

(* 022_portable_battery.rs:15-43 `struct PortableBattery` *)
Record PortableBattery := {
  battery_handle : N;
  battery_location : text;
  battery_manufacturer : text;
  battery_manufacture_date : ManufactureDate;
  battery_serial_number : SerialNumber;
  battery_device_name : text;
  battery_device_chemistry : DeviceChemistry;
  battery_design_capacity : DesignCapacity;
  battery_design_voltage : N;
  battery_sbds_version_number : text;
  battery_maximum_error_in_battery_data : N;
  battery_oem_specific : option N
}.

(* 022_portable_battery.rs:139-151 `ManufactureDate::new`; the u16 addition of 1980
   cannot overflow (the field has 7 bits) *)
Definition ManufactureDate_new (basic : option text) (sbds : option N) : ManufactureDate :=
  match basic, sbds with
  | Some s, _ => MD_Basic s
  | None, Some date =>
    MD_SmartBatteryDataSpecification
      (N.shiftr (N.land date 0xFE00) 9 + 1980)
      (cast 8 (N.shiftr (N.land date 0x1E0) 5))
      (cast 8 (N.land date 0x1F))
  | None, None => MD_None
  end.

(* 022_portable_battery.rs:166-174 `SerialNumber::new` *)
Definition SerialNumber_new (basic : option text) (sbds : option N) : SerialNumber :=
  match basic, sbds with
  | Some s, _ => SN_Basic s
  | None, Some word => SN_SmartBatteryDataSpecification word
  | None, None => SN_None
  end.

(* 022_portable_battery.rs:185-205 `DeviceChemistry::new` *)
Definition DeviceChemistry_new (basic : N) (sbds : option text) : DeviceChemistry :=
  if basic =? 0x01 then Chem_Other
  else if basic =? 0x02 then
    match sbds with
    | Some s => Chem_SmartBatteryDataSpecification s
    | None => Chem_Unknown
    end
  else if basic =? 0x03 then Chem_LeadAcid
  else if basic =? 0x04 then Chem_NickelCadmium
  else if basic =? 0x05 then Chem_NickelMetalHydride
  else if basic =? 0x06 then Chem_LithiumIon
  else if basic =? 0x07 then Chem_ZincAir
  else if basic =? 0x08 then Chem_LithiumPolymer
  else Chem_Undefined basic.

(* 022_portable_battery.rs:223-234 `DesignCapacity::new` *)
Definition DesignCapacity_new (value : N) (multiplier : option N) : DesignCapacity :=
  if value =? 0 then DC_Unknown
  else DC_Data value (match multiplier with Some m => m | None => 1 end).

(* 022_portable_battery.rs:235-242 `impl From<DesignCapacity> for u64`: the product
   is computed in u16 *)
Definition DesignCapacity_to_u64 (c : cfg) (d : DesignCapacity) : out N :=
  match d with
  | DC_Unknown => Val 0
  | DC_Data value multiplier => u_mul c 16 value multiplier
  end.

(* 022_portable_battery.rs:112-116 and 120-124:
   `get::<u8>(o).ok().filter(|idx| idx != &0).and_then(|idx| find_string(idx).ok())` *)
Definition basic_string (c : cfg) (offset : N) (r : RawStructure) : out (option text) :=
  let! idx := get_ok c 1 offset r in
  Val (oand_then (ofilter (fun i => negb (i =? 0)) idx) (fun i => ok (find_string r i))).

(* 022_portable_battery.rs:91-136 `PortableBattery::try_from` *)
Definition PortableBattery_try_from (c : cfg) (r : RawStructure) : out (res PortableBattery) :=
  let v := version r in
  let bad n := Val (Err (InvalidFormattedSectionLength InfoType_PortableBattery (handle r) EmptyString n)) in
  if version_eq v (version_of 2 1) && negb (length_ r =? 0x10) then bad 0x10
  else if version_ge v (version_of 2 2) && negb (length_ r =? 0x1A) then bad 0x1A
  else
    let? location := get_string c 0x04 r in
    let? manufacturer := get_string c 0x05 r in
    let! date_basic := basic_string c 0x06 r in
    let! date_sbds := get_ok c 2 0x12 r in
    let! serial_basic := basic_string c 0x07 r in
    let! serial_sbds := get_ok c 2 0x10 r in
    let? device_name := get_string c 0x08 r in
    let? chemistry := get c 1 0x09 r in
    let! chemistry_sbds := get_string_ok c 0x14 r in
    let? capacity := get c 2 0x0A r in
    let! multiplier := get_ok c 1 0x15 r in
    let? design_voltage := get c 2 0x0C r in
    let? sbds_version_number := get_string c 0x0E r in
    let? maximum_error := get c 1 0x0F r in
    let! oem_specific := get_ok c 4 0x16 r in
    Val (Ok {|
      battery_handle := handle r;
      battery_location := location;
      battery_manufacturer := manufacturer;
      battery_manufacture_date := ManufactureDate_new date_basic date_sbds;
      battery_serial_number := SerialNumber_new serial_basic serial_sbds;
      battery_device_name := device_name;
      battery_device_chemistry := DeviceChemistry_new chemistry chemistry_sbds;
      battery_design_capacity := DesignCapacity_new capacity multiplier;
      battery_design_voltage := design_voltage;
      battery_sbds_version_number := sbds_version_number;
      battery_maximum_error_in_battery_data := maximum_error;
      battery_oem_specific := oem_specific
    |}).
