(* Model of the hand-written `Display` implementations of /repo/src (the ones of the
   plain enumerations are generated, in G_Enums; the one of Flag is in M_Bitfield).
   Texts are Coq strings, one character per byte of the UTF-8 text. *)
From Coq Require Import String Ascii.
From Verif Require Import Base G_Enums M_Raw M_Entry M_Bios M_Enclosure M_Processor M_SystemSlots
  M_SystemEventLog M_PortableBattery.
Local Open Scope string_scope.
Local Open Scope N_scope.

(* --------------------------------------------------- std::fmt, as far as used *)

(* a &str argument *)
Fixpoint show_text (t : text) : string :=
  match t with [] => "" | b :: t => String (ascii_of_N b) (show_text t) end.

(* `{:x}`: lower case hexadecimal digits *)
Definition digit_low (d : N) : string :=
  String (ascii_of_N (if d <? 10 then 48 + d else 87 + d)) EmptyString.
Fixpoint digits_low (fuel : nat) (n : N) (acc : string) : string :=
  match fuel with
  | O => acc
  | S f => let acc := digit_low (n mod 16) ++ acc in
           if n / 16 =? 0 then acc else digits_low f (n / 16) acc
  end.
Definition show_hex_low (n : N) : string := digits_low 64 n "".

(* `{:0w}`: zeros in front up to w characters *)
Fixpoint zeros (n : nat) : string := match n with O => "" | S n => String "0" (zeros n) end.
Definition pad (w : nat) (s : string) : string := zeros (w - String.length s) ++ s.

(* `x as f32 / 10.0` for x < 2^24 (exact as f32): the quotient rounded to nearest,
   ties to even, as mantissa m of 24 bits and scale k, meaning m / 2^k *)
Definition nearest_even (a b : N) : N :=
  let q := a / b in
  let r := a mod b in
  if (2 * r <? b) || ((2 * r =? b) && N.even q) then q else q + 1.
Definition f32_tenth (x : N) : N * N :=
  let k := 26 - N.log2 x in
  let k := if x * 2 ^ k <? 10 * 2 ^ 23 then k + 1 else k in
  (nearest_even (x * 2 ^ k) 10, k).
(* `{:.1}` of a non-negative f32 m / 2^k *)
Definition show_f32_1 (f : N * N) : string :=
  let t := nearest_even (10 * fst f) (2 ^ snd f) in
  show_dec (t / 10) ++ "." ++ show_dec (t mod 10).

(* ------------------------------------------------------------------ lib.rs *)

(* lib.rs:688-713: derived `Debug` of InfoType, the variant's name *)
Definition InfoType_debug (i : InfoType) : string :=
  match i with
  | InfoType_Bios => "Bios"
  | InfoType_System => "System"
  | InfoType_BaseBoard => "BaseBoard"
  | InfoType_Enclosure => "Enclosure"
  | InfoType_Processor => "Processor"
  | InfoType_Cache => "Cache"
  | InfoType_PortConnector => "PortConnector"
  | InfoType_SystemSlots => "SystemSlots"
  | InfoType_OemStrings => "OemStrings"
  | InfoType_SystemConfigurationOptions => "SystemConfigurationOptions"
  | InfoType_GroupAssociations => "GroupAssociations"
  | InfoType_SystemEventLog => "SystemEventLog"
  | InfoType_BiosLanguage => "BiosLanguage"
  | InfoType_PhysicalMemoryArray => "PhysicalMemoryArray"
  | InfoType_MemoryDevice => "MemoryDevice"
  | InfoType_MemoryError32 => "MemoryError32"
  | InfoType_MemoryArrayMappedAddress => "MemoryArrayMappedAddress"
  | InfoType_MemoryDeviceMappedAddress => "MemoryDeviceMappedAddress"
  | InfoType_BuiltInPointingDevice => "BuiltInPointingDevice"
  | InfoType_PortableBattery => "PortableBattery"
  | InfoType_SystemBoot => "SystemBoot"
  | InfoType_Oem t => "Oem(" ++ show_dec t ++ ")"
  | InfoType_End => "End"
  end.

(* lib.rs:318-334 `Display for InvalidEntryPointError` *)
Definition InvalidEntryPointError_display (e : InvalidEntryPointError) : string :=
  match e with
  | NotFound => "Input did not contain a valid SMBIOS entry point"
  | TooOldVersion version => "Input version number was below 2.0: " ++ show_dec version
  | EpBadSize size => "Input contained an invalid-sized SMBIOS entry: " ++ show_dec size
  | BadChecksum checksum => "SMBIOS entry point has an invalid checksum: " ++ show_dec checksum
  end.

(* lib.rs:407-436 `Display for MalformedStructureError`; the text of a
   TryFromSliceError is the one of core *)
Definition MalformedStructureError_display (e : MalformedStructureError) : string :=
  match e with
  | BadSize offset length =>
      "Structure at offset " ++ show_dec offset ++ " with length " ++ show_dec length ++ " extends beyond SMBIOS"
  | UnterminatedStrings offset => "Structure at offset " ++ show_dec offset ++ " with unterminated strings"
  | InvalidStringIndex info handle index =>
      "Structure " ++ InfoType_debug info ++ " with handle " ++ show_dec handle ++
      " has invalid string index " ++ show_dec index
  | InvalidSlice => "could not convert slice to array"
  | InvalidFormattedSectionLength info handle spec length =>
      "Formatted section length of structure " ++ InfoType_debug info ++ " with handle " ++ show_dec handle ++
      " should be " ++ spec ++ show_dec length ++ " bytes"
  end.

(* ------------------------------------------------------------- 000_bios.rs *)

(* 000_bios.rs:336-354 `Display for BiosRevision` and `for FirmwareRevision` *)
Definition Revision_display (r : Revision) : string :=
  if (rev_major r =? 0xFF) && (rev_minor r =? 0xFF) then "N/A"
  else show_dec (rev_major r) ++ "." ++ show_dec (rev_minor r).

(* -------------------------------------------------------- 003_enclosure.rs *)

(* 003_enclosure.rs:495-502 `Display for ContainedElementType`; the inner text is
   never the alternate one *)
Definition ContainedElementType_display (t : ContainedElementType) : string :=
  match t with
  | CE_BoardType board => "Baseboard type: " ++ BoardType_display false board
  | CE_InfoType info => "Structure type: " ++ InfoType_display false info
  end.
(* 003_enclosure.rs:479-483 `Display for ContainedElement` *)
Definition ContainedElement_display (e : ContainedElement) : string :=
  ContainedElementType_display (cel_type e) ++ " (" ++ show_dec (cel_minimum e) ++ "-" ++ show_dec (cel_maximum e) ++ ")".

(* -------------------------------------------------------- 004_processor.rs *)

(* 004_processor.rs:1480-1509 `Display for Voltage` *)
Definition Voltage_display (v : Voltage) : string :=
  match v with
  | Voltage_Current v => "Current voltage: " ++ (if v =? 0 then "0.0" else show_f32_1 (f32_tenth v)) ++ " V"
  | Voltage_Undefined n => "Undefined 0b" ++ show_bin n
  | Voltage_Legacy legacy =>
      let s55 := if N.testbit legacy 0 then "5.5V " else "" in
      let s33 := if N.testbit legacy 1 then "3.3V " else "" in
      let s29 := if N.testbit legacy 2 then "2.9V " else "" in
      if (s55 =? "")%string && (s33 =? "")%string && (s29 =? "")%string then "Voltage capability unknown"
      else "Processor socket accept: " ++ s55 ++ s33 ++ s29
  end.

(* ----------------------------------------------------- 009_system_slots.rs *)

(* 009_system_slots.rs:821-833 `Display for Device` *)
Definition Device_display (d : Device) : string :=
  pad 4 (show_hex_low (device_segment_group_number d)) ++ ":" ++ pad 2 (show_hex_low (device_bus_number d)) ++ ":" ++
  pad 2 (show_hex_low (dev (device_device_and_function_number d))) ++ "." ++ show_hex_low (fun_ (device_device_and_function_number d)) ++
  " (Width " ++ show_dec (device_data_bus_width d) ++ ")".

(* 009_system_slots.rs:875-883 `Display for SlotPitch` *)
Definition SlotPitch_display (w : N) : string :=
  if w =? 0 then "Not given or is unknown" else show_f32_1 (f32_tenth w) ++ " mm".

(* -------------------------------------------------- 015_system_event_log *)

(* log_record_format.rs:503-541 `Display for SystemManagementType` *)
Definition SystemManagementType_display (t : SystemManagementType) : string :=
  match t with
  | SMT_OutOfRangeVoltagePlus2_5Num1 => "+2.5V Out of range, #1"
  | SMT_OutOfRangeVoltagePlus2_5Num2 => "+2.5V Out of range, #2"
  | SMT_OutOfRangeVoltagePlus3_3 => "+3.3V Out of range"
  | SMT_OutOfRangeVoltagePlus5 => "+5V Out of range"
  | SMT_OutOfRangeVoltageMinus5 => "-5V Out of range"
  | SMT_OutOfRangeVoltagePlus12 => "+12V Out of range"
  | SMT_OutOfRangeVoltageMinus12 => "-12V Out of range"
  | SMT_OutOfRangeVoltageReserved v => "Out-of-range voltage reserved: " ++ show_dec v
  | SMT_OutOfRangeTemperatureSystemBoard => "System board temperature out of range"
  | SMT_OutOfRangeTemperatureProcessor1 => "Processor #1 temperature out of range"
  | SMT_OutOfRangeTemperatureProcessor2 => "Processor #2 temperature out of range"
  | SMT_OutOfRangeTemperatureProcessor3 => "Processor #3 temperature out of range"
  | SMT_OutOfRangeTemperatureProcessor4 => "Processor #4 temperature out of range"
  | SMT_OutOfRangeTemperatureReserved v => "Out-of-range temperatures reserved: " ++ show_dec v
  | SMT_OutOfRangeFan v => "Fan " ++ show_dec v ++ " Out of range"
  | SMT_ChassisSecureSwitchActivated => "Chassis secure switch activated"
  | SMT_OutOfRangeSystemManagementProbe v =>
      "A system-management probe or cooling device with handle 0x" ++ pad 4 (show_hex v) ++ " is out of range"
  | SMT_OemAssigned v => "OEM assigned: " ++ show_dec v
  | SMT_Reserved v => "Reserved: " ++ show_dec v
  end.

(* log_record_format.rs:373-411 `Display for VariableDataFormatType` *)
Definition VariableDataFormatType_display (alt : bool) (t : VariableDataFormatType) : string :=
  match alt, t with
  | true, VDF_None => "No standard format data is available"
  | false, VDF_None => "None"
  | true, VDF_Handle handle => "SMBIOS structure associated handle: " ++ show_dec handle
  | false, VDF_Handle _ => "Handle"
  | true, VDF_MultipleEvent counter => "Multiple-event counter value: " ++ show_dec counter
  | false, VDF_MultipleEvent _ => "Multiple-event"
  | true, VDF_MultipleEventHandle handle counter =>
      "Multiple-event: Handle 0x" ++ pad 4 (show_hex handle) ++ ", Count " ++ show_dec counter
  | false, VDF_MultipleEventHandle _ _ => "Multiple-event handle"
  | true, VDF_PostResults pr => "POST result: " ++ show_hex_alt pr
  | false, VDF_PostResults _ => "POST results bitmap"
  | true, VDF_SystemManagementType sm => "System management: " ++ SystemManagementType_display sm
  | false, VDF_SystemManagementType _ => "System management"
  | true, VDF_MultipleEventSystemManagementType sm counter =>
      "Multiple-event system management: Type " ++ SystemManagementType_display sm ++ ", Count " ++ show_dec counter
  | false, VDF_MultipleEventSystemManagementType _ _ => "Multiple-event system management"
  | _, VDF_Unused v => "Unused: " ++ show_dec v
  | true, VDF_OemAssigned v => "OEM assigned: " ++ show_dec v
  | false, VDF_OemAssigned _ => "OEM-specific"
  end.

(* mod.rs:268-314 `Display for AccessMethod`; `{index:X?}` of [u8; 2] is [X, X] *)
Definition AccessMethod_display (alt : bool) (m : AccessMethod) : string :=
  match alt, m with
  | false, AM_IndexedIoOne8bitIndexOne8bitData _ _ => "Indexed I/O, one 8-bit index port, one 8-bit data port"
  | false, AM_IndexedIoTwo8bitIndexOne8bitData _ _ _ => "Indexed I/O, two 8-bit index ports, one 8-bit data port"
  | false, AM_IndexedIoOne16bitIndexOne8bitData _ _ => "Indexed I/O, one 16-bit index port, one 8-bit data port"
  | false, AM_MemoryMappedPhysicaAddress _ => "Memory-mapped physical 32-bit address"
  | false, AM_GeneralPurposeNonVolatileData _ => "General-purpose non-volatile data functions"
  | false, AM_OemSpecific method _ => "OEM-specific: " ++ show_dec method
  | false, AM_Available method _ => "Available: " ++ show_dec method
  | true, AM_IndexedIoOne8bitIndexOne8bitData index data =>
      "Indexed I/O, one 8-bit index port, one 8-bit data port: Index 0x" ++ pad 2 (show_hex index) ++
      ", Data 0x" ++ pad 2 (show_hex data)
  | true, AM_IndexedIoTwo8bitIndexOne8bitData i0 i1 data =>
      "Indexed I/O, two 8-bit index ports, one 8-bit data port: Index [" ++ show_hex i0 ++ ", " ++ show_hex i1 ++
      "], Data 0x" ++ pad 2 (show_hex data)
  | true, AM_IndexedIoOne16bitIndexOne8bitData index data =>
      "Indexed I/O, one 16-bit index port, one 8-bit data port: Index 0x" ++ pad 4 (show_hex index) ++
      ", Data 0x" ++ pad 2 (show_hex data)
  | true, AM_MemoryMappedPhysicaAddress a => "Memory-mapped physical 32-bit address: 0x" ++ pad 8 (show_hex a)
  | true, AM_GeneralPurposeNonVolatileData h =>
      "General-Purpose NonVolatile Data functions, handle 0x" ++ pad 4 (show_hex h)
  | true, AM_OemSpecific method address =>
      "BIOS Vendor/OEM-specific: Method " ++ show_dec method ++ ", Address 0x" ++ pad 8 (show_hex address)
  | true, AM_Available method address =>
      "Available: Method " ++ show_dec method ++ ", Address 0x" ++ pad 8 (show_hex address)
  end.

(* -------------------------------------------------- 022_portable_battery.rs *)

(* 022_portable_battery.rs:152-165 `Display for ManufactureDate` *)
Definition ManufactureDate_display (d : ManufactureDate) : string :=
  match d with
  | MD_None => ""
  | MD_Basic s => show_text s
  | MD_SmartBatteryDataSpecification year month date =>
      pad 4 (show_dec year) ++ "-" ++ pad 2 (show_dec month) ++ "-" ++ pad 2 (show_dec date)
  end.
(* 022_portable_battery.rs:175-183 `Display for SerialNumber`; in `{:#04X}` the
   width 4 includes the 0x *)
Definition SerialNumber_display (s : SerialNumber) : string :=
  match s with
  | SN_None => ""
  | SN_Basic s => show_text s
  | SN_SmartBatteryDataSpecification word => "0x" ++ pad 2 (show_hex word)
  end.
(* 022_portable_battery.rs:206-221 `Display for DeviceChemistry` *)
Definition DeviceChemistry_display (d : DeviceChemistry) : string :=
  match d with
  | Chem_Other => "Other"
  | Chem_Unknown => "Unknown"
  | Chem_LeadAcid => "Lead Acid"
  | Chem_NickelCadmium => "Nickel Cadmium"
  | Chem_NickelMetalHydride => "Nickel metal hydride"
  | Chem_LithiumIon => "Lithium-ion"
  | Chem_ZincAir => "Zinc air"
  | Chem_LithiumPolymer => "Lithium Polymer"
  | Chem_Undefined v => "Undefined: " ++ show_dec v
  | Chem_SmartBatteryDataSpecification s => show_text s
  end.
