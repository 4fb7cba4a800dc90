out = []
P = out.append
P('''(* The unit tests of /repo/src, run against the model: each Example is the assertion
   of the test of that name.  They check the fidelity of the model and prove nothing
   beyond the inputs in them. *)
From Coq Require Import String Ascii.
From Verif Require Import Base G_Enums M_Raw M_Entry M_Bitfield G_Layouts M_Bios M_System M_BaseBoard M_Enclosure M_Processor
  M_Cache M_PortConnector M_SystemSlots M_Strings M_GroupAssociations M_SystemEventLog
  M_PhysicalMemoryArray M_MemoryDevice M_Memory M_PortableBattery M_Iter M_Display M_Hash T_Data.
Local Open Scope string_scope.
Local Open Scope N_scope.

(* a test build: overflow checks on, memory as the hardware has it *)
Definition debug : cfg := {| overflow_checks := true; flat_memory := true |}.

(* the bytes of a string literal *)
Fixpoint asc (s : string) : list N :=
  match s with EmptyString => [] | String a s => N_of_ascii a :: asc s end.

(* collect: what an iterator yields until its first None *)
Fixpoint collect {A S} (fuel : nat) (next : S -> out (option A * S)) (s : S) : out (list A) :=
  match fuel with
  | O => UB
  | Datatypes.S f => match next s with
             | Val (Some a, s') => match collect f next s' with Val l => Val (a :: l) | Panic => Panic | UB => UB end
             | Val (None, _) => Val []
             | Panic => Panic
             | UB => UB
             end
  end.
Definition pure {A S} (next : S -> option A * S) (s : S) : out (option A * S) := Val (next s).

Definition raw (ma mi : N) (i : InfoType) (l h : N) (d s : list N) : RawStructure :=
  {| version := {| major := ma; minor := mi |}; info := i; length_ := l; handle := h;
     data := d; strings := s; after := s |}.

(* what `entry_point.structures(&bin[address..])` yields *)
Definition all_structures (entry table : list N) : out (list (res Structure)) :=
  match search entry with
  | Val (Ok e) => collect 400 (next debug) (structures e table)
  | _ => UB
  end.
Definition dmi_0 : out (list (res Structure)) :=
  match search dmi_0_bin with
  | Val (Ok e) => collect 400 (next debug) (structures e (drop (ep_smbios_address e) dmi_0_bin))
  | _ => UB
  end.
Definition picked {A} (f : Structure -> option A) (x : out (list (res Structure))) : list A :=
  match x with
  | Val l => flat_map (fun o => match o with Ok s => match f s with Some a => [a] | None => [] end | Err _ => [] end) l
  | _ => []
  end.
Definition flags c size v l := collect 200 (iter_next c) (iter_new size v l).
Definition set_flags size v l := omap (fun fs => map position (filter is_set fs)) (flags debug size v l).
Definition significant_texts alt size v l :=
  omap (map (Flag_display alt)) (collect 200 (significants_next debug) (iter_new size v l)).
Definition reserved_ranges size v l :=
  omap (map (fun r => (description r, range_start r, range_end r)))
    (collect 200 (reserved_next debug) (reserved_new (iter_new size v l))).
Definition PRIMES : list N := [2; 3; 5; 7; 11; 13; 17; 19; 23; 29; 31; 37; 41; 43; 47; 53; 59; 61].
Definition INDEX_SAMPLE : list N := (PRIMES ++ [67; 71; 73; 79; 83; 89; 97; 101; 103; 107; 109; 113; 127])%list.
Definition bits (ps : list N) : N := fold_right (fun p acc => N.lor (2 ^ p) acc) 0 ps.
''')
n=[0]
def ex(name, stmt, cite):
    P(f'(* {cite} *)\nExample {name} :\n  {stmt}.\nProof. vm_compute. repeat split; reflexivity. Qed.\n')

B='bitfield.rs'
P('''(* -------------------------------------------------------------- bitfield.rs *)
Definition LAYOUT : Layout := layout 8 [Long "A" "A Long"; Long "B" "B Long"; Res "Reserved 1" 1;
  Long "C" "C Long"; Long "D" "D Long"; Long "E" "E Long"; Res "Reserved 2" 2].
''')
ex('layout_macro','''LAYOUT = [Significant "A" "A Long"; Significant "B" "B Long"; FReserved "Reserved 1"; Significant "C" "C Long";
    Significant "D" "D Long"; Significant "E" "E Long"; FReserved "Reserved 2"; FReserved "Reserved 2"]''','bitfield.rs `layout_macro`')
ex('iter','''omap (map (fun f => (position f, is_set f, type_ f))) (flags debug 1 169 LAYOUT) =
    Val (combine (combine [0; 1; 2; 3; 4; 5; 6; 7] [true; false; false; true; false; true; false; true]) LAYOUT)''','`iter`; 0b1010_1001 is 169')
ex('significants','''significant_texts false 1 169 LAYOUT = Val ["A"; "C"; "E"] /\\
  significant_texts true 1 169 LAYOUT = Val ["A Long"; "C Long"; "E Long"]''','`significants`')
P('''Definition S_ (x : string) : LayoutItem := Long ("S " ++ x) (x ++ " Long").
Definition ranges size v l := omap (map (fun r => (range_start r, range_end r)))
  (collect 200 (reserved_next debug) (reserved_new (iter_new size v l))).
''')
ex('reserved','''ranges 1 255 (layout 8 (map S_ ["A"; "B"; "C"; "D"; "E"; "F"; "G"; "H"])) = Val [] /\\
  ranges 1 255 (layout 8 [Res "R 1" 8]) = Val [(0, 7)] /\\
  ranges 1 255 (layout 8 (map S_ ["A"; "B"; "C"; "D"; "E"; "F"] ++ [Res "R 1" 2])) = Val [(6, 7)] /\\
  ranges 2 65535 (layout 16 [S_ "A"; S_ "B"; Res "R 1" 1; S_ "C"; S_ "C"; S_ "D"; S_ "E"; Res "R 2" 2; S_ "C"; Res "R 2" 2; Res "R 3" 4]) =
    Val [(2, 2); (7, 8); (10, 11); (12, 15)]''','`reserved`')
ex('from_iterator_shift_overflow','from_iter debug 8 INDEX_SAMPLE = Panic','`from_iterator_shift_overflow`')
ex('from_iterator_values','''forallb (fun '(w, v) => match from_iter debug w (filter (fun p => p <? w) INDEX_SAMPLE) with Val x => x =? v | _ => false end)
    [(8, 172); (16, 10412); (32, 2693408940); (64, 2891462833508853932);
     (128, 170152392186162032610075049835446806700)] = true''','`from_iterator_values`')
P('(* ------------------------------------------------------------------- lib.rs *)\n')
P('''Definition accepted (x : out (result InvalidEntryPointError EntryPoint)) : bool :=
  match x with Val (Ok _) => true | _ => false end.
''')
ex('found_smbios_entry','accepted (search entry_bin) = true /\\ accepted (search dmidecode_bin) = true','`found_smbios_entry`')
ex('found_smbios_entry_v3','accepted (search entry_v3_bin) = true','`found_smbios_entry_v3`')
ex('doesnt_find_smbios_entry','accepted (search dmi_bin) = false','`doesnt_find_smbios_entry` (should_panic)')
ex('found_signature','''match find_signature entry_bin, find_signature entry_v3_bin, find_signature dmidecode_bin with Some _, Some _, Some _ => true | _, _, _ => false end = true''','`found_signature`')
ex('doesnt_find_signature','find_signature dmi_bin = None','`doesnt_find_signature` (should_panic)')
ex('iterator_through_structures','''match search dmidecode_bin with
  | Val (Ok e) => match collect 400 (next debug) (structures e (drop (ep_smbios_address e) dmidecode_bin)) with
                  | Val l => 40 <? len l | _ => false end
  | _ => false end = true''','`iterator_through_structures`: the loop ends without a panic')
ex('iterator_through_structures_v3_short','''match all_structures entry_v3_short_bin dmi_v3_short_bin with Val l => 40 <? len l | _ => false end = true''','`iterator_through_structures_v3_short`')
ex('iterator_through_structures_v3','''match all_structures entry_v3_bin dmi_v3_bin with Val l => 40 <? len l | _ => false end = true''','`iterator_through_structures_v3`')
ex('find_nulnul_tests','''find_nulnul [] = None /\\ find_nulnul [0] = None /\\ find_nulnul [0; 0] = Some 1 /\\
  find_nulnul [1; 2; 3; 4; 0; 5; 4; 3; 2; 1; 0; 0] = Some 11 /\\
  find_nulnul [1; 2; 3; 4; 0; 5; 4; 3; 2; 1; 0; 0; 1; 2; 3] = Some 11''','`find_nulnul_empty` to `find_nulnul_with_data_more_at_end`')
ex('structure_strings','''let ss l := collect 20 (pure strings_next) (strings_new l) in
  ss [65; 66; 67; 0; 68; 69; 0; 70; 0; 71; 72; 73; 0; 0] = Val (map asc ["ABC"; "DE"; "F"; "GHI"]) /\\
  ss [0; 0] = Val [] /\\
  ss [65; 66; 67; 0; 68; 69; 0; 70; 0; 71; 72; 73] = Val (map asc ["ABC"; "DE"; "F"; "GHI"]) /\\
  ss [65; 66; 67; 0; 0; 68; 69; 0; 0; 0; 0; 0] = Val (map asc ["ABC"]) /\\
  ss [0; 0; 65; 66; 67] = Val []''','`structure_strings`')
P('(* -------------------------------------------------------------- 000_bios.rs *)\n')
ex('characteristics','''match from_iter debug 64 PRIMES with Val q => set_flags 8 q Characteristics_layout | _ => UB end = Val PRIMES /\\
  significant_texts false 8 80 Characteristics_layout = Val ["ISA is supported"; "EISA is supported"] /\\
  significant_texts true 8 80 Characteristics_layout = Val ["ISA is supported"; "EISA is supported"] /\\
  reserved_ranges 8 0 Characteristics_layout = Val [("Reserved for BIOS vendor", 32, 47); ("Reserved for system vendor", 48, 63)]''','`characteristics`')
ex('characteristics_extension1','''significant_texts false 1 65 CharacteristicsExtension1_layout = Val ["ACPI is supported"; "IEEE 1394 boot is supported"] /\\
  significant_texts true 1 65 CharacteristicsExtension1_layout = Val ["ACPI is supported"; "1394 boot is supported"] /\\
  reserved_ranges 1 0 CharacteristicsExtension1_layout = Val []''','`characteristics_extension1`')
ex('characteristics_extension2','''significant_texts false 1 24 CharacteristicsExtension2_layout = Val ["UEFI is supported"; "System is a virtual machine"] /\\
  significant_texts true 1 24 CharacteristicsExtension2_layout = Val ["UEFI is supported"; "SMBIOS table describes a virtual machine. (If this bit is not set, no inference can be made about the virtuality of the system.)"] /\\
  reserved_ranges 1 0 CharacteristicsExtension2_layout = Val [("Reserved for future assignment", 5, 7)]''','`characteristics_extension2`')
ex('rom_size','''map (fun '(b, e) => RomSize_to_u64 debug {| basic := b; extended := e |})
    [(0x7F, None); (0xFE, None); (0xFF, Some 0x0010); (0xFF, Some 64); (0xFF, Some 0x4030)] =
  map Val [8 * 2 ^ 20; 16 * 2 ^ 20 - 65536; 16 * 2 ^ 20; 64 * 2 ^ 20; 48 * 2 ^ 30]''','`rom_size`')
P('Definition bioses := picked (fun s => match s with SBios b => Some b | _ => None end) dmi_0.\n')
ex('dmi_bin_full_bios_structure','''hd_error bioses = Some {|
    bios_handle := 0; bios_vendor := asc "Dell Inc."; bios_bios_version := asc "2.8.2";
    bios_starting_address_segment := 0xF000; bios_release_date := asc "08/27/2020";
    bios_rom_size := {| basic := 0xFF; extended := Some 32 |};
    bios_characteristics := bits [4; 7; 9; 11; 12; 15; 16; 19; 21; 22; 23; 24; 27; 28; 30; 48; 49; 50; 51; 52];
    bios_characteristics_extension_1 := Some (bits [0; 1]);
    bios_characteristics_extension_2 := Some (bits [0; 1; 2; 3]);
    bios_revision := Some {| rev_major := 2; rev_minor := 8 |};
    bios_firmware_revision := Some {| rev_major := 0xFF; rev_minor := 0xFF |} |}''','`dmi_bin_full_bios_structure`')
ex('dmi_bin_all_characteristics','''match bioses with
  | b :: _ => match significant_texts false 8 (bios_characteristics b) Characteristics_layout,
                bios_characteristics_extension_1 b, bios_characteristics_extension_2 b with
              | Val l, Some x, Some y =>
                match significant_texts false 1 x CharacteristicsExtension1_layout, significant_texts false 1 y CharacteristicsExtension2_layout with
                | Val l1, Val l2 => (l ++ l1 ++ l2)%list | _, _ => [] end
              | _, _, _ => [] end
  | [] => [] end =
  ["ISA is supported"; "PCI is supported"; "PNP is supported"; "BIOS is upgradeable"; "BIOS shadowing is allowed";
   "Boot from CD is supported"; "Selectable boot is supported"; "EDD is supported";
   "Japanese floppy for Toshiba 1.2 MB is supported (int 13h)"; "5.25""/360 kB floppy services are supported (int 13h)";
   "5.25""/1.2 MB floppy services are supported (int 13h)"; "3.5""/720 kB floppy services are supported (int 13h)";
   "8042 keyboard services are supported (int 9h)"; "Serial services are supported (int 14h)";
   "CGA/mono video services are supported (int 10h)"; "ACPI is supported"; "USB legacy is supported";
   "BIOS boot specification is supported"; "Function key-initiated network boot is supported";
   "Targeted content distribution is supported"; "UEFI is supported"]''','`dmi_bin_all_characteristics`')
ex('dmi_bin_revisions','''map (fun b => (option_map Revision_display (bios_revision b), option_map Revision_display (bios_firmware_revision b))) bioses =
    [(Some "2.8", Some "N/A")]''','`dmi_bin_revisions`')
ex('dmi_bin_bios_size','map (fun b => RomSize_to_u64 debug (bios_rom_size b)) bioses = [Val (32 * 2 ^ 20)]','`dmi_bin_bios_size`')
P('(* --------------------------------------------------------- 003_enclosure.rs *)\n')
def enum(name, E, rows, alts=(False,), cite=None):
    # rows: (code, ctor, text...) 
    vals='; '.join(str(r[0]) for r in rows)
    st=f'map {E}_from [{vals}] = [{"; ".join(E+"_"+r[1] for r in rows)}]'
    for i,a in enumerate(alts):
        st+=f' /\\\n  map (fun k => {E}_display {"true" if a else "false"} ({E}_from k)) [{vals}] =\n    [{"; ".join(chr(34)+r[2+i].replace(chr(34),chr(34)*2)+chr(34) for r in rows)}]'
    ex(name, st, cite or f'`{name}`')
enum('enclosure_type','EnclosureType',[(1,'Other','Other'),(9,'Laptop','Laptop'),(0x18,'SealedCasePc','Sealed-case PC'),(0x22,'EmbeddedPc','Embedded PC')])
und=lambda a,b,E='Undefined':[(i,f'{E} {i}',f'Undefined: {i}') for i in range(a,b+1)]
enum('state','State',[(1,'Other','Other'),(4,'Warning','Warning'),(6,'NonRecoverable','Non-recoverable')]+und(0xF0,0xFF))
enum('security_status','SecurityStatus',[(1,'Other','Other'),(3,'None','None'),(5,'ExternalInterfaceEnabled','External interface enabled')]+und(0xF0,0xFF))
ex('contained_element','''let a := {| cel_type := CE_InfoType InfoType_SystemSlots; cel_minimum := 1; cel_maximum := 2 |} in
  let b := {| cel_type := CE_BoardType BoardType_ConnectivitySwitch; cel_minimum := 1; cel_maximum := 2 |} in
  ContainedElement_from debug [137; 1; 2] [] = Val a /\\ ContainedElement_display a = "Structure type: System Slots (1-2)" /\\
  ContainedElement_from debug [4; 1; 2] [] = Val b /\\ ContainedElement_display b = "Baseboard type: Connectivity Switch (1-2)"''','`contained_element`')
ex('contained_elements','''match ContainedElements_new debug [2; 3; 0x91; 1; 2; 7; 3; 4; 3] [] with
  | Val (Some (e, rest)) => (collect 5 (ContainedElements_next debug) e, rest)
  | _ => (UB, []) end =
  (Val [{| cel_type := CE_InfoType InfoType_MemoryDevice; cel_minimum := 1; cel_maximum := 2 |};
        {| cel_type := CE_BoardType BoardType_IoModule; cel_minimum := 3; cel_maximum := 4 |}], [3])''','`contained_elements`')
P('Definition enclosures := picked (fun s => match s with SEnclosure b => Some b | _ => None end) dmi_0.\n')
ex('enclosure_dmi_bin','''match enclosures with
  | e :: _ =>
    enclosure_handle e = 768 /\\ enclosure_manufacturer e = asc "Dell Inc." /\\ enclosure_chassis_lock e = true /\\
    enclosure_enclosure_type e = EnclosureType_RackMountChassis /\\ enclosure_version e = [] /\\
    enclosure_serial_number e = asc "XXXXXXX" /\\ enclosure_asset_tag_number e = [] /\\
    enclosure_boot_up_state e = Some State_Safe /\\ enclosure_power_supply_state e = Some State_Safe /\\
    enclosure_thermal_state e = Some State_Safe /\\ enclosure_security_status e = Some SecurityStatus_Unknown /\\
    enclosure_oem_defined e = Some 0x01010101 /\\ enclosure_height e = Some 2 /\\ enclosure_power_cords_number e = Some 2 /\\
    match enclosure_contained_elements e with
    | Some x => ContainedElements_eq x {| ce_chunks := [145; 1; 2; 3; 255; 0]; ce_after := []; ce_count := 2; ce_record_length := 3 |} = true /\\
                omap (map ContainedElement_display) (collect 5 (ContainedElements_next debug) x) =
                  Val ["Structure type: Memory Device (1-2)"; "Baseboard type: Server Blade (255-0)"]
    | None => False end /\\
    enclosure_sku_number e = Some (asc "SKU Number") /\\
    EnclosureType_display false (enclosure_enclosure_type e) = "Rack Mount Chassis" /\\
    State_display false State_Safe = "Safe" /\\ SecurityStatus_display false SecurityStatus_Unknown = "Unknown"
  | [] => False end''','`dmi_bin`')
ex('no_sku_on_3_14','''Enclosure_try_from debug (raw 3 14 InfoType_Enclosure 20 153 [1; 1; 0; 0; 0; 3; 3; 3; 2; 0; 0; 0; 0; 0; 0; 0]
    [71; 111; 111; 103; 108; 101; 0; 0]) = Val (Ok {|
    enclosure_handle := 153; enclosure_manufacturer := asc "Google"; enclosure_chassis_lock := false;
    enclosure_enclosure_type := EnclosureType_Other; enclosure_version := []; enclosure_serial_number := [];
    enclosure_asset_tag_number := []; enclosure_boot_up_state := Some State_Safe;
    enclosure_power_supply_state := Some State_Safe; enclosure_thermal_state := Some State_Safe;
    enclosure_security_status := Some SecurityStatus_Unknown; enclosure_oem_defined := Some 0; enclosure_height := Some 0;
    enclosure_power_cords_number := Some 0; enclosure_contained_elements := None; enclosure_sku_number := None |})''','`no_sku_on_3_14`')
P('(* --------------------------------------------------------- 004_processor.rs *)\n')
fam=[(1,'Other','Other'),(0x15,'IntelPentium4HTProcessor','Intel® Pentium® 4 HT processor'),(0x0D,'PentiumIIProcessor','Pentium® II processor'),
(0x28,'IntelCoreDuoProcessor','Intel® Core™ Duo processor'),(0x3D,'AMDOpteron6200SeriesProcessor','AMD Opteron™ 6200 Series Processor'),
(0x50,'SPARCFamily','SPARC Family'),(0x65,'Motorola68030','68030'),(0x8F,'AMDAthlonX2DualCoreProcessorFamily','AMD Athlon™ X2 Dual-Core Processor Family'),
(0xBE,'Ambiguous','Ambiguous'),(0xC9,'G4','G4'),(0xFB,'I960','i960'),(0x100,'ARMv7','ARMv7'),(0x104,'SH3','SH-3'),(0x118,'ARM','ARM'),(0x140,'WinChip','WinChip')]
def av(a,b): return [(i,f'Available {i}',f'Available 0x{i:X}') for i in range(a,b+1)]
for a,b in [(0x16,0x17),(0x59,0x5F),(0x6C,0x6F),(0x71,0x77),(0x7B,0x7F),(0x81,0x81),(0x97,0x9F),(0xD0,0xD1),(0xDC,0xDC),(0xE1,0xE3),(0xF0,0xF9),(0xFC,0xFD),(0x1F5,0x1FF),(0x203,0x220),(0xFFF0,0xFFFD)]: fam+=av(a,b)
fam+=[(0xFF,'NotUsed 255','Not used. FFh is the un-initialized value of Flash memory.'),(0xFFFE,'ForFutureUse','For special use in the future'),(0xFFFF,'NotUsed 65535','Not used. FFFFh is the un-initialized value of Flash memory.')]
enum('processor_family','ProcessorFamily',fam,cite='`processor_family`')
ex('processor_family_available','''forallb (fun hi => forallb (fun lo => let n := 256 * hi + lo in
    if (0x203 <=? n) && (n <=? 0xFFFD) then
      match ProcessorFamily_from n with ProcessorFamily_Available k => k =? n | _ => false end &&
      String.eqb (ProcessorFamily_display false (ProcessorFamily_from n)) ("Available 0x" ++ show_hex n)
    else true) (map N.of_nat (seq 0 256))) (map N.of_nat (seq 0 256)) = true''','`processor_family`, the range 203h to FFFDh in full')
ex('test_processor_voltage','''map Voltage_from [0; 1; 2; 7; 8; 146; 255] = [Voltage_Legacy 0; Voltage_Legacy 1; Voltage_Legacy 2; Voltage_Legacy 7;
    Voltage_Undefined 8; Voltage_Current 18; Voltage_Current 127] /\\
  map (fun b => Voltage_display (Voltage_from b)) [0; 1; 2; 7; 8; 146; 255] =
    ["Voltage capability unknown"; "Processor socket accept: 5.5V "; "Processor socket accept: 3.3V ";
     "Processor socket accept: 5.5V 3.3V 2.9V "; "Undefined 0b1000"; "Current voltage: 1.8 V"; "Current voltage: 12.7 V"]''','`processor_voltage`')
enum('processor_upgrade','ProcessorUpgrade',[(1,'Other','Other'),(0x13,'SocketmPGA604','Socket mPGA604'),(0x18,'SocketF','Socket F (1207)'),(0x2B,'SocketLGA2011Three','Socket LGA2011-3'),(0x3E,'SocketLGA1200','Socket LGA1200')]+[(i,f'Undefined {i}',f'Undefined {i}') for i in range(0x3F,0x100)])
def cpu(name, ver, ln, h, data, strs, rec):
    ex(name, f'''Processor_try_from debug (raw {ver} InfoType_Processor {ln} {h} {data}
    {strs}) = Val (Ok {{| {rec} |}})''', f'`{name}`')
base='''[0x01; 0x03; %s; 0x02; 0xd8; 0x06; 0x04; 0x00; 0xff; 0xfb; 0xeb; 0xbf; 0x03; 0x90; 0x64; 0x00;
    0x28; 0x0a; 0x60; 0x09; 0x41; 0x01; 0x46; 0x00; 0x47; 0x00; 0xff; 0xff; 0x00; 0x04; 0x00; 0x08; 0x08; 0x08; 0x04; 0x00; %s]'''
def rec(fam, man, ver, asset): return f'''processor_handle := 0x48; processor_socket_designation := asc "CPU0";
    processor_processor_type := ProcessorType_CentralProcessor; processor_processor_family := ProcessorFamily_{fam};
    processor_processor_manufacturer := asc "{man}"; processor_processor_id := 13829424153406736088;
    processor_processor_version := asc "{ver}"; processor_voltage := Voltage_Current 16;
    processor_external_clock := 100; processor_max_speed := 2600; processor_current_speed := 2400; processor_status := 65;
    processor_processor_upgrade := ProcessorUpgrade_Other; processor_l1_cache_handle := Some 70; processor_l2_cache_handle := Some 71;
    processor_l3_cache_handle := Some 65535; processor_serial_number := Some []; processor_asset_tag := Some (asc "{asset}");
    processor_part_number := Some []; processor_core_count := Some 8; processor_core_enabled := Some 8;
    processor_thread_count := Some 8; processor_processor_characteristics := Some 4'''
z=lambda *ss: '('+' ++ '.join(f'asc "{s}" ++ [0]' for s in ss)+')%list'
cpu('smbios_2_8_processor_intel_atom_parses','2 8',0x2a,0x48,base%('0x2b','0; 0'),z('CPU0','Intel(R) Corporation','Intel(R) Atom(TM) CPU  C2750  @ 2.40GHz','ProcessorInfo_ASSET_TAG'),
    rec('IntelAtomProcessor','Intel(R) Corporation','Intel(R) Atom(TM) CPU  C2750  @ 2.40GHz','ProcessorInfo_ASSET_TAG'))
cpu('smbios_2_8_processor_parses_with_processor_family_2','2 8',0x2a,0x48,base%('0xfe','0x18; 0x01'),z('CPU0','FAKE MANUFACTURER','FAKE VERSION','FAKE ASSET TAG'),
    rec('ARM','FAKE MANUFACTURER','FAKE VERSION','FAKE ASSET TAG'))
cpu('zero_process_family','3 2',0x32,12,'''[1; 3; 0; 0; 0; 0; 0; 0; 0; 0; 0; 0; 0; 0; 0; 0; 0xa0; 0x0f; 0; 0; 0; 0x3f; 0xff; 0xff; 0xff; 0xff; 0xff; 0xff;
    0; 0; 0; 0; 0; 0; 0; 0; 0; 0; 0; 0; 0; 0; 0; 0; 0; 0]''',z('CPU0'),'''processor_handle := 12; processor_socket_designation := asc "CPU0";
    processor_processor_type := ProcessorType_CentralProcessor; processor_processor_family := ProcessorFamily_OutOfSpec;
    processor_processor_manufacturer := []; processor_processor_id := 0;
    processor_processor_version := []; processor_voltage := Voltage_Legacy 0;
    processor_external_clock := 0; processor_max_speed := 4000; processor_current_speed := 0; processor_status := 0;
    processor_processor_upgrade := ProcessorUpgrade_Undefined 63; processor_l1_cache_handle := Some 65535; processor_l2_cache_handle := Some 65535;
    processor_l3_cache_handle := Some 65535; processor_serial_number := Some []; processor_asset_tag := Some [];
    processor_part_number := Some []; processor_core_count := Some 0; processor_core_enabled := Some 0;
    processor_thread_count := Some 0; processor_processor_characteristics := Some 0''')
P('(* ------------------------------------------------------------- 007_cache.rs *)\n')
ex('cache_configuration','''CacheConfiguration_from 682 = Val {| level := CacheLevel_L3; socketed := true; location := CacheLocation_External;
    enabled_at_boot_time := true; operational_mode := CacheOperationalMode_ValuesWithMemoryAddress |}''','`cache_configuration`; 0b0000_0010_1010_1010 is 682')
ex('cache_size','''CacheSize_from 682 = Granularity1K 682 /\\ CacheSize_bytes debug (CacheSize_from 682) = Val (682 * 1024) /\\
  CacheSize_from 33450 = Granularity64K 682 /\\ CacheSize_bytes debug (CacheSize_from 33450) = Val (682 * 65536) /\\
  CacheSize2_from (682 * 65536) = Granularity1K_2 44695552 /\\ CacheSize2_bytes debug (CacheSize2_from (682 * 65536)) = Val (44695552 * 1024) /\\
  CacheSize2_from (33450 * 65536) = Granularity64K_2 44695552 /\\ CacheSize2_bytes debug (CacheSize2_from (33450 * 65536)) = Val (44695552 * 65536)''','`cache_size`')
ex('cache_enums','''CacheSramType_truncate 85 = 85 /\\ CacheErrorCorrectionType_from 85 = CacheErrorCorrectionType_Undefined 85 /\\
  CacheErrorCorrectionType_from 5 = CacheErrorCorrectionType_SingleBitEcc /\\ SystemCacheType_from 85 = SystemCacheType_Undefined 85 /\\
  SystemCacheType_from 5 = SystemCacheType_Unified /\\ CacheAssociativity_from 85 = CacheAssociativity_Undefined 85 /\\
  CacheAssociativity_from 5 = CacheAssociativity_FourWaySetAssociative''','`cache_enums`; 0b0101_0101 is 85')
P('(* ---------------------------------------------------- 008_port_connector.rs *)\n')
enum('connector_type','ConnectorType',[(1,'Centronics','Centronics'),(0x12,'AccessBus','Access Bus (USB)'),(0xA3,'Pc98Note','PC-98Note'),(0xFE,'Undefined 254','Undefined: 254'),(0xFF,'Other','Other – Use Reference Designator Strings to supply information.')])
enum('port_type','PortType',[(0,'None','None'),(0x11,'FireWire','FireWire (IEEE P1394)'),(0xA1,'Intel8251FifoCompatible','8251 FIFO Compatible'),(0xFF,'Other','Other'),(0xFE,'Undefined 254','Undefined: 254')])
def pc(h,a,b,c,d,e): return f'''{{| port_handle := {h}; port_internal_reference_designator := asc "{a}"; port_internal_connector_type := ConnectorType_{b};
    port_external_reference_designator := asc "{c}"; port_external_connector_type := ConnectorType_{d}; port_port_type := PortType_{e} |}}'''
ex('port_connector',f'''PortConnector_try_from debug (raw 0 0 InfoType_PortConnector 0 8 [1; 0; 2; 0x0F; 0x0D] {z("J1A1","Keyboard")}) =
    Val (Ok {pc(8,"J1A1","None","Keyboard","Ps2","KeyboardPort")})''','`port_connector`')
P('Definition ports := picked (fun s => match s with SPortConnector b => Some b | _ => None end) dmi_0.\n')
ex('port_connector_dmi_bin',f'''find (fun p => port_handle p =? 0x0800) ports = Some {pc(0x800,"Internal USB port 1","AccessBus","","None","Usb")} /\\
  find (fun p => port_handle p =? 0x080A) ports = Some {pc(0x80A,"","None","4","Rj45","NetworkPort")} /\\
  ConnectorType_display false ConnectorType_AccessBus = "Access Bus (USB)" /\\ ConnectorType_display false ConnectorType_None = "None" /\\
  ConnectorType_display false ConnectorType_Rj45 = "RJ-45" /\\ PortType_display false PortType_Usb = "USB" /\\
  PortType_display false PortType_NetworkPort = "Network Port"''','`dmi_bin`')
P('(* ------------------------------------------------------ 009_system_slots.rs *)\n')
enum('slot_type','SlotType',[(3,'Isa','ISA','ISA'),(0x21,'PciExpressMini52pin1','PCI Express Mini 52-pin with bottom-side keep-outs','PCI Express Mini 52-pin (CEM spec. 2.0) with bottom-side keep-outs. Use Slot Length field value 03h (short length) for "half-Mini card" -only support, 04h (long length) for "full-Mini card" or dual support.'),
 (0xA0,'Pc98C20','PC-98/C20','PC-98/C20'),(0xC4,'PciExpressGen6','PCI Express Gen 6 and Beyond','PCI Express Gen 6 and Beyond'),(0xFE,'Undefined 254','Undefined: 254','Undefined: 254')],(False,True))
enum('slot_width','SlotWidth',[(1,'Other','Other'),(3,'Byte','8 bit'),(6,'Qword','64 bit'),(7,'Dqword','128 bit'),(0xE,'X32','32x or x32'),(0xFE,'Undefined 254','Undefined: 254')])
enum('current_usage','CurrentUsage',[(1,'Other','Other'),(2,'Unknown','Unknown'),(4,'InUse','In use'),(5,'Unavailable','Unavailable (e.g., connected to a processor that is not installed)'),(0xFE,'Undefined 254','Undefined: 254')],(True,))
enum('slot_length','SlotLength',[(1,'Other','Other'),(2,'Unknown','Unknown'),(3,'ShortLength','Short Length'),(5,'DriveFormFactor2_5','2.5" drive form factor'),(0xFE,'Undefined 254','Undefined: 254')])
ex('slot_caharacteristics_1','''match from_iter debug 8 [2; 3; 5; 7] with Val q => set_flags 1 q SlotCharacteristics1_layout | _ => UB end = Val [2; 3; 5; 7] /\\
  significant_texts false 1 130 SlotCharacteristics1_layout = Val ["5.0 V is provided"; "Modem ring resume is supported"] /\\
  significant_texts true 1 130 SlotCharacteristics1_layout = Val ["Provides 5.0 volts"; "PC Card slot supports Modem Ring Resume"] /\\
  reserved_ranges 1 0 SlotCharacteristics1_layout = Val []''','`slot_caharacteristics_1`')
ex('slot_caharacteristics_2','''match from_iter debug 8 [2; 3; 5; 7] with Val q => set_flags 1 q SlotCharacteristics2_layout | _ => UB end = Val [2; 3; 5; 7] /\\
  significant_texts false 1 17 SlotCharacteristics2_layout = Val ["PME signal is supported"; "Async/surprise removal is supported"] /\\
  significant_texts true 1 17 SlotCharacteristics2_layout = Val ["PCI slot supports Power Management Event (PME#) signal";
    "Slot supports async/surprise removal (i.e., removal without prior notification to the operating system, device driver, or applications)"] /\\
  omap len (reserved_ranges 1 0 SlotCharacteristics2_layout) = Val 1''','`slot_caharacteristics_2`')
ex('device','''omap Device_display (Device_from [0xE9; 0x05; 0xB5; 0xDF; 0x10]) = Val "05e9:b5:1b.7 (Width 16)" /\\
  omap Device_to (Device_from [0xE9; 0x05; 0xB5; 0xDF; 0x10]) = Val [0xE9; 0x05; 0xB5; 0xDF; 0x10]''','`device`')
ex('peer_devices','''omap (map Device_display) (collect 9 PeerDevices_next {| peer_chunks := [0; 0; 0; 8; 0; 0; 0; 0; 0xE3; 1; 0; 0; 0; 0xE4; 4] |}) =
    Val ["0000:00:01.0 (Width 0)"; "0000:00:1c.3 (Width 1)"; "0000:00:1c.4 (Width 4)"]''','`peer_devices`')
ex('system_slots_errors','''forallb (fun ma => forallb (fun mi =>
    match SystemSlots_try_from debug (raw ma mi InfoType_SystemSlots 0 666 [] []) with
    | Val (Err e) => String.eqb (MalformedStructureError_display e) (
        if 256 * ma + mi <? 0x200 then "could not convert slice to array"
        else "Formatted section length of structure SystemSlots with handle 666 should be " ++
          (if 256 * ma + mi <? 0x201 then "12" else if 256 * ma + mi <? 0x206 then "13"
           else if 256 * ma + mi <? 0x302 then "17" else "minimum of 17") ++ " bytes")%N
    | _ => false end) (map N.of_nat (seq 0 256))) (map N.of_nat (seq 0 256)) = true''','`system_slots`, the loop over all versions')
def slot(h,des,t,w,u,l,i,c1,c2,seg,bus,df,dw,peer,inf,pw,pitch): return f'''{{| slots_handle := {h}; slots_slot_designation := asc "{des}"; slots_slot_type := SlotType_{t};
    slots_slot_data_bus_width := SlotWidth_{w}; slots_current_usage := CurrentUsage_{u}; slots_slot_length := SlotLength_{l};
    slots_slot_id := {i}; slots_slot_characteristics_1 := {c1}; slots_slot_characteristics_2 := {c2};
    slots_segment_group_number := {seg}; slots_bus_number := {bus}; slots_device_and_function_number := {df};
    slots_data_bus_width := {dw}; slots_peer_devices := {peer}; slots_slot_information := {inf};
    slots_slot_physical_width := {pw}; slots_slot_pitch := {pitch} |}}'''
ex('system_slots','''SystemSlots_try_from debug (raw 3 4 InfoType_SystemSlots 0 0x23 [1; 0xA5; 0x0A; 4; 3; 2; 0; 0x0C; 1; 0; 0; 0; 0xE4; 0; 3;
    1; 0; 1; 9; 1; 2; 0; 2; 18; 2; 3; 0; 3; 27; 3; 0; 6; 0x0D; 0xE2; 4] (asc "SSD1" ++ [0])%list) = Val (Ok '''+
 slot(0x23,'SSD1','PciExpress','X4','InUse','ShortLength',2,12,'Some 1','Some 0','Some 0','Some {| dev := 0x1C; fun_ := 4 |}','Some 0',
 '''Some {| peer_chunks :=
      flat_map (fun k => Device_to {| device_segment_group_number := k; device_bus_number := k;
        device_device_and_function_number := {| dev := k; fun_ := k |}; device_data_bus_width := k |}) [1; 2; 3] |}''','Some 6','Some SlotWidth_X16','Some 0x04E2')+')','`system_slots`, the decoded sample')
P('Definition slots := picked (fun s => match s with SSystemSlots b => Some b | _ => None end) dmi_0.\n')
ex('system_slots_dmi_bin','len slots = 4 /\\\n  find (fun s => slots_handle s =? 0x0900) slots = Some '+slot(0x900,'PCIe Slot 1','PciExpressGen3x16','X8','Available','LongLength',1,4,'Some 1','None','None','None','None','None','None','None','None')
 +' /\\\n  find (fun s => slots_handle s =? 0x0903) slots = Some '+slot(0x903,'PCIe Slot 4','PciExpressGen3','X16','InUse','LongLength',4,4,'Some 1','Some 0','Some 0xAF','Some (DeviceAndFunctionNumber_from 0)','None','None','None','None','None'),'`dmi_bin`')
P('(* --------------------------------------------- 011 to 014, lists of strings *)\n')
ex('oem_strings_test',f'''match OemStrings_try_from debug (raw 3 4 InfoType_OemStrings 5 0x1E [3] ({z("$HUA001UK10000","$HUA0464","$XXX0000")} ++ [0])%list) with
  | Val (Ok s) => collect 9 (pure strings_next) (oem_strings s) | _ => UB end =
  Val (map asc ["$HUA001UK10000"; "$HUA0464"; "$XXX0000"])''','011_oem_strings.rs `oem_strings`')
ex('oem_strings_dmi_bin',f'''hd_error (picked (fun s => match s with SOemStrings b => Some b | _ => None end) dmi_0) = Some
    {{| oem_handle := 0x0B00; oem_strings := strings_new ({z("Dell System","5[0000]","14[1]","26[0]","17[20106865E85AE75B]","17[201559E55BE4282A]","18[0]","19[1]","19[1]")} ++ [0])%list |}} /\\
  map (fun s => collect 20 (pure strings_next) (oem_strings s)) (picked (fun s => match s with SOemStrings b => Some b | _ => None end) dmi_0) =
    [Val (map asc ["Dell System"; "5[0000]"; "14[1]"; "26[0]"; "17[20106865E85AE75B]"; "17[201559E55BE4282A]"; "18[0]"; "19[1]"; "19[1]"])]''','`dmi_bin`')
ex('system_configuration_options',f'''match SystemConfigurationOptions_try_from debug (raw 3 4 InfoType_SystemConfigurationOptions 5 0x1F [3] {z("ConfigOptions1","ConfigOptions2","ConfigOptions3")}) with
  | Val (Ok s) => collect 9 (pure strings_next) (options_strings s) | _ => UB end =
  Val (map asc ["ConfigOptions1"; "ConfigOptions2"; "ConfigOptions3"])''','012_system_configuration_options.rs `system_configuration_options`')
ex('system_configuration_options_dmi_bin',f'''hd_error (picked (fun s => match s with SSystemConfigurationOptions b => Some b | _ => None end) dmi_0) = Some
    {{| options_handle := 0x0C00; options_strings := strings_new ({z("NVRAM_CLR: Clear user settable NVRAM areas and set defaults","PWRD_EN: Close to enable password")} ++ [0])%list |}}''','`dmi_bin`')
langs=["en|US|iso8859-1","fr|FR|iso8859-1","es|ES|iso8859-1","de|DE|iso8859-1","it|IT|iso8859-1","da|DK|iso8859-1","fi|FI|iso8859-1","nl|NL|iso8859-1","no|NO|iso8859-1","pt|PT|iso8859-1","sv|SE|iso8859-1","ja|JP|unicode","zh|CN|unicode"]
ex('installable_languages',f'''let l := map asc [{"; ".join(chr(34)+x+chr(34) for x in langs)}] in
  collect 20 (InstallableLanguages_next debug) (InstallableLanguages_new (raw 0 0 InfoType_BiosLanguage 0x1A 0 [] (flat_map (fun t => t ++ [0])%list l))) = Val l''','013_bios_language.rs `installable_languages`')
ex('bios_language_dmi_bin','''map (fun b => (language_handle b, language_flags b, language_current_language b,
      il_index (language_installable_languages b), data (il_structure (language_installable_languages b)), strings (il_structure (language_installable_languages b)),
      length_ (il_structure (language_installable_languages b)), version (il_structure (language_installable_languages b))))
    (picked (fun s => match s with SBiosLanguage b => Some b | _ => None end) dmi_0) =
    [(0x0D00, Some 0, 1, 1, [1; 0; 0; 0; 0; 0; 0; 0; 0; 0; 0; 0; 0; 0; 0; 0; 0; 1], (asc "en|US|iso8859-1" ++ [0; 0])%list, 0x16, {| major := 3; minor := 2 |})]''','`dmi_bin`')
ex('group_items_test','''collect 9 (pure GroupItems_next) {| gi_data := [4; 0x00; 0x04; 7; 0x00; 0x07; 7; 0x01; 0x07; 7; 0x02; 0x07]; gi_index := 0 |} =
    Val [{| gi_type := 4; gi_handle := 0x0400 |}; {| gi_type := 7; gi_handle := 0x0700 |}; {| gi_type := 7; gi_handle := 0x0701 |};
         {| gi_type := 7; gi_handle := 0x0702 |}]''','014_group_associations.rs `group_items`')
ex('group_associations',f'''match GroupAssociations_try_from debug (raw 3 4 InfoType_GroupAssociations 14 0x28 [1; 4; 8; 0; 4; 10; 0; 7; 9; 0] ({z("Dual-Processor CPU Complex")} ++ [0])%list) with
  | Val (Ok g) => (group_group_name g, collect 9 (pure GroupItems_next) (group_items g)) | _ => ([], UB) end =
  (asc "Dual-Processor CPU Complex", Val [{{| gi_type := 4; gi_handle := 8 |}}; {{| gi_type := 4; gi_handle := 10 |}}; {{| gi_type := 7; gi_handle := 9 |}}])''','`group_associations`')
P('(* -------------------------------------------------- 015_system_event_log/*.rs *)\n'.replace('/*.rs','')) 
ex('system_management_type','''map SystemManagementType_from [0x03; 0x0A; 0x1F; 0x23; 0x1BEEF; 0x20000; 4294967295] =
    [SMT_OutOfRangeVoltagePlus5; SMT_OutOfRangeVoltageReserved 10; SMT_OutOfRangeTemperatureReserved 31; SMT_OutOfRangeFan 3;
     SMT_OutOfRangeSystemManagementProbe 0xBEEF; SMT_Reserved 131072; SMT_OemAssigned 4294967295] /\\
  map (fun k => SystemManagementType_display (SystemManagementType_from k)) [0x03; 0x0A; 0x1F; 0x23; 0x1BEEF; 0x20000; 4294967295] =
    ["+5V Out of range"; "Out-of-range voltage reserved: 10"; "Out-of-range temperatures reserved: 31"; "Fan 3 Out of range";
     "A system-management probe or cooling device with handle 0xBEEF is out of range"; "Reserved: 131072"; "OEM assigned: 4294967295"]''','log_record_format.rs `system_management_type`')
ex('post_results','''let q := N.lor (N.shiftl 1360 32) 42 in
  significant_texts false 8 q PostResults_layout = Val ["Primary PIC (8259 #1) error"; "CMOS RAM Battery Failure"; "CMOS RAM Checksum Error";
    "PCI I/O Conflict"; "PNP Memory Conflict"] /\\
  omap (fun fs => map (fun f => (position f, Flag_display false f)) (filter (fun f => is_set f && is_reserved (type_ f)) fs)) (flags debug 8 q PostResults_layout) =
    Val [(36, "Available for OEM assignment"); (38, "Available for OEM assignment")]''','`post_results`')
ex('access_method','''map (fun m => AccessMethod_display true (AccessMethod_new m 0x12345678)) [0; 1; 2; 3; 4; 5; 0x80] =
    ["Indexed I/O, one 8-bit index port, one 8-bit data port: Index 0x78, Data 0x34";
     "Indexed I/O, two 8-bit index ports, one 8-bit data port: Index [78, 56], Data 0x34";
     "Indexed I/O, one 16-bit index port, one 8-bit data port: Index 0x5678, Data 0x34";
     "Memory-mapped physical 32-bit address: 0x12345678"; "General-Purpose NonVolatile Data functions, handle 0x5678";
     "Available: Method 5, Address 0x12345678"; "BIOS Vendor/OEM-specific: Method 128, Address 0x12345678"]''','mod.rs `access_method`')
ex('log_status','significant_texts true 1 7 LogStatus_layout = Val ["Log area valid"; "Log area full"]','`log_status`')
ex('log_header_format','''map (fun k => LogHeaderFormat_display true (LogHeaderFormat_from k)) [0; 1; 2; 0xFF] =
    ["No Header"; "Type 1 log header"; "Available: 2"; "BIOS vendor or OEM-specific format: 255"]''','`log_header_format`')
P('''Definition desc (t : EventLogType) (d : VariableDataFormatType) := {| log_type := t; variable_data_format_type := d |}.
''')
ex('supported_event_log_type_descriptors','''match EventLogTypeDescriptors_new [2; 0; 4; 1; 8; 2; 0x16; 3; 0x66; 0; 0xEE; 0; 0xFF; 0] 2 with
  | Val s => collect 20 (pure EventLogTypeDescriptors_next) s | _ => UB end =
  Val [desc EventLogType_MultiBitEccMemoryError VDF_None; desc EventLogType_BusTimeOut (VDF_Handle 0); desc EventLogType_PostError (VDF_MultipleEvent 0);
       desc EventLogType_LogAreaReset (VDF_MultipleEventHandle 0 0); desc (EventLogType_Unused 0x66) VDF_None;
       desc (EventLogType_Available 0xEE) VDF_None; desc EventLogType_EndOfLog VDF_None]''','`supported_event_log_type_descriptors`')
T="SingleBitEccMemoryError MultiBitEccMemoryError ParityMemoryError BusTimeOut IoChannelCheck SoftwareNmi PostMemoryResize PostError PciParityError PciSystemError CpuFailure EisaFailSafeTimerTimeOut CorrectableMemoryLogDisabled LoggingDisabledForSpecificEventType SystemLimitExceeded AsynchronousHardwareTimerExpired SystemConfigurationInformation HardDiskInformation SystemReconfigured UncorrectableCpuComplexError LogAreaReset SystemBoot EndOfLog".split()
ds=[f'desc EventLogType_{t} '+('(VDF_PostResults 0)' if t=='PostError' else 'VDF_None') for t in T]+[f'desc (EventLogType_Available {x}) (VDF_OemAssigned {x})' for x in ('0xB0','0xB1','0xE0','0xE1')]
P('Definition descs := ['+';\n  '.join(ds)+'].\nDefinition log15 := raw 2 7 InfoType_SystemEventLog 73 0x36 (take 73 (drop 4 type15_bin)) (drop 77 type15_bin).\n')
ex('system_event_log','''match SystemEventLog_try_from debug log15 with
  | Val (Ok s) =>
    log_handle s = 0x36 /\\ log_log_area_length s = 16383 /\\ log_log_header_start_offset s = 0 /\\ log_log_data_start_offset s = 16 /\\
    log_access_method s = AM_MemoryMappedPhysicaAddress 0xFFC40000 /\\ log_log_status s = 1 /\\ log_log_change_token s = 1 /\\
    log_log_header_format s = Some LogHeaderFormat_LogHeaderType1 /\\
    match log_descriptors s with
    | Some d => descriptors_size d = 2 /\\ collect 40 (pure EventLogTypeDescriptors_next) d = Val descs /\\
                descriptors_data d = flat_map (fun x => let (a, b) := EventLogTypeDescriptor_to x in [a; b]) descs
    | None => False end
  | _ => False end''','`system_event_log`')
P('(* ----------------------------------------------------- 017_memory_device.rs *)\n')
def md(h,ph,tw,dw,size,ff,loc,bank,ty,td,speed,man,ser,asset,part,attr,cs,v1,v2,v3): return f'''Val (Ok {{|
    memdev_handle := {h}; memdev_physical_memory_handle := {ph}; memdev_memory_error_handle := None; memdev_total_width := {tw};
    memdev_data_width := {dw}; memdev_size := {size}; memdev_form_factor := FormFactor_{ff}; memdev_device_set := Some 0;
    memdev_device_locator := asc "{loc}"; memdev_bank_locator := asc "{bank}"; memdev_memory_type := MemoryType_{ty};
    memdev_type_detail := {td}; memdev_speed := {speed}; memdev_manufacturer := asc "{man}"; memdev_serial := asc "{ser}";
    memdev_asset_tag := asc "{asset}"; memdev_part_number := asc "{part}"; memdev_attributes := {attr}; memdev_extended_size := 0;
    memdev_configured_memory_speed := {cs}; memdev_minimum_voltage := {v1}; memdev_maximum_voltage := {v2};
    memdev_configured_voltage := {v3}; memdev_memory_technology := None; memdev_operating_mode_capability := None;
    memdev_firmware_version := None; memdev_module_manufacturer := None; memdev_module_product_id := None;
    memdev_memory_subsystem_controller_manufacturer_id := None; memdev_memory_subsystem_controller_product_id := None;
    memdev_non_volatile_size := None; memdev_volatile_size := None; memdev_cache_size := None; memdev_logical_size := None;
    memdev_extended_speed := None; memdev_extended_configured_memory_speed := None |}})'''
ex('smbios_2_8_memory_device_with_34_bytes_parses','''MemoryDevice_try_from debug (raw 2 8 InfoType_MemoryDevice 0x22 0x4e
    [0x4C; 0x00; 0xFE; 0xFF; 0x40; 0x00; 0x40; 0x00; 0x00; 0x20; 0x09; 0x00; 0x01; 0x02; 0x18; 0x80; 0x40;
     0x40; 0x06; 0x03; 0x04; 0x05; 0x06; 0x02; 0x00; 0x00; 0x00; 0x00; 0x40; 0x06]
    '''+z('DIMM A0','A0_Node0_Channel0_Dimm0','Hynix','FAKE_SERIAL_NUMBER','FAKE_ASSET_TAG','FAKE_PART_NUMBER')+') =\n  '+
  md(0x4e,76,'Some 64','Some 64','Some 8192','Dimm','DIMM A0','A0_Node0_Channel0_Dimm0','Ddr3','N.lor (2 ^ 7) (2 ^ 14)','Some 1600','Hynix','FAKE_SERIAL_NUMBER','FAKE_ASSET_TAG','FAKE_PART_NUMBER',2,'Some 1600','None','None','None'),'`smbios_2_8_memory_device_with_34_bytes_parses`; Detail::SYNCHRONOUS is bit 7, UNREGISTERED bit 14')
ex('smbios_3_2_memory_device_with_40_bytes_parses','''MemoryDevice_try_from debug (raw 3 2 InfoType_MemoryDevice 0x28 0x3b
    [0x39; 0x00; 0xfe; 0xff; 0x48; 0x00; 0x40; 0x00; 0x00; 0x40; 0x09; 0x00; 0x01; 0x02; 0x1a; 0x80; 0x20;
     0x6a; 0x0a; 0x03; 0x04; 0x05; 0x06; 0x02; 0x00; 0x00; 0x00; 0x00; 0x60; 0x09; 0xb0; 0x04; 0xb0; 0x04; 0xb0; 0x04]
    '''+z('DIMM_A0','_Node0_Channel0_Dimm0','Hynix','FAKE_SERIAL_NUMBER','FAKE_ASSET_TAG','FAKE_PART_NUMBER')+') =\n  '+
  md(0x3b,57,'Some 72','Some 64','Some 16384','Dimm','DIMM_A0','_Node0_Channel0_Dimm0','Ddr4','N.lor (2 ^ 7) (2 ^ 13)','Some 2666','Hynix','FAKE_SERIAL_NUMBER','FAKE_ASSET_TAG','FAKE_PART_NUMBER',2,'Some 2400','Some 1200','Some 1200','Some 1200'),'`smbios_3_2_memory_device_with_40_bytes_parses`; REGISTERED is bit 13')
ex('memory_device_foo','''MemoryDevice_try_from debug (raw 3 14 InfoType_MemoryDevice 34 112
    [0; 2; 254; 255; 64; 0; 64; 0; 0; 16; 9; 0; 1; 0; 7; 128; 0; 0; 0; 0; 0; 0; 0; 0; 0; 0; 0; 0; 0; 0] [68; 73; 77; 77; 32; 48; 0; 0]) =
  '''+md(112,512,'Some 64','Some 64','Some 4096','Dimm','DIMM 0','','Ram','2 ^ 7','None','','','','',0,'None','None','None','None'),'`foo`')
P('(* ------------------------------------------------------------ 018 to 021 *)\n')
def texts(name,E,frm,to,sample,alt='true',cite=''):
    ex(name,f'map (fun k => {E}_display {alt} ({E}_from k)) (map N.of_nat (seq {frm} {to-frm})) =\n    [{"; ".join(chr(34)+s+chr(34) for s in sample)}]',cite)
texts('error_operation','MEErrorOperation',1,7,["Other","Unknown","Read","Write","Partial write","Undefined: 6"],cite='018_memory_error_32.rs `error_operation`')
texts('error_granularity','MEErrorGranularity',0,6,["Undefined: 0","Other","Unknown","Device level","Memory partition level","Undefined: 5"],cite='`error_granularity`')
texts('error_type','MEErrorType',0,14,["Undefined: 0","Other","Unknown","OK","Bad read","Parity error","Single-bit error","Double-bit error","Multi-bit error","Nibble error","Checksum error","CRC error","Corrected single-bit error","Corrected error"],cite='`error_type`')
ex('memory_error_32','''MemoryError32_try_from debug (raw 2 4 InfoType_MemoryError32 23 0x01E3 (take 19 (drop 4 type18_bin)) (drop 23 type18_bin)) = Val (Ok {|
    me_handle := 0x01E3; me_error_type := MEErrorType_Ok; me_error_granularity := MEErrorGranularity_Unknown;
    me_error_operation := MEErrorOperation_Unknown; me_vendor_syndrome := 0; me_memory_array_error_address := 0x80000000;
    me_device_error_address := 0x80000000; me_error_resolution := 0x80000000 |})''','`memory_error_32`')
ex('memory_array_mapped_address','''MemoryArrayMappedAddress_try_from debug (raw 2 7 InfoType_MemoryArrayMappedAddress 31 0x27 (take 27 (drop 4 type19_bin)) (drop 31 type19_bin)) = Val (Ok {|
    ama_handle := 0x27; ama_starting_address := 0; ama_ending_address := 0x0207C000; ama_memory_array_handle := 0x26; ama_partition_width := 255;
    ama_extended_starting_address := Some 0; ama_extended_ending_address := Some 0 |})''','019 `memory_array_mapped_address`')
ex('memory_device_mapped_address','''MemoryDeviceMappedAddress_try_from debug (raw 2 7 InfoType_MemoryDeviceMappedAddress 35 0x29 (take 31 (drop 4 type20_bin)) (drop 35 type20_bin)) = Val (Ok {|
    dma_handle := 0x29; dma_starting_address := 0; dma_ending_address := 0xFFFFFF; dma_memory_device_handle := 0x28;
    dma_memory_array_mapped_address_handle := 0x27; dma_partition_row_position := 0; dma_interleave_position := 0xFF;
    dma_interleaved_data_depth := 0xFF; dma_extended_starting_address := Some 0; dma_extended_ending_address := Some 0 |})''','020 `memory_device_mapped_address`')
texts('type_','PointingDeviceType',0,10,["Undefined: 0","Other","Unknown","Mouse","Track Ball","Track Point","Glide Point","Touch Pad","Touch Screen","Optical Sensor"],cite='021_built_in_pointing_device.rs `type_`')
texts('interface','PointingDeviceInterface',0,9,["Undefined: 0","Other","Unknown","Serial","PS/2","Infrared","HP-HIL","Bus mouse","ADB (Apple Desktop Bus)"],cite='`interface`')
texts('interface_a0','PointingDeviceInterface',0xA0,0xA3,["Bus mouse DB-9","Bus mouse micro-DIN","USB"],cite='`interface`')
ex('built_in_pointing_device','''BuiltInPointingDevice_try_from debug (raw 2 7 InfoType_BuiltInPointingDevice 7 0xAAAA (take 3 (drop 4 type21_bin)) (drop 7 type21_bin)) = Val (Ok {|
    pd_handle := 0xAAAA; pd_type := PointingDeviceType_Mouse; pd_interface := PointingDeviceInterface_Serial; pd_number_of_buttons := 3 |})''','`built_in_pointing_device`')
P('(* -------------------------------------------------- 022_portable_battery.rs *)\n')
ex('manufacture_date','''map ManufactureDate_display [ManufactureDate_new None None; ManufactureDate_new (Some (asc "07/17/2019")) None; ManufactureDate_new None (Some 0x2841)] =
    [""; "07/17/2019"; "2000-02-01"]''','`manufacture_date`')
ex('serial_number','''map SerialNumber_display [SerialNumber_new None None; SerialNumber_new (Some (asc "S/N 1111")) None; SerialNumber_new None (Some 0xBEAF)] =
    [""; "S/N 1111"; "0xBEAF"]''','`serial_number`')
ex('device_chemistry','''map (fun k => DeviceChemistry_display (DeviceChemistry_new k None)) [0; 1; 2; 3; 4; 5; 6; 7; 8] =
    ["Undefined: 0"; "Other"; "Unknown"; "Lead Acid"; "Nickel Cadmium"; "Nickel metal hydride"; "Lithium-ion"; "Zinc air"; "Lithium Polymer"] /\\
  DeviceChemistry_display (DeviceChemistry_new 2 (Some (asc "PbAc"))) = "PbAc"''','`device_chemistry`')
ex('design_capacity','''map (fun '(v, m) => DesignCapacity_to_u64 debug (DesignCapacity_new v m)) [(0, None); (0, Some 42); (4800, None); (4800, Some 2)] =
    map Val [0; 0; 4800; 9600]''','`design_capacity`')
ex('portable_battery','''PortableBattery_try_from debug (raw 3 2 InfoType_PortableBattery 26 0x2B (take 22 (drop 4 type22_bin)) (drop 26 type22_bin)) = Val (Ok {|
    battery_handle := 0x2B; battery_location := asc "Front"; battery_manufacturer := asc "LGC";
    battery_manufacture_date := MD_SmartBatteryDataSpecification 2020 7 1; battery_serial_number := SN_SmartBatteryDataSpecification 0x058B;
    battery_device_name := asc "5B10W13930"; battery_device_chemistry := Chem_SmartBatteryDataSpecification (asc "LiP");
    battery_design_capacity := DC_Data 5100 10; battery_design_voltage := 15400; battery_sbds_version_number := asc "03.01";
    battery_maximum_error_in_battery_data := 0xFF; battery_oem_specific := Some 0 |})''','`portable_battery`')
open('/verif/rocq/theories/T_Tests.v','w').write('\n'.join(out))
