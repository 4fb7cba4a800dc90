(* The unit tests of /repo/src, run against the model: each Example is the assertion
   of the test of that name.  They check the fidelity of the model and prove nothing
   beyond the inputs in them. *)
From Coq Require Import String Ascii.
From Coq Require Import ZArith Lia ZifyBool ZifyNat ZifyN.
From Verif Require Import Base G_Enums M_Raw M_Entry M_Bitfield G_Layouts M_Bios M_System M_BaseBoard M_Enclosure M_Processor
  M_Cache M_PortConnector M_SystemSlots M_Strings M_GroupAssociations M_SystemEventLog
  M_PhysicalMemoryArray M_MemoryDevice M_Memory M_PortableBattery M_Iter M_Display M_Hash T_Data L_Texts.
Local Open Scope string_scope.
Local Open Scope N_scope.

(* a test build: overflow checks on, memory as the hardware has it *)
Definition debug : cfg := {| overflow_checks := true; flat_memory := true; pointer_width := W64 |}.

(* the bytes of a string literal *)
Fixpoint asc (s : string) : list N :=
  match s with EmptyString => [] | String a s => N_of_ascii a :: asc s end.

(* collect: what an iterator yields until its first None *)
Fixpoint collect {A S} (fuel : nat) (next : S -> out (option A * S)) (s : S) : out (list A) :=
  match fuel with
  | O => UB
  | Datatypes.S f => match next s with
             | Val (Some a, s') => match collect f next s' with Val l => Val (a :: l) | Panic => Panic | UB => UB end
             | Val (None, _) => Val []
             | Panic => Panic
             | UB => UB
             end
  end.
Definition pure {A S} (next : S -> option A * S) (s : S) : out (option A * S) := Val (next s).

Definition raw (ma mi : N) (i : InfoType) (l h : N) (d s : list N) : RawStructure :=
  {| version := {| major := ma; minor := mi |}; info := i; length_ := l; handle := h;
     data := d; strings := s; after := s |}.

(* what `entry_point.structures(&bin[address..])` yields *)
Definition all_structures (entry table : list N) : out (list (res Structure)) :=
  match search entry with
  | Val (Ok e) => collect 400 (next debug) (structures e table)
  | _ => UB
  end.
Definition dmi_0 : out (list (res Structure)) :=
  match search dmi_0_bin with
  | Val (Ok e) => collect 400 (next debug) (structures e (drop (ep_smbios_address e) dmi_0_bin))
  | _ => UB
  end.
Definition picked {A} (f : Structure -> option A) (x : out (list (res Structure))) : list A :=
  match x with
  | Val l => flat_map (fun o => match o with Ok s => match f s with Some a => [a] | None => [] end | Err _ => [] end) l
  | _ => []
  end.
(* the structures of that dump which the tests look at; all are computed together *)
Definition bioses := picked (fun s => match s with SBios b => Some b | _ => None end) dmi_0.
Definition enclosures := picked (fun s => match s with SEnclosure b => Some b | _ => None end) dmi_0.
Definition ports := picked (fun s => match s with SPortConnector b => Some b | _ => None end) dmi_0.
Definition slots := picked (fun s => match s with SSystemSlots b => Some b | _ => None end) dmi_0.
Definition oems := picked (fun s => match s with SOemStrings b => Some b | _ => None end) dmi_0.
Definition options := picked (fun s => match s with SSystemConfigurationOptions b => Some b | _ => None end) dmi_0.
Definition languages := picked (fun s => match s with SBiosLanguage b => Some b | _ => None end) dmi_0.
Definition looked_at_value := Eval vm_compute in (bioses, enclosures, ports, slots, oems, options, languages).
Lemma looked_at_is : (bioses, enclosures, ports, slots, oems, options, languages) = looked_at_value.
Proof. vm_compute. reflexivity. Qed.
Lemma seven {A B C D E F G : Type} (a : A) (b : B) (c : C) (d : D) (e : E) (f : F) (g : G) v : (a, b, c, d, e, f, g) = v ->
  a = (fst (fst (fst (fst (fst (fst v)))))) /\ b = (snd (fst (fst (fst (fst (fst v)))))) /\ c = (snd (fst (fst (fst (fst v))))) /\ d = (snd (fst (fst (fst v)))) /\ e = (snd (fst (fst v))) /\ f = (snd (fst v)) /\ g = (snd v).
Proof. intros <-. repeat split. Qed.
Lemma parts : bioses = (fst (fst (fst (fst (fst (fst looked_at_value)))))) /\ enclosures = (snd (fst (fst (fst (fst (fst looked_at_value)))))) /\ ports = (snd (fst (fst (fst (fst looked_at_value))))) /\ slots = (snd (fst (fst (fst looked_at_value)))) /\ oems = (snd (fst (fst looked_at_value))) /\ options = (snd (fst looked_at_value)) /\ languages = (snd looked_at_value).
Proof. exact (seven _ _ _ _ _ _ _ _ looked_at_is). Qed.
Ltac looked_up := destruct parts as (B & E & P & S & O & C & L); rewrite ?B, ?E, ?P, ?S, ?O, ?C, ?L; clear B E P S O C L.
Definition flags c size v l := collect 200 (iter_next c) (iter_new size v l).
Definition set_flags size v l := omap (fun fs => map position (filter is_set fs)) (flags debug size v l).
Definition significant_texts alt size v l :=
  omap (map (Flag_display alt)) (collect 200 (significants_next debug) (iter_new size v l)).
Definition reserved_ranges size v l :=
  omap (map (fun r => (description r, range_start r, range_end r)))
    (collect 200 (reserved_next debug) (reserved_new (iter_new size v l))).
Definition PRIMES : list N := [2; 3; 5; 7; 11; 13; 17; 19; 23; 29; 31; 37; 41; 43; 47; 53; 59; 61].
Definition INDEX_SAMPLE : list N := (PRIMES ++ [67; 71; 73; 79; 83; 89; 97; 101; 103; 107; 109; 113; 127])%list.
Definition bits (ps : list N) : N := fold_right (fun p acc => N.lor (2 ^ p) acc) 0 ps.

(* -------------------------------------------------------------- bitfield.rs *)
Definition LAYOUT : Layout := layout 8 [Long "A" "A Long"; Long "B" "B Long"; Res "Reserved 1" 1;
  Long "C" "C Long"; Long "D" "D Long"; Long "E" "E Long"; Res "Reserved 2" 2].

(* bitfield.rs `layout_macro` *)
Example layout_macro :
  LAYOUT = [Significant "A" "A Long"; Significant "B" "B Long"; FReserved "Reserved 1"; Significant "C" "C Long";
    Significant "D" "D Long"; Significant "E" "E Long"; FReserved "Reserved 2"; FReserved "Reserved 2"].
Proof. vm_compute. repeat split; reflexivity. Qed.

(* `iter`; 0b1010_1001 is 169 *)
Example iter :
  omap (map (fun f => (position f, is_set f, type_ f))) (flags debug 1 169 LAYOUT) =
    Val (combine (combine [0; 1; 2; 3; 4; 5; 6; 7] [true; false; false; true; false; true; false; true]) LAYOUT).
Proof. vm_compute. repeat split; reflexivity. Qed.

(* `significants` *)
Example significants :
  significant_texts false 1 169 LAYOUT = Val ["A"; "C"; "E"] /\
  significant_texts true 1 169 LAYOUT = Val ["A Long"; "C Long"; "E Long"].
Proof. vm_compute. repeat split; reflexivity. Qed.

Definition S_ (x : string) : LayoutItem := Long ("S " ++ x) (x ++ " Long").
Definition ranges size v l := omap (map (fun r => (range_start r, range_end r)))
  (collect 200 (reserved_next debug) (reserved_new (iter_new size v l))).

(* `reserved` *)
Example reserved :
  ranges 1 255 (layout 8 (map S_ ["A"; "B"; "C"; "D"; "E"; "F"; "G"; "H"])) = Val [] /\
  ranges 1 255 (layout 8 [Res "R 1" 8]) = Val [(0, 7)] /\
  ranges 1 255 (layout 8 (map S_ ["A"; "B"; "C"; "D"; "E"; "F"] ++ [Res "R 1" 2])) = Val [(6, 7)] /\
  ranges 2 65535 (layout 16 [S_ "A"; S_ "B"; Res "R 1" 1; S_ "C"; S_ "C"; S_ "D"; S_ "E"; Res "R 2" 2; S_ "C"; Res "R 2" 2; Res "R 3" 4]) =
    Val [(2, 2); (7, 8); (10, 11); (12, 15)].
Proof. vm_compute. repeat split; reflexivity. Qed.

(* `from_iterator_shift_overflow` *)
Example from_iterator_shift_overflow :
  from_iter debug 8 INDEX_SAMPLE = Panic.
Proof. vm_compute. repeat split; reflexivity. Qed.

(* `from_iterator_values` *)
Example from_iterator_values :
  forallb (fun '(w, v) => match from_iter debug w (filter (fun p => p <? w) INDEX_SAMPLE) with Val x => x =? v | _ => false end)
    [(8, 172); (16, 10412); (32, 2693408940); (64, 2891462833508853932);
     (128, 170152392186162032610075049835446806700)] = true.
Proof. vm_compute. repeat split; reflexivity. Qed.

(* ------------------------------------------------------------------- lib.rs *)

Definition accepted (x : out (result InvalidEntryPointError EntryPoint)) : bool :=
  match x with Val (Ok _) => true | _ => false end.

(* `found_smbios_entry` *)
Example found_smbios_entry :
  accepted (search entry_bin) = true /\ accepted (search dmidecode_bin) = true.
Proof. vm_compute. repeat split; reflexivity. Qed.

(* `found_smbios_entry_v3` *)
Example found_smbios_entry_v3 :
  accepted (search entry_v3_bin) = true.
Proof. vm_compute. repeat split; reflexivity. Qed.

(* `doesnt_find_smbios_entry` (should_panic) *)
Example doesnt_find_smbios_entry :
  accepted (search dmi_bin) = false.
Proof. vm_compute. repeat split; reflexivity. Qed.

(* `found_signature` *)
Example found_signature :
  match find_signature entry_bin, find_signature entry_v3_bin, find_signature dmidecode_bin with Some _, Some _, Some _ => true | _, _, _ => false end = true.
Proof. vm_compute. repeat split; reflexivity. Qed.

(* `doesnt_find_signature` (should_panic) *)
Example doesnt_find_signature :
  find_signature dmi_bin = None.
Proof. vm_compute. repeat split; reflexivity. Qed.

(* `iterator_through_structures`: the loop ends without a panic *)
Example iterator_through_structures :
  match search dmidecode_bin with
  | Val (Ok e) => match collect 400 (next debug) (structures e (drop (ep_smbios_address e) dmidecode_bin)) with
                  | Val l => 40 <? len l | _ => false end
  | _ => false end = true.
Proof. vm_compute. repeat split; reflexivity. Qed.

(* `iterator_through_structures_v3_short` *)
Example iterator_through_structures_v3_short :
  match all_structures entry_v3_short_bin dmi_v3_short_bin with Val l => 40 <? len l | _ => false end = true.
Proof. vm_compute. repeat split; reflexivity. Qed.

(* `iterator_through_structures_v3` *)
Example iterator_through_structures_v3 :
  match all_structures entry_v3_bin dmi_v3_bin with Val l => 40 <? len l | _ => false end = true.
Proof. vm_compute. repeat split; reflexivity. Qed.

(* `find_nulnul_empty` to `find_nulnul_with_data_more_at_end` *)
Example find_nulnul_tests :
  find_nulnul [] = None /\ find_nulnul [0] = None /\ find_nulnul [0; 0] = Some 1 /\
  find_nulnul [1; 2; 3; 4; 0; 5; 4; 3; 2; 1; 0; 0] = Some 11 /\
  find_nulnul [1; 2; 3; 4; 0; 5; 4; 3; 2; 1; 0; 0; 1; 2; 3] = Some 11.
Proof. vm_compute. repeat split; reflexivity. Qed.

(* `structure_strings` *)
Example structure_strings :
  let ss l := collect 20 (pure strings_next) (strings_new l) in
  ss [65; 66; 67; 0; 68; 69; 0; 70; 0; 71; 72; 73; 0; 0] = Val (map asc ["ABC"; "DE"; "F"; "GHI"]) /\
  ss [0; 0] = Val [] /\
  ss [65; 66; 67; 0; 68; 69; 0; 70; 0; 71; 72; 73] = Val (map asc ["ABC"; "DE"; "F"; "GHI"]) /\
  ss [65; 66; 67; 0; 0; 68; 69; 0; 0; 0; 0; 0] = Val (map asc ["ABC"]) /\
  ss [0; 0; 65; 66; 67] = Val [].
Proof. vm_compute. repeat split; reflexivity. Qed.

(* -------------------------------------------------------------- 000_bios.rs *)

(* `characteristics` *)
Example characteristics :
  match from_iter debug 64 PRIMES with Val q => set_flags 8 q Characteristics_layout | _ => UB end = Val PRIMES /\
  significant_texts false 8 80 Characteristics_layout = Val ["ISA is supported"; "EISA is supported"] /\
  significant_texts true 8 80 Characteristics_layout = Val ["ISA is supported"; "EISA is supported"] /\
  reserved_ranges 8 0 Characteristics_layout = Val [("Reserved for BIOS vendor", 32, 47); ("Reserved for system vendor", 48, 63)].
Proof. vm_compute. repeat split; reflexivity. Qed.

(* `characteristics_extension1` *)
Example characteristics_extension1 :
  significant_texts false 1 65 CharacteristicsExtension1_layout = Val ["ACPI is supported"; "IEEE 1394 boot is supported"] /\
  significant_texts true 1 65 CharacteristicsExtension1_layout = Val ["ACPI is supported"; "1394 boot is supported"] /\
  reserved_ranges 1 0 CharacteristicsExtension1_layout = Val [].
Proof. vm_compute. repeat split; reflexivity. Qed.

(* `characteristics_extension2` *)
Example characteristics_extension2 :
  significant_texts false 1 24 CharacteristicsExtension2_layout = Val ["UEFI is supported"; "System is a virtual machine"] /\
  significant_texts true 1 24 CharacteristicsExtension2_layout = Val ["UEFI is supported"; "SMBIOS table describes a virtual machine. (If this bit is not set, no inference can be made about the virtuality of the system.)"] /\
  reserved_ranges 1 0 CharacteristicsExtension2_layout = Val [("Reserved for future assignment", 5, 7)].
Proof. vm_compute. repeat split; reflexivity. Qed.

(* `rom_size` *)
Example rom_size :
  map (fun '(b, e) => RomSize_to_u64 debug {| basic := b; extended := e |})
    [(0x7F, None); (0xFE, None); (0xFF, Some 0x0010); (0xFF, Some 64); (0xFF, Some 0x4030)] =
  map Val [8 * 2 ^ 20; 16 * 2 ^ 20 - 65536; 16 * 2 ^ 20; 64 * 2 ^ 20; 48 * 2 ^ 30].
Proof. vm_compute. repeat split; reflexivity. Qed.

(* `dmi_bin_full_bios_structure` *)
Example dmi_bin_full_bios_structure :
  hd_error bioses = Some {|
    bios_handle := 0; bios_vendor := asc "Dell Inc."; bios_bios_version := asc "2.8.2";
    bios_starting_address_segment := 0xF000; bios_release_date := asc "08/27/2020";
    bios_rom_size := {| basic := 0xFF; extended := Some 32 |};
    bios_characteristics := bits [4; 7; 9; 11; 12; 15; 16; 19; 21; 22; 23; 24; 27; 28; 30; 48; 49; 50; 51; 52];
    bios_characteristics_extension_1 := Some (bits [0; 1]);
    bios_characteristics_extension_2 := Some (bits [0; 1; 2; 3]);
    bios_revision := Some {| rev_major := 2; rev_minor := 8 |};
    bios_firmware_revision := Some {| rev_major := 0xFF; rev_minor := 0xFF |} |}.
Proof. looked_up. vm_compute. repeat split; reflexivity. Qed.

(* `dmi_bin_all_characteristics` *)
Example dmi_bin_all_characteristics :
  match bioses with
  | b :: _ => match significant_texts false 8 (bios_characteristics b) Characteristics_layout,
                bios_characteristics_extension_1 b, bios_characteristics_extension_2 b with
              | Val l, Some x, Some y =>
                match significant_texts false 1 x CharacteristicsExtension1_layout, significant_texts false 1 y CharacteristicsExtension2_layout with
                | Val l1, Val l2 => (l ++ l1 ++ l2)%list | _, _ => [] end
              | _, _, _ => [] end
  | [] => [] end =
  ["ISA is supported"; "PCI is supported"; "PNP is supported"; "BIOS is upgradeable"; "BIOS shadowing is allowed";
   "Boot from CD is supported"; "Selectable boot is supported"; "EDD is supported";
   "Japanese floppy for Toshiba 1.2 MB is supported (int 13h)"; "5.25""/360 kB floppy services are supported (int 13h)";
   "5.25""/1.2 MB floppy services are supported (int 13h)"; "3.5""/720 kB floppy services are supported (int 13h)";
   "8042 keyboard services are supported (int 9h)"; "Serial services are supported (int 14h)";
   "CGA/mono video services are supported (int 10h)"; "ACPI is supported"; "USB legacy is supported";
   "BIOS boot specification is supported"; "Function key-initiated network boot is supported";
   "Targeted content distribution is supported"; "UEFI is supported"].
Proof. looked_up. vm_compute. repeat split; reflexivity. Qed.

(* `dmi_bin_revisions` *)
Example dmi_bin_revisions :
  map (fun b => (option_map Revision_display (bios_revision b), option_map Revision_display (bios_firmware_revision b))) bioses =
    [(Some "2.8", Some "N/A")].
Proof. looked_up. vm_compute. repeat split; reflexivity. Qed.

(* `dmi_bin_bios_size` *)
Example dmi_bin_bios_size :
  map (fun b => RomSize_to_u64 debug (bios_rom_size b)) bioses = [Val (32 * 2 ^ 20)].
Proof. looked_up. vm_compute. repeat split; reflexivity. Qed.

(* --------------------------------------------------------- 003_enclosure.rs *)

(* `enclosure_type` *)
Example enclosure_type :
  map EnclosureType_from [1; 9; 24; 34] = [EnclosureType_Other; EnclosureType_Laptop; EnclosureType_SealedCasePc; EnclosureType_EmbeddedPc] /\
  map (fun k => EnclosureType_display false (EnclosureType_from k)) [1; 9; 24; 34] =
    ["Other"; "Laptop"; "Sealed-case PC"; "Embedded PC"].
Proof. vm_compute. repeat split; reflexivity. Qed.

(* `state` *)
Example state :
  map State_from [1; 4; 6; 240; 241; 242; 243; 244; 245; 246; 247; 248; 249; 250; 251; 252; 253; 254; 255] = [State_Other; State_Warning; State_NonRecoverable; State_Undefined 240; State_Undefined 241; State_Undefined 242; State_Undefined 243; State_Undefined 244; State_Undefined 245; State_Undefined 246; State_Undefined 247; State_Undefined 248; State_Undefined 249; State_Undefined 250; State_Undefined 251; State_Undefined 252; State_Undefined 253; State_Undefined 254; State_Undefined 255] /\
  map (fun k => State_display false (State_from k)) [1; 4; 6; 240; 241; 242; 243; 244; 245; 246; 247; 248; 249; 250; 251; 252; 253; 254; 255] =
    ["Other"; "Warning"; "Non-recoverable"; "Undefined: 240"; "Undefined: 241"; "Undefined: 242"; "Undefined: 243"; "Undefined: 244"; "Undefined: 245"; "Undefined: 246"; "Undefined: 247"; "Undefined: 248"; "Undefined: 249"; "Undefined: 250"; "Undefined: 251"; "Undefined: 252"; "Undefined: 253"; "Undefined: 254"; "Undefined: 255"].
Proof. vm_compute. repeat split; reflexivity. Qed.

(* `security_status` *)
Example security_status :
  map SecurityStatus_from [1; 3; 5; 240; 241; 242; 243; 244; 245; 246; 247; 248; 249; 250; 251; 252; 253; 254; 255] = [SecurityStatus_Other; SecurityStatus_None; SecurityStatus_ExternalInterfaceEnabled; SecurityStatus_Undefined 240; SecurityStatus_Undefined 241; SecurityStatus_Undefined 242; SecurityStatus_Undefined 243; SecurityStatus_Undefined 244; SecurityStatus_Undefined 245; SecurityStatus_Undefined 246; SecurityStatus_Undefined 247; SecurityStatus_Undefined 248; SecurityStatus_Undefined 249; SecurityStatus_Undefined 250; SecurityStatus_Undefined 251; SecurityStatus_Undefined 252; SecurityStatus_Undefined 253; SecurityStatus_Undefined 254; SecurityStatus_Undefined 255] /\
  map (fun k => SecurityStatus_display false (SecurityStatus_from k)) [1; 3; 5; 240; 241; 242; 243; 244; 245; 246; 247; 248; 249; 250; 251; 252; 253; 254; 255] =
    ["Other"; "None"; "External interface enabled"; "Undefined: 240"; "Undefined: 241"; "Undefined: 242"; "Undefined: 243"; "Undefined: 244"; "Undefined: 245"; "Undefined: 246"; "Undefined: 247"; "Undefined: 248"; "Undefined: 249"; "Undefined: 250"; "Undefined: 251"; "Undefined: 252"; "Undefined: 253"; "Undefined: 254"; "Undefined: 255"].
Proof. vm_compute. repeat split; reflexivity. Qed.

(* `contained_element` *)
Example contained_element :
  let a := {| cel_type := CE_InfoType InfoType_SystemSlots; cel_minimum := 1; cel_maximum := 2 |} in
  let b := {| cel_type := CE_BoardType BoardType_ConnectivitySwitch; cel_minimum := 1; cel_maximum := 2 |} in
  ContainedElement_from debug [137; 1; 2] [] = Val a /\ ContainedElement_display a = "Structure type: System Slots (1-2)" /\
  ContainedElement_from debug [4; 1; 2] [] = Val b /\ ContainedElement_display b = "Baseboard type: Connectivity Switch (1-2)".
Proof. vm_compute. repeat split; reflexivity. Qed.

(* `contained_elements` *)
Example contained_elements :
  match ContainedElements_new debug [2; 3; 0x91; 1; 2; 7; 3; 4; 3] [] with
  | Val (Some (e, rest)) => (collect 5 (ContainedElements_next debug) e, rest)
  | _ => (UB, []) end =
  (Val [{| cel_type := CE_InfoType InfoType_MemoryDevice; cel_minimum := 1; cel_maximum := 2 |};
        {| cel_type := CE_BoardType BoardType_IoModule; cel_minimum := 3; cel_maximum := 4 |}], [3]).
Proof. vm_compute. repeat split; reflexivity. Qed.

(* `dmi_bin` *)
Example enclosure_dmi_bin :
  match enclosures with
  | e :: _ =>
    enclosure_handle e = 768 /\ enclosure_manufacturer e = asc "Dell Inc." /\ enclosure_chassis_lock e = true /\
    enclosure_enclosure_type e = EnclosureType_RackMountChassis /\ enclosure_version e = [] /\
    enclosure_serial_number e = asc "XXXXXXX" /\ enclosure_asset_tag_number e = [] /\
    enclosure_boot_up_state e = Some State_Safe /\ enclosure_power_supply_state e = Some State_Safe /\
    enclosure_thermal_state e = Some State_Safe /\ enclosure_security_status e = Some SecurityStatus_Unknown /\
    enclosure_oem_defined e = Some 0x01010101 /\ enclosure_height e = Some 2 /\ enclosure_power_cords_number e = Some 2 /\
    match enclosure_contained_elements e with
    | Some x => ContainedElements_eq x {| ce_chunks := [145; 1; 2; 3; 255; 0]; ce_after := []; ce_count := 2; ce_record_length := 3 |} = true /\
                omap (map ContainedElement_display) (collect 5 (ContainedElements_next debug) x) =
                  Val ["Structure type: Memory Device (1-2)"; "Baseboard type: Server Blade (255-0)"]
    | None => False end /\
    enclosure_sku_number e = Some (asc "SKU Number") /\
    EnclosureType_display false (enclosure_enclosure_type e) = "Rack Mount Chassis" /\
    State_display false State_Safe = "Safe" /\ SecurityStatus_display false SecurityStatus_Unknown = "Unknown"
  | [] => False end.
Proof. looked_up. vm_compute. repeat split; reflexivity. Qed.

(* `no_sku_on_3_14` *)
Example no_sku_on_3_14 :
  Enclosure_try_from debug (raw 3 14 InfoType_Enclosure 20 153 [1; 1; 0; 0; 0; 3; 3; 3; 2; 0; 0; 0; 0; 0; 0; 0]
    [71; 111; 111; 103; 108; 101; 0; 0]) = Val (Ok {|
    enclosure_handle := 153; enclosure_manufacturer := asc "Google"; enclosure_chassis_lock := false;
    enclosure_enclosure_type := EnclosureType_Other; enclosure_version := []; enclosure_serial_number := [];
    enclosure_asset_tag_number := []; enclosure_boot_up_state := Some State_Safe;
    enclosure_power_supply_state := Some State_Safe; enclosure_thermal_state := Some State_Safe;
    enclosure_security_status := Some SecurityStatus_Unknown; enclosure_oem_defined := Some 0; enclosure_height := Some 0;
    enclosure_power_cords_number := Some 0; enclosure_contained_elements := None; enclosure_sku_number := None |}).
Proof. vm_compute. repeat split; reflexivity. Qed.

(* --------------------------------------------------------- 004_processor.rs *)

(* `processor_family` *)
Example processor_family :
  map ProcessorFamily_from [1; 21; 13; 40; 61; 80; 101; 143; 190; 201; 251; 256; 260; 280; 320; 22; 23; 89; 90; 91; 92; 93; 94; 95; 108; 109; 110; 111; 113; 114; 115; 116; 117; 118; 119; 123; 124; 125; 126; 127; 129; 151; 152; 153; 154; 155; 156; 157; 158; 159; 208; 209; 220; 225; 226; 227; 240; 241; 242; 243; 244; 245; 246; 247; 248; 249; 252; 253; 501; 502; 503; 504; 505; 506; 507; 508; 509; 510; 511; 515; 516; 517; 518; 519; 520; 521; 522; 523; 524; 525; 526; 527; 528; 529; 530; 531; 532; 533; 534; 535; 536; 537; 538; 539; 540; 541; 542; 543; 544; 65520; 65521; 65522; 65523; 65524; 65525; 65526; 65527; 65528; 65529; 65530; 65531; 65532; 65533; 255; 65534; 65535] = [ProcessorFamily_Other; ProcessorFamily_IntelPentium4HTProcessor; ProcessorFamily_PentiumIIProcessor; ProcessorFamily_IntelCoreDuoProcessor; ProcessorFamily_AMDOpteron6200SeriesProcessor; ProcessorFamily_SPARCFamily; ProcessorFamily_Motorola68030; ProcessorFamily_AMDAthlonX2DualCoreProcessorFamily; ProcessorFamily_Ambiguous; ProcessorFamily_G4; ProcessorFamily_I960; ProcessorFamily_ARMv7; ProcessorFamily_SH3; ProcessorFamily_ARM; ProcessorFamily_WinChip; ProcessorFamily_Available 22; ProcessorFamily_Available 23; ProcessorFamily_Available 89; ProcessorFamily_Available 90; ProcessorFamily_Available 91; ProcessorFamily_Available 92; ProcessorFamily_Available 93; ProcessorFamily_Available 94; ProcessorFamily_Available 95; ProcessorFamily_Available 108; ProcessorFamily_Available 109; ProcessorFamily_Available 110; ProcessorFamily_Available 111; ProcessorFamily_Available 113; ProcessorFamily_Available 114; ProcessorFamily_Available 115; ProcessorFamily_Available 116; ProcessorFamily_Available 117; ProcessorFamily_Available 118; ProcessorFamily_Available 119; ProcessorFamily_Available 123; ProcessorFamily_Available 124; ProcessorFamily_Available 125; ProcessorFamily_Available 126; ProcessorFamily_Available 127; ProcessorFamily_Available 129; ProcessorFamily_Available 151; ProcessorFamily_Available 152; ProcessorFamily_Available 153; ProcessorFamily_Available 154; ProcessorFamily_Available 155; ProcessorFamily_Available 156; ProcessorFamily_Available 157; ProcessorFamily_Available 158; ProcessorFamily_Available 159; ProcessorFamily_Available 208; ProcessorFamily_Available 209; ProcessorFamily_Available 220; ProcessorFamily_Available 225; ProcessorFamily_Available 226; ProcessorFamily_Available 227; ProcessorFamily_Available 240; ProcessorFamily_Available 241; ProcessorFamily_Available 242; ProcessorFamily_Available 243; ProcessorFamily_Available 244; ProcessorFamily_Available 245; ProcessorFamily_Available 246; ProcessorFamily_Available 247; ProcessorFamily_Available 248; ProcessorFamily_Available 249; ProcessorFamily_Available 252; ProcessorFamily_Available 253; ProcessorFamily_Available 501; ProcessorFamily_Available 502; ProcessorFamily_Available 503; ProcessorFamily_Available 504; ProcessorFamily_Available 505; ProcessorFamily_Available 506; ProcessorFamily_Available 507; ProcessorFamily_Available 508; ProcessorFamily_Available 509; ProcessorFamily_Available 510; ProcessorFamily_Available 511; ProcessorFamily_Available 515; ProcessorFamily_Available 516; ProcessorFamily_Available 517; ProcessorFamily_Available 518; ProcessorFamily_Available 519; ProcessorFamily_Available 520; ProcessorFamily_Available 521; ProcessorFamily_Available 522; ProcessorFamily_Available 523; ProcessorFamily_Available 524; ProcessorFamily_Available 525; ProcessorFamily_Available 526; ProcessorFamily_Available 527; ProcessorFamily_Available 528; ProcessorFamily_Available 529; ProcessorFamily_Available 530; ProcessorFamily_Available 531; ProcessorFamily_Available 532; ProcessorFamily_Available 533; ProcessorFamily_Available 534; ProcessorFamily_Available 535; ProcessorFamily_Available 536; ProcessorFamily_Available 537; ProcessorFamily_Available 538; ProcessorFamily_Available 539; ProcessorFamily_Available 540; ProcessorFamily_Available 541; ProcessorFamily_Available 542; ProcessorFamily_Available 543; ProcessorFamily_Available 544; ProcessorFamily_Available 65520; ProcessorFamily_Available 65521; ProcessorFamily_Available 65522; ProcessorFamily_Available 65523; ProcessorFamily_Available 65524; ProcessorFamily_Available 65525; ProcessorFamily_Available 65526; ProcessorFamily_Available 65527; ProcessorFamily_Available 65528; ProcessorFamily_Available 65529; ProcessorFamily_Available 65530; ProcessorFamily_Available 65531; ProcessorFamily_Available 65532; ProcessorFamily_Available 65533; ProcessorFamily_NotUsed 255; ProcessorFamily_ForFutureUse; ProcessorFamily_NotUsed 65535] /\
  map (fun k => ProcessorFamily_display false (ProcessorFamily_from k)) [1; 21; 13; 40; 61; 80; 101; 143; 190; 201; 251; 256; 260; 280; 320; 22; 23; 89; 90; 91; 92; 93; 94; 95; 108; 109; 110; 111; 113; 114; 115; 116; 117; 118; 119; 123; 124; 125; 126; 127; 129; 151; 152; 153; 154; 155; 156; 157; 158; 159; 208; 209; 220; 225; 226; 227; 240; 241; 242; 243; 244; 245; 246; 247; 248; 249; 252; 253; 501; 502; 503; 504; 505; 506; 507; 508; 509; 510; 511; 515; 516; 517; 518; 519; 520; 521; 522; 523; 524; 525; 526; 527; 528; 529; 530; 531; 532; 533; 534; 535; 536; 537; 538; 539; 540; 541; 542; 543; 544; 65520; 65521; 65522; 65523; 65524; 65525; 65526; 65527; 65528; 65529; 65530; 65531; 65532; 65533; 255; 65534; 65535] =
    ["Other"; "Intel® Pentium® 4 HT processor"; "Pentium® II processor"; "Intel® Core™ Duo processor"; "AMD Opteron™ 6200 Series Processor"; "SPARC Family"; "68030"; "AMD Athlon™ X2 Dual-Core Processor Family"; "Ambiguous"; "G4"; "i960"; "ARMv7"; "SH-3"; "ARM"; "WinChip"; "Available 0x16"; "Available 0x17"; "Available 0x59"; "Available 0x5A"; "Available 0x5B"; "Available 0x5C"; "Available 0x5D"; "Available 0x5E"; "Available 0x5F"; "Available 0x6C"; "Available 0x6D"; "Available 0x6E"; "Available 0x6F"; "Available 0x71"; "Available 0x72"; "Available 0x73"; "Available 0x74"; "Available 0x75"; "Available 0x76"; "Available 0x77"; "Available 0x7B"; "Available 0x7C"; "Available 0x7D"; "Available 0x7E"; "Available 0x7F"; "Available 0x81"; "Available 0x97"; "Available 0x98"; "Available 0x99"; "Available 0x9A"; "Available 0x9B"; "Available 0x9C"; "Available 0x9D"; "Available 0x9E"; "Available 0x9F"; "Available 0xD0"; "Available 0xD1"; "Available 0xDC"; "Available 0xE1"; "Available 0xE2"; "Available 0xE3"; "Available 0xF0"; "Available 0xF1"; "Available 0xF2"; "Available 0xF3"; "Available 0xF4"; "Available 0xF5"; "Available 0xF6"; "Available 0xF7"; "Available 0xF8"; "Available 0xF9"; "Available 0xFC"; "Available 0xFD"; "Available 0x1F5"; "Available 0x1F6"; "Available 0x1F7"; "Available 0x1F8"; "Available 0x1F9"; "Available 0x1FA"; "Available 0x1FB"; "Available 0x1FC"; "Available 0x1FD"; "Available 0x1FE"; "Available 0x1FF"; "Available 0x203"; "Available 0x204"; "Available 0x205"; "Available 0x206"; "Available 0x207"; "Available 0x208"; "Available 0x209"; "Available 0x20A"; "Available 0x20B"; "Available 0x20C"; "Available 0x20D"; "Available 0x20E"; "Available 0x20F"; "Available 0x210"; "Available 0x211"; "Available 0x212"; "Available 0x213"; "Available 0x214"; "Available 0x215"; "Available 0x216"; "Available 0x217"; "Available 0x218"; "Available 0x219"; "Available 0x21A"; "Available 0x21B"; "Available 0x21C"; "Available 0x21D"; "Available 0x21E"; "Available 0x21F"; "Available 0x220"; "Available 0xFFF0"; "Available 0xFFF1"; "Available 0xFFF2"; "Available 0xFFF3"; "Available 0xFFF4"; "Available 0xFFF5"; "Available 0xFFF6"; "Available 0xFFF7"; "Available 0xFFF8"; "Available 0xFFF9"; "Available 0xFFFA"; "Available 0xFFFB"; "Available 0xFFFC"; "Available 0xFFFD"; "Not used. FFh is the un-initialized value of Flash memory."; "For special use in the future"; "Not used. FFFFh is the un-initialized value of Flash memory."].
Proof. vm_compute. repeat split; reflexivity. Qed.

(* `processor_family`, the range 203h to FFFDh in full *)
Example processor_family_available : forall n, 0x203 <= n -> n <= 0xFFFD ->
  ProcessorFamily_from n = ProcessorFamily_Available n /\
  ProcessorFamily_display false (ProcessorFamily_from n) = "Available 0x" ++ show_hex n.
Proof. intros n H1 H2. split; [apply family_available_value|apply (family_available false)]; assumption. Qed.

(* `processor_voltage` *)
Example test_processor_voltage :
  map Voltage_from [0; 1; 2; 7; 8; 146; 255] = [Voltage_Legacy 0; Voltage_Legacy 1; Voltage_Legacy 2; Voltage_Legacy 7;
    Voltage_Undefined 8; Voltage_Current 18; Voltage_Current 127] /\
  map (fun b => Voltage_display (Voltage_from b)) [0; 1; 2; 7; 8; 146; 255] =
    ["Voltage capability unknown"; "Processor socket accept: 5.5V "; "Processor socket accept: 3.3V ";
     "Processor socket accept: 5.5V 3.3V 2.9V "; "Undefined 0b1000"; "Current voltage: 1.8 V"; "Current voltage: 12.7 V"].
Proof. vm_compute. repeat split; reflexivity. Qed.

(* `processor_upgrade` *)
Example processor_upgrade :
  map ProcessorUpgrade_from [1; 19; 24; 43; 62; 63; 64; 65; 66; 67; 68; 69; 70; 71; 72; 73; 74; 75; 76; 77; 78; 79; 80; 81; 82; 83; 84; 85; 86; 87; 88; 89; 90; 91; 92; 93; 94; 95; 96; 97; 98; 99; 100; 101; 102; 103; 104; 105; 106; 107; 108; 109; 110; 111; 112; 113; 114; 115; 116; 117; 118; 119; 120; 121; 122; 123; 124; 125; 126; 127; 128; 129; 130; 131; 132; 133; 134; 135; 136; 137; 138; 139; 140; 141; 142; 143; 144; 145; 146; 147; 148; 149; 150; 151; 152; 153; 154; 155; 156; 157; 158; 159; 160; 161; 162; 163; 164; 165; 166; 167; 168; 169; 170; 171; 172; 173; 174; 175; 176; 177; 178; 179; 180; 181; 182; 183; 184; 185; 186; 187; 188; 189; 190; 191; 192; 193; 194; 195; 196; 197; 198; 199; 200; 201; 202; 203; 204; 205; 206; 207; 208; 209; 210; 211; 212; 213; 214; 215; 216; 217; 218; 219; 220; 221; 222; 223; 224; 225; 226; 227; 228; 229; 230; 231; 232; 233; 234; 235; 236; 237; 238; 239; 240; 241; 242; 243; 244; 245; 246; 247; 248; 249; 250; 251; 252; 253; 254; 255] = [ProcessorUpgrade_Other; ProcessorUpgrade_SocketmPGA604; ProcessorUpgrade_SocketF; ProcessorUpgrade_SocketLGA2011Three; ProcessorUpgrade_SocketLGA1200; ProcessorUpgrade_Undefined 63; ProcessorUpgrade_Undefined 64; ProcessorUpgrade_Undefined 65; ProcessorUpgrade_Undefined 66; ProcessorUpgrade_Undefined 67; ProcessorUpgrade_Undefined 68; ProcessorUpgrade_Undefined 69; ProcessorUpgrade_Undefined 70; ProcessorUpgrade_Undefined 71; ProcessorUpgrade_Undefined 72; ProcessorUpgrade_Undefined 73; ProcessorUpgrade_Undefined 74; ProcessorUpgrade_Undefined 75; ProcessorUpgrade_Undefined 76; ProcessorUpgrade_Undefined 77; ProcessorUpgrade_Undefined 78; ProcessorUpgrade_Undefined 79; ProcessorUpgrade_Undefined 80; ProcessorUpgrade_Undefined 81; ProcessorUpgrade_Undefined 82; ProcessorUpgrade_Undefined 83; ProcessorUpgrade_Undefined 84; ProcessorUpgrade_Undefined 85; ProcessorUpgrade_Undefined 86; ProcessorUpgrade_Undefined 87; ProcessorUpgrade_Undefined 88; ProcessorUpgrade_Undefined 89; ProcessorUpgrade_Undefined 90; ProcessorUpgrade_Undefined 91; ProcessorUpgrade_Undefined 92; ProcessorUpgrade_Undefined 93; ProcessorUpgrade_Undefined 94; ProcessorUpgrade_Undefined 95; ProcessorUpgrade_Undefined 96; ProcessorUpgrade_Undefined 97; ProcessorUpgrade_Undefined 98; ProcessorUpgrade_Undefined 99; ProcessorUpgrade_Undefined 100; ProcessorUpgrade_Undefined 101; ProcessorUpgrade_Undefined 102; ProcessorUpgrade_Undefined 103; ProcessorUpgrade_Undefined 104; ProcessorUpgrade_Undefined 105; ProcessorUpgrade_Undefined 106; ProcessorUpgrade_Undefined 107; ProcessorUpgrade_Undefined 108; ProcessorUpgrade_Undefined 109; ProcessorUpgrade_Undefined 110; ProcessorUpgrade_Undefined 111; ProcessorUpgrade_Undefined 112; ProcessorUpgrade_Undefined 113; ProcessorUpgrade_Undefined 114; ProcessorUpgrade_Undefined 115; ProcessorUpgrade_Undefined 116; ProcessorUpgrade_Undefined 117; ProcessorUpgrade_Undefined 118; ProcessorUpgrade_Undefined 119; ProcessorUpgrade_Undefined 120; ProcessorUpgrade_Undefined 121; ProcessorUpgrade_Undefined 122; ProcessorUpgrade_Undefined 123; ProcessorUpgrade_Undefined 124; ProcessorUpgrade_Undefined 125; ProcessorUpgrade_Undefined 126; ProcessorUpgrade_Undefined 127; ProcessorUpgrade_Undefined 128; ProcessorUpgrade_Undefined 129; ProcessorUpgrade_Undefined 130; ProcessorUpgrade_Undefined 131; ProcessorUpgrade_Undefined 132; ProcessorUpgrade_Undefined 133; ProcessorUpgrade_Undefined 134; ProcessorUpgrade_Undefined 135; ProcessorUpgrade_Undefined 136; ProcessorUpgrade_Undefined 137; ProcessorUpgrade_Undefined 138; ProcessorUpgrade_Undefined 139; ProcessorUpgrade_Undefined 140; ProcessorUpgrade_Undefined 141; ProcessorUpgrade_Undefined 142; ProcessorUpgrade_Undefined 143; ProcessorUpgrade_Undefined 144; ProcessorUpgrade_Undefined 145; ProcessorUpgrade_Undefined 146; ProcessorUpgrade_Undefined 147; ProcessorUpgrade_Undefined 148; ProcessorUpgrade_Undefined 149; ProcessorUpgrade_Undefined 150; ProcessorUpgrade_Undefined 151; ProcessorUpgrade_Undefined 152; ProcessorUpgrade_Undefined 153; ProcessorUpgrade_Undefined 154; ProcessorUpgrade_Undefined 155; ProcessorUpgrade_Undefined 156; ProcessorUpgrade_Undefined 157; ProcessorUpgrade_Undefined 158; ProcessorUpgrade_Undefined 159; ProcessorUpgrade_Undefined 160; ProcessorUpgrade_Undefined 161; ProcessorUpgrade_Undefined 162; ProcessorUpgrade_Undefined 163; ProcessorUpgrade_Undefined 164; ProcessorUpgrade_Undefined 165; ProcessorUpgrade_Undefined 166; ProcessorUpgrade_Undefined 167; ProcessorUpgrade_Undefined 168; ProcessorUpgrade_Undefined 169; ProcessorUpgrade_Undefined 170; ProcessorUpgrade_Undefined 171; ProcessorUpgrade_Undefined 172; ProcessorUpgrade_Undefined 173; ProcessorUpgrade_Undefined 174; ProcessorUpgrade_Undefined 175; ProcessorUpgrade_Undefined 176; ProcessorUpgrade_Undefined 177; ProcessorUpgrade_Undefined 178; ProcessorUpgrade_Undefined 179; ProcessorUpgrade_Undefined 180; ProcessorUpgrade_Undefined 181; ProcessorUpgrade_Undefined 182; ProcessorUpgrade_Undefined 183; ProcessorUpgrade_Undefined 184; ProcessorUpgrade_Undefined 185; ProcessorUpgrade_Undefined 186; ProcessorUpgrade_Undefined 187; ProcessorUpgrade_Undefined 188; ProcessorUpgrade_Undefined 189; ProcessorUpgrade_Undefined 190; ProcessorUpgrade_Undefined 191; ProcessorUpgrade_Undefined 192; ProcessorUpgrade_Undefined 193; ProcessorUpgrade_Undefined 194; ProcessorUpgrade_Undefined 195; ProcessorUpgrade_Undefined 196; ProcessorUpgrade_Undefined 197; ProcessorUpgrade_Undefined 198; ProcessorUpgrade_Undefined 199; ProcessorUpgrade_Undefined 200; ProcessorUpgrade_Undefined 201; ProcessorUpgrade_Undefined 202; ProcessorUpgrade_Undefined 203; ProcessorUpgrade_Undefined 204; ProcessorUpgrade_Undefined 205; ProcessorUpgrade_Undefined 206; ProcessorUpgrade_Undefined 207; ProcessorUpgrade_Undefined 208; ProcessorUpgrade_Undefined 209; ProcessorUpgrade_Undefined 210; ProcessorUpgrade_Undefined 211; ProcessorUpgrade_Undefined 212; ProcessorUpgrade_Undefined 213; ProcessorUpgrade_Undefined 214; ProcessorUpgrade_Undefined 215; ProcessorUpgrade_Undefined 216; ProcessorUpgrade_Undefined 217; ProcessorUpgrade_Undefined 218; ProcessorUpgrade_Undefined 219; ProcessorUpgrade_Undefined 220; ProcessorUpgrade_Undefined 221; ProcessorUpgrade_Undefined 222; ProcessorUpgrade_Undefined 223; ProcessorUpgrade_Undefined 224; ProcessorUpgrade_Undefined 225; ProcessorUpgrade_Undefined 226; ProcessorUpgrade_Undefined 227; ProcessorUpgrade_Undefined 228; ProcessorUpgrade_Undefined 229; ProcessorUpgrade_Undefined 230; ProcessorUpgrade_Undefined 231; ProcessorUpgrade_Undefined 232; ProcessorUpgrade_Undefined 233; ProcessorUpgrade_Undefined 234; ProcessorUpgrade_Undefined 235; ProcessorUpgrade_Undefined 236; ProcessorUpgrade_Undefined 237; ProcessorUpgrade_Undefined 238; ProcessorUpgrade_Undefined 239; ProcessorUpgrade_Undefined 240; ProcessorUpgrade_Undefined 241; ProcessorUpgrade_Undefined 242; ProcessorUpgrade_Undefined 243; ProcessorUpgrade_Undefined 244; ProcessorUpgrade_Undefined 245; ProcessorUpgrade_Undefined 246; ProcessorUpgrade_Undefined 247; ProcessorUpgrade_Undefined 248; ProcessorUpgrade_Undefined 249; ProcessorUpgrade_Undefined 250; ProcessorUpgrade_Undefined 251; ProcessorUpgrade_Undefined 252; ProcessorUpgrade_Undefined 253; ProcessorUpgrade_Undefined 254; ProcessorUpgrade_Undefined 255] /\
  map (fun k => ProcessorUpgrade_display false (ProcessorUpgrade_from k)) [1; 19; 24; 43; 62; 63; 64; 65; 66; 67; 68; 69; 70; 71; 72; 73; 74; 75; 76; 77; 78; 79; 80; 81; 82; 83; 84; 85; 86; 87; 88; 89; 90; 91; 92; 93; 94; 95; 96; 97; 98; 99; 100; 101; 102; 103; 104; 105; 106; 107; 108; 109; 110; 111; 112; 113; 114; 115; 116; 117; 118; 119; 120; 121; 122; 123; 124; 125; 126; 127; 128; 129; 130; 131; 132; 133; 134; 135; 136; 137; 138; 139; 140; 141; 142; 143; 144; 145; 146; 147; 148; 149; 150; 151; 152; 153; 154; 155; 156; 157; 158; 159; 160; 161; 162; 163; 164; 165; 166; 167; 168; 169; 170; 171; 172; 173; 174; 175; 176; 177; 178; 179; 180; 181; 182; 183; 184; 185; 186; 187; 188; 189; 190; 191; 192; 193; 194; 195; 196; 197; 198; 199; 200; 201; 202; 203; 204; 205; 206; 207; 208; 209; 210; 211; 212; 213; 214; 215; 216; 217; 218; 219; 220; 221; 222; 223; 224; 225; 226; 227; 228; 229; 230; 231; 232; 233; 234; 235; 236; 237; 238; 239; 240; 241; 242; 243; 244; 245; 246; 247; 248; 249; 250; 251; 252; 253; 254; 255] =
    ["Other"; "Socket mPGA604"; "Socket F (1207)"; "Socket LGA2011-3"; "Socket LGA1200"; "Undefined 63"; "Undefined 64"; "Undefined 65"; "Undefined 66"; "Undefined 67"; "Undefined 68"; "Undefined 69"; "Undefined 70"; "Undefined 71"; "Undefined 72"; "Undefined 73"; "Undefined 74"; "Undefined 75"; "Undefined 76"; "Undefined 77"; "Undefined 78"; "Undefined 79"; "Undefined 80"; "Undefined 81"; "Undefined 82"; "Undefined 83"; "Undefined 84"; "Undefined 85"; "Undefined 86"; "Undefined 87"; "Undefined 88"; "Undefined 89"; "Undefined 90"; "Undefined 91"; "Undefined 92"; "Undefined 93"; "Undefined 94"; "Undefined 95"; "Undefined 96"; "Undefined 97"; "Undefined 98"; "Undefined 99"; "Undefined 100"; "Undefined 101"; "Undefined 102"; "Undefined 103"; "Undefined 104"; "Undefined 105"; "Undefined 106"; "Undefined 107"; "Undefined 108"; "Undefined 109"; "Undefined 110"; "Undefined 111"; "Undefined 112"; "Undefined 113"; "Undefined 114"; "Undefined 115"; "Undefined 116"; "Undefined 117"; "Undefined 118"; "Undefined 119"; "Undefined 120"; "Undefined 121"; "Undefined 122"; "Undefined 123"; "Undefined 124"; "Undefined 125"; "Undefined 126"; "Undefined 127"; "Undefined 128"; "Undefined 129"; "Undefined 130"; "Undefined 131"; "Undefined 132"; "Undefined 133"; "Undefined 134"; "Undefined 135"; "Undefined 136"; "Undefined 137"; "Undefined 138"; "Undefined 139"; "Undefined 140"; "Undefined 141"; "Undefined 142"; "Undefined 143"; "Undefined 144"; "Undefined 145"; "Undefined 146"; "Undefined 147"; "Undefined 148"; "Undefined 149"; "Undefined 150"; "Undefined 151"; "Undefined 152"; "Undefined 153"; "Undefined 154"; "Undefined 155"; "Undefined 156"; "Undefined 157"; "Undefined 158"; "Undefined 159"; "Undefined 160"; "Undefined 161"; "Undefined 162"; "Undefined 163"; "Undefined 164"; "Undefined 165"; "Undefined 166"; "Undefined 167"; "Undefined 168"; "Undefined 169"; "Undefined 170"; "Undefined 171"; "Undefined 172"; "Undefined 173"; "Undefined 174"; "Undefined 175"; "Undefined 176"; "Undefined 177"; "Undefined 178"; "Undefined 179"; "Undefined 180"; "Undefined 181"; "Undefined 182"; "Undefined 183"; "Undefined 184"; "Undefined 185"; "Undefined 186"; "Undefined 187"; "Undefined 188"; "Undefined 189"; "Undefined 190"; "Undefined 191"; "Undefined 192"; "Undefined 193"; "Undefined 194"; "Undefined 195"; "Undefined 196"; "Undefined 197"; "Undefined 198"; "Undefined 199"; "Undefined 200"; "Undefined 201"; "Undefined 202"; "Undefined 203"; "Undefined 204"; "Undefined 205"; "Undefined 206"; "Undefined 207"; "Undefined 208"; "Undefined 209"; "Undefined 210"; "Undefined 211"; "Undefined 212"; "Undefined 213"; "Undefined 214"; "Undefined 215"; "Undefined 216"; "Undefined 217"; "Undefined 218"; "Undefined 219"; "Undefined 220"; "Undefined 221"; "Undefined 222"; "Undefined 223"; "Undefined 224"; "Undefined 225"; "Undefined 226"; "Undefined 227"; "Undefined 228"; "Undefined 229"; "Undefined 230"; "Undefined 231"; "Undefined 232"; "Undefined 233"; "Undefined 234"; "Undefined 235"; "Undefined 236"; "Undefined 237"; "Undefined 238"; "Undefined 239"; "Undefined 240"; "Undefined 241"; "Undefined 242"; "Undefined 243"; "Undefined 244"; "Undefined 245"; "Undefined 246"; "Undefined 247"; "Undefined 248"; "Undefined 249"; "Undefined 250"; "Undefined 251"; "Undefined 252"; "Undefined 253"; "Undefined 254"; "Undefined 255"].
Proof. vm_compute. repeat split; reflexivity. Qed.

(* `smbios_2_8_processor_intel_atom_parses` *)
Example smbios_2_8_processor_intel_atom_parses :
  Processor_try_from debug (raw 2 8 InfoType_Processor 42 72 [0x01; 0x03; 0x2b; 0x02; 0xd8; 0x06; 0x04; 0x00; 0xff; 0xfb; 0xeb; 0xbf; 0x03; 0x90; 0x64; 0x00;
    0x28; 0x0a; 0x60; 0x09; 0x41; 0x01; 0x46; 0x00; 0x47; 0x00; 0xff; 0xff; 0x00; 0x04; 0x00; 0x08; 0x08; 0x08; 0x04; 0x00; 0; 0]
    (asc "CPU0" ++ [0] ++ asc "Intel(R) Corporation" ++ [0] ++ asc "Intel(R) Atom(TM) CPU  C2750  @ 2.40GHz" ++ [0] ++ asc "ProcessorInfo_ASSET_TAG" ++ [0])%list) = Val (Ok {| processor_handle := 0x48; processor_socket_designation := asc "CPU0";
    processor_processor_type := ProcessorType_CentralProcessor; processor_processor_family := ProcessorFamily_IntelAtomProcessor;
    processor_processor_manufacturer := asc "Intel(R) Corporation"; processor_processor_id := 13829424153406736088;
    processor_processor_version := asc "Intel(R) Atom(TM) CPU  C2750  @ 2.40GHz"; processor_voltage := Voltage_Current 16;
    processor_external_clock := 100; processor_max_speed := 2600; processor_current_speed := 2400; processor_status := 65;
    processor_processor_upgrade := ProcessorUpgrade_Other; processor_l1_cache_handle := Some 70; processor_l2_cache_handle := Some 71;
    processor_l3_cache_handle := Some 65535; processor_serial_number := Some []; processor_asset_tag := Some (asc "ProcessorInfo_ASSET_TAG");
    processor_part_number := Some []; processor_core_count := Some 8; processor_core_enabled := Some 8;
    processor_thread_count := Some 8; processor_processor_characteristics := Some 4 |}).
Proof. vm_compute. repeat split; reflexivity. Qed.

(* `smbios_2_8_processor_parses_with_processor_family_2` *)
Example smbios_2_8_processor_parses_with_processor_family_2 :
  Processor_try_from debug (raw 2 8 InfoType_Processor 42 72 [0x01; 0x03; 0xfe; 0x02; 0xd8; 0x06; 0x04; 0x00; 0xff; 0xfb; 0xeb; 0xbf; 0x03; 0x90; 0x64; 0x00;
    0x28; 0x0a; 0x60; 0x09; 0x41; 0x01; 0x46; 0x00; 0x47; 0x00; 0xff; 0xff; 0x00; 0x04; 0x00; 0x08; 0x08; 0x08; 0x04; 0x00; 0x18; 0x01]
    (asc "CPU0" ++ [0] ++ asc "FAKE MANUFACTURER" ++ [0] ++ asc "FAKE VERSION" ++ [0] ++ asc "FAKE ASSET TAG" ++ [0])%list) = Val (Ok {| processor_handle := 0x48; processor_socket_designation := asc "CPU0";
    processor_processor_type := ProcessorType_CentralProcessor; processor_processor_family := ProcessorFamily_ARM;
    processor_processor_manufacturer := asc "FAKE MANUFACTURER"; processor_processor_id := 13829424153406736088;
    processor_processor_version := asc "FAKE VERSION"; processor_voltage := Voltage_Current 16;
    processor_external_clock := 100; processor_max_speed := 2600; processor_current_speed := 2400; processor_status := 65;
    processor_processor_upgrade := ProcessorUpgrade_Other; processor_l1_cache_handle := Some 70; processor_l2_cache_handle := Some 71;
    processor_l3_cache_handle := Some 65535; processor_serial_number := Some []; processor_asset_tag := Some (asc "FAKE ASSET TAG");
    processor_part_number := Some []; processor_core_count := Some 8; processor_core_enabled := Some 8;
    processor_thread_count := Some 8; processor_processor_characteristics := Some 4 |}).
Proof. vm_compute. repeat split; reflexivity. Qed.

(* `zero_process_family` *)
Example zero_process_family :
  Processor_try_from debug (raw 3 2 InfoType_Processor 50 12 [1; 3; 0; 0; 0; 0; 0; 0; 0; 0; 0; 0; 0; 0; 0; 0; 0xa0; 0x0f; 0; 0; 0; 0x3f; 0xff; 0xff; 0xff; 0xff; 0xff; 0xff;
    0; 0; 0; 0; 0; 0; 0; 0; 0; 0; 0; 0; 0; 0; 0; 0; 0; 0]
    (asc "CPU0" ++ [0])%list) = Val (Ok {| processor_handle := 12; processor_socket_designation := asc "CPU0";
    processor_processor_type := ProcessorType_CentralProcessor; processor_processor_family := ProcessorFamily_OutOfSpec;
    processor_processor_manufacturer := []; processor_processor_id := 0;
    processor_processor_version := []; processor_voltage := Voltage_Legacy 0;
    processor_external_clock := 0; processor_max_speed := 4000; processor_current_speed := 0; processor_status := 0;
    processor_processor_upgrade := ProcessorUpgrade_Undefined 63; processor_l1_cache_handle := Some 65535; processor_l2_cache_handle := Some 65535;
    processor_l3_cache_handle := Some 65535; processor_serial_number := Some []; processor_asset_tag := Some [];
    processor_part_number := Some []; processor_core_count := Some 0; processor_core_enabled := Some 0;
    processor_thread_count := Some 0; processor_processor_characteristics := Some 0 |}).
Proof. vm_compute. repeat split; reflexivity. Qed.

(* ------------------------------------------------------------- 007_cache.rs *)

(* `cache_configuration`; 0b0000_0010_1010_1010 is 682 *)
Example cache_configuration :
  CacheConfiguration_from 682 = Val {| level := CacheLevel_L3; socketed := true; location := CacheLocation_External;
    enabled_at_boot_time := true; operational_mode := CacheOperationalMode_ValuesWithMemoryAddress |}.
Proof. vm_compute. repeat split; reflexivity. Qed.

(* `cache_size` *)
Example cache_size :
  CacheSize_from 682 = Granularity1K 682 /\ CacheSize_bytes debug (CacheSize_from 682) = Val (682 * 1024) /\
  CacheSize_from 33450 = Granularity64K 682 /\ CacheSize_bytes debug (CacheSize_from 33450) = Val (682 * 65536) /\
  CacheSize2_from (682 * 65536) = Granularity1K_2 44695552 /\ CacheSize2_bytes debug (CacheSize2_from (682 * 65536)) = Val (44695552 * 1024) /\
  CacheSize2_from (33450 * 65536) = Granularity64K_2 44695552 /\ CacheSize2_bytes debug (CacheSize2_from (33450 * 65536)) = Val (44695552 * 65536).
Proof. vm_compute. repeat split; reflexivity. Qed.

(* `cache_enums`; 0b0101_0101 is 85 *)
Example cache_enums :
  CacheSramType_truncate 85 = 85 /\ CacheErrorCorrectionType_from 85 = CacheErrorCorrectionType_Undefined 85 /\
  CacheErrorCorrectionType_from 5 = CacheErrorCorrectionType_SingleBitEcc /\ SystemCacheType_from 85 = SystemCacheType_Undefined 85 /\
  SystemCacheType_from 5 = SystemCacheType_Unified /\ CacheAssociativity_from 85 = CacheAssociativity_Undefined 85 /\
  CacheAssociativity_from 5 = CacheAssociativity_FourWaySetAssociative.
Proof. vm_compute. repeat split; reflexivity. Qed.

(* ---------------------------------------------------- 008_port_connector.rs *)

(* `connector_type` *)
Example connector_type :
  map ConnectorType_from [1; 18; 163; 254; 255] = [ConnectorType_Centronics; ConnectorType_AccessBus; ConnectorType_Pc98Note; ConnectorType_Undefined 254; ConnectorType_Other] /\
  map (fun k => ConnectorType_display false (ConnectorType_from k)) [1; 18; 163; 254; 255] =
    ["Centronics"; "Access Bus (USB)"; "PC-98Note"; "Undefined: 254"; "Other – Use Reference Designator Strings to supply information."].
Proof. vm_compute. repeat split; reflexivity. Qed.

(* `port_type` *)
Example port_type :
  map PortType_from [0; 17; 161; 255; 254] = [PortType_None; PortType_FireWire; PortType_Intel8251FifoCompatible; PortType_Other; PortType_Undefined 254] /\
  map (fun k => PortType_display false (PortType_from k)) [0; 17; 161; 255; 254] =
    ["None"; "FireWire (IEEE P1394)"; "8251 FIFO Compatible"; "Other"; "Undefined: 254"].
Proof. vm_compute. repeat split; reflexivity. Qed.

(* `port_connector` *)
Example port_connector :
  PortConnector_try_from debug (raw 0 0 InfoType_PortConnector 0 8 [1; 0; 2; 0x0F; 0x0D] (asc "J1A1" ++ [0] ++ asc "Keyboard" ++ [0])%list) =
    Val (Ok {| port_handle := 8; port_internal_reference_designator := asc "J1A1"; port_internal_connector_type := ConnectorType_None;
    port_external_reference_designator := asc "Keyboard"; port_external_connector_type := ConnectorType_Ps2; port_port_type := PortType_KeyboardPort |}).
Proof. vm_compute. repeat split; reflexivity. Qed.

(* `dmi_bin` *)
Example port_connector_dmi_bin :
  find (fun p => port_handle p =? 0x0800) ports = Some {| port_handle := 2048; port_internal_reference_designator := asc "Internal USB port 1"; port_internal_connector_type := ConnectorType_AccessBus;
    port_external_reference_designator := asc ""; port_external_connector_type := ConnectorType_None; port_port_type := PortType_Usb |} /\
  find (fun p => port_handle p =? 0x080A) ports = Some {| port_handle := 2058; port_internal_reference_designator := asc ""; port_internal_connector_type := ConnectorType_None;
    port_external_reference_designator := asc "4"; port_external_connector_type := ConnectorType_Rj45; port_port_type := PortType_NetworkPort |} /\
  ConnectorType_display false ConnectorType_AccessBus = "Access Bus (USB)" /\ ConnectorType_display false ConnectorType_None = "None" /\
  ConnectorType_display false ConnectorType_Rj45 = "RJ-45" /\ PortType_display false PortType_Usb = "USB" /\
  PortType_display false PortType_NetworkPort = "Network Port".
Proof. looked_up. vm_compute. repeat split; reflexivity. Qed.

(* ------------------------------------------------------ 009_system_slots.rs *)

(* `slot_type` *)
Example slot_type :
  map SlotType_from [3; 33; 160; 196; 254] = [SlotType_Isa; SlotType_PciExpressMini52pin1; SlotType_Pc98C20; SlotType_PciExpressGen6; SlotType_Undefined 254] /\
  map (fun k => SlotType_display false (SlotType_from k)) [3; 33; 160; 196; 254] =
    ["ISA"; "PCI Express Mini 52-pin with bottom-side keep-outs"; "PC-98/C20"; "PCI Express Gen 6 and Beyond"; "Undefined: 254"] /\
  map (fun k => SlotType_display true (SlotType_from k)) [3; 33; 160; 196; 254] =
    ["ISA"; "PCI Express Mini 52-pin (CEM spec. 2.0) with bottom-side keep-outs. Use Slot Length field value 03h (short length) for ""half-Mini card"" -only support, 04h (long length) for ""full-Mini card"" or dual support."; "PC-98/C20"; "PCI Express Gen 6 and Beyond"; "Undefined: 254"].
Proof. vm_compute. repeat split; reflexivity. Qed.

(* `slot_width` *)
Example slot_width :
  map SlotWidth_from [1; 3; 6; 7; 14; 254] = [SlotWidth_Other; SlotWidth_Byte; SlotWidth_Qword; SlotWidth_Dqword; SlotWidth_X32; SlotWidth_Undefined 254] /\
  map (fun k => SlotWidth_display false (SlotWidth_from k)) [1; 3; 6; 7; 14; 254] =
    ["Other"; "8 bit"; "64 bit"; "128 bit"; "32x or x32"; "Undefined: 254"].
Proof. vm_compute. repeat split; reflexivity. Qed.

(* `current_usage` *)
Example current_usage :
  map CurrentUsage_from [1; 2; 4; 5; 254] = [CurrentUsage_Other; CurrentUsage_Unknown; CurrentUsage_InUse; CurrentUsage_Unavailable; CurrentUsage_Undefined 254] /\
  map (fun k => CurrentUsage_display true (CurrentUsage_from k)) [1; 2; 4; 5; 254] =
    ["Other"; "Unknown"; "In use"; "Unavailable (e.g., connected to a processor that is not installed)"; "Undefined: 254"].
Proof. vm_compute. repeat split; reflexivity. Qed.

(* `slot_length` *)
Example slot_length :
  map SlotLength_from [1; 2; 3; 5; 254] = [SlotLength_Other; SlotLength_Unknown; SlotLength_ShortLength; SlotLength_DriveFormFactor2_5; SlotLength_Undefined 254] /\
  map (fun k => SlotLength_display false (SlotLength_from k)) [1; 2; 3; 5; 254] =
    ["Other"; "Unknown"; "Short Length"; "2.5"" drive form factor"; "Undefined: 254"].
Proof. vm_compute. repeat split; reflexivity. Qed.

(* `slot_caharacteristics_1` *)
Example slot_caharacteristics_1 :
  match from_iter debug 8 [2; 3; 5; 7] with Val q => set_flags 1 q SlotCharacteristics1_layout | _ => UB end = Val [2; 3; 5; 7] /\
  significant_texts false 1 130 SlotCharacteristics1_layout = Val ["5.0 V is provided"; "Modem ring resume is supported"] /\
  significant_texts true 1 130 SlotCharacteristics1_layout = Val ["Provides 5.0 volts"; "PC Card slot supports Modem Ring Resume"] /\
  reserved_ranges 1 0 SlotCharacteristics1_layout = Val [].
Proof. vm_compute. repeat split; reflexivity. Qed.

(* `slot_caharacteristics_2` *)
Example slot_caharacteristics_2 :
  match from_iter debug 8 [2; 3; 5; 7] with Val q => set_flags 1 q SlotCharacteristics2_layout | _ => UB end = Val [2; 3; 5; 7] /\
  significant_texts false 1 17 SlotCharacteristics2_layout = Val ["PME signal is supported"; "Async/surprise removal is supported"] /\
  significant_texts true 1 17 SlotCharacteristics2_layout = Val ["PCI slot supports Power Management Event (PME#) signal";
    "Slot supports async/surprise removal (i.e., removal without prior notification to the operating system, device driver, or applications)"] /\
  omap len (reserved_ranges 1 0 SlotCharacteristics2_layout) = Val 1.
Proof. vm_compute. repeat split; reflexivity. Qed.

(* `device` *)
Example device :
  omap Device_display (Device_from [0xE9; 0x05; 0xB5; 0xDF; 0x10]) = Val "05e9:b5:1b.7 (Width 16)" /\
  omap Device_to (Device_from [0xE9; 0x05; 0xB5; 0xDF; 0x10]) = Val [0xE9; 0x05; 0xB5; 0xDF; 0x10].
Proof. vm_compute. repeat split; reflexivity. Qed.

(* `peer_devices` *)
Example peer_devices :
  omap (map Device_display) (collect 9 PeerDevices_next {| peer_chunks := [0; 0; 0; 8; 0; 0; 0; 0; 0xE3; 1; 0; 0; 0; 0xE4; 4] |}) =
    Val ["0000:00:01.0 (Width 0)"; "0000:00:1c.3 (Width 1)"; "0000:00:1c.4 (Width 4)"].
Proof. vm_compute. repeat split; reflexivity. Qed.

(* `system_slots`, the loop over all versions *)
Example system_slots_errors : forall ma mi, ma < 256 -> mi < 256 ->
  omap (fun o => match o with Ok _ => None | Err e => Some (MalformedStructureError_display e) end)
    (SystemSlots_try_from debug (raw ma mi InfoType_SystemSlots 0 666 [] [])) =
  Val (Some (if 256 * ma + mi <? 0x200 then "could not convert slice to array"
        else "Formatted section length of structure SystemSlots with handle 666 should be " ++
          (if 256 * ma + mi <? 0x201 then "12" else if 256 * ma + mi <? 0x206 then "13"
           else if 256 * ma + mi <? 0x302 then "17" else "minimum of 17") ++ " bytes")).
Proof.
  intros ma mi HA HB. unfold SystemSlots_try_from. cbv zeta. change (len (data _) + 4) with 4.
  assert (L : forall a b, a < 256 -> b < 256 -> version_lt {| major := ma; minor := mi |} (version_of a b) = (256 * ma + mi <? 256 * a + b)).
  { intros a b Ha Hb. unfold version_lt, version_of, cast. cbn [major minor]. rewrite !N.mod_small by assumption. lia. }
  unfold version_ge. cbn [version raw]. rewrite !L by reflexivity.
  change (256 * 2 + 0) with 0x200. change (256 * 2 + 1) with 0x201. change (256 * 2 + 6) with 0x206. change (256 * 3 + 2) with 0x302.
  destruct (N.ltb_spec (256 * ma + mi) 0x200), (N.ltb_spec (256 * ma + mi) 0x201), (N.ltb_spec (256 * ma + mi) 0x206),
    (N.ltb_spec (256 * ma + mi) 0x302); try lia; reflexivity.
Qed.

(* `system_slots`, the decoded sample *)
Example system_slots :
  SystemSlots_try_from debug (raw 3 4 InfoType_SystemSlots 0 0x23 [1; 0xA5; 0x0A; 4; 3; 2; 0; 0x0C; 1; 0; 0; 0; 0xE4; 0; 3;
    1; 0; 1; 9; 1; 2; 0; 2; 18; 2; 3; 0; 3; 27; 3; 0; 6; 0x0D; 0xE2; 4] (asc "SSD1" ++ [0])%list) = Val (Ok {| slots_handle := 35; slots_slot_designation := asc "SSD1"; slots_slot_type := SlotType_PciExpress;
    slots_slot_data_bus_width := SlotWidth_X4; slots_current_usage := CurrentUsage_InUse; slots_slot_length := SlotLength_ShortLength;
    slots_slot_id := 2; slots_slot_characteristics_1 := 12; slots_slot_characteristics_2 := Some 1;
    slots_segment_group_number := Some 0; slots_bus_number := Some 0; slots_device_and_function_number := Some {| dev := 0x1C; fun_ := 4 |};
    slots_data_bus_width := Some 0; slots_peer_devices := Some {| peer_chunks :=
      flat_map (fun k => Device_to {| device_segment_group_number := k; device_bus_number := k;
        device_device_and_function_number := {| dev := k; fun_ := k |}; device_data_bus_width := k |}) [1; 2; 3] |}; slots_slot_information := Some 6;
    slots_slot_physical_width := Some SlotWidth_X16; slots_slot_pitch := Some 0x04E2 |}).
Proof. vm_compute. repeat split; reflexivity. Qed.

(* `dmi_bin` *)
Example system_slots_dmi_bin :
  len slots = 4 /\
  find (fun s => slots_handle s =? 0x0900) slots = Some {| slots_handle := 2304; slots_slot_designation := asc "PCIe Slot 1"; slots_slot_type := SlotType_PciExpressGen3x16;
    slots_slot_data_bus_width := SlotWidth_X8; slots_current_usage := CurrentUsage_Available; slots_slot_length := SlotLength_LongLength;
    slots_slot_id := 1; slots_slot_characteristics_1 := 4; slots_slot_characteristics_2 := Some 1;
    slots_segment_group_number := None; slots_bus_number := None; slots_device_and_function_number := None;
    slots_data_bus_width := None; slots_peer_devices := None; slots_slot_information := None;
    slots_slot_physical_width := None; slots_slot_pitch := None |} /\
  find (fun s => slots_handle s =? 0x0903) slots = Some {| slots_handle := 2307; slots_slot_designation := asc "PCIe Slot 4"; slots_slot_type := SlotType_PciExpressGen3;
    slots_slot_data_bus_width := SlotWidth_X16; slots_current_usage := CurrentUsage_InUse; slots_slot_length := SlotLength_LongLength;
    slots_slot_id := 4; slots_slot_characteristics_1 := 4; slots_slot_characteristics_2 := Some 1;
    slots_segment_group_number := Some 0; slots_bus_number := Some 0xAF; slots_device_and_function_number := Some (DeviceAndFunctionNumber_from 0);
    slots_data_bus_width := None; slots_peer_devices := None; slots_slot_information := None;
    slots_slot_physical_width := None; slots_slot_pitch := None |}.
Proof. looked_up. vm_compute. repeat split; reflexivity. Qed.

(* --------------------------------------------- 011 to 014, lists of strings *)

(* 011_oem_strings.rs `oem_strings` *)
Example oem_strings_test :
  match OemStrings_try_from debug (raw 3 4 InfoType_OemStrings 5 0x1E [3] ((asc "$HUA001UK10000" ++ [0] ++ asc "$HUA0464" ++ [0] ++ asc "$XXX0000" ++ [0])%list ++ [0])%list) with
  | Val (Ok s) => collect 9 (pure strings_next) (oem_strings s) | _ => UB end =
  Val (map asc ["$HUA001UK10000"; "$HUA0464"; "$XXX0000"]).
Proof. vm_compute. repeat split; reflexivity. Qed.

(* `dmi_bin` *)
Example oem_strings_dmi_bin :
  hd_error oems = Some
    {| oem_handle := 0x0B00; oem_strings := strings_new ((asc "Dell System" ++ [0] ++ asc "5[0000]" ++ [0] ++ asc "14[1]" ++ [0] ++ asc "26[0]" ++ [0] ++ asc "17[20106865E85AE75B]" ++ [0] ++ asc "17[201559E55BE4282A]" ++ [0] ++ asc "18[0]" ++ [0] ++ asc "19[1]" ++ [0] ++ asc "19[1]" ++ [0])%list ++ [0])%list |} /\
  map (fun s => collect 20 (pure strings_next) (oem_strings s)) oems =
    [Val (map asc ["Dell System"; "5[0000]"; "14[1]"; "26[0]"; "17[20106865E85AE75B]"; "17[201559E55BE4282A]"; "18[0]"; "19[1]"; "19[1]"])].
Proof. looked_up. vm_compute. repeat split; reflexivity. Qed.

(* 012_system_configuration_options.rs `system_configuration_options` *)
Example system_configuration_options :
  match SystemConfigurationOptions_try_from debug (raw 3 4 InfoType_SystemConfigurationOptions 5 0x1F [3] (asc "ConfigOptions1" ++ [0] ++ asc "ConfigOptions2" ++ [0] ++ asc "ConfigOptions3" ++ [0])%list) with
  | Val (Ok s) => collect 9 (pure strings_next) (options_strings s) | _ => UB end =
  Val (map asc ["ConfigOptions1"; "ConfigOptions2"; "ConfigOptions3"]).
Proof. vm_compute. repeat split; reflexivity. Qed.

(* `dmi_bin` *)
Example system_configuration_options_dmi_bin :
  hd_error options = Some
    {| options_handle := 0x0C00; options_strings := strings_new ((asc "NVRAM_CLR: Clear user settable NVRAM areas and set defaults" ++ [0] ++ asc "PWRD_EN: Close to enable password" ++ [0])%list ++ [0])%list |}.
Proof. looked_up. vm_compute. repeat split; reflexivity. Qed.

(* 013_bios_language.rs `installable_languages` *)
Example installable_languages :
  let l := map asc ["en|US|iso8859-1"; "fr|FR|iso8859-1"; "es|ES|iso8859-1"; "de|DE|iso8859-1"; "it|IT|iso8859-1"; "da|DK|iso8859-1"; "fi|FI|iso8859-1"; "nl|NL|iso8859-1"; "no|NO|iso8859-1"; "pt|PT|iso8859-1"; "sv|SE|iso8859-1"; "ja|JP|unicode"; "zh|CN|unicode"] in
  collect 20 (InstallableLanguages_next debug) (InstallableLanguages_new (raw 0 0 InfoType_BiosLanguage 0x1A 0 [] (flat_map (fun t => t ++ [0])%list l))) = Val l.
Proof. vm_compute. repeat split; reflexivity. Qed.

(* `dmi_bin` *)
Example bios_language_dmi_bin :
  map (fun b => (language_handle b, language_flags b, language_current_language b,
      il_index (language_installable_languages b), data (il_structure (language_installable_languages b)), strings (il_structure (language_installable_languages b)),
      length_ (il_structure (language_installable_languages b)), version (il_structure (language_installable_languages b))))
    languages =
    [(0x0D00, Some 0, 1, 1, [1; 0; 0; 0; 0; 0; 0; 0; 0; 0; 0; 0; 0; 0; 0; 0; 0; 1], (asc "en|US|iso8859-1" ++ [0; 0])%list, 0x16, {| major := 3; minor := 2 |})].
Proof. looked_up. vm_compute. repeat split; reflexivity. Qed.

(* 014_group_associations.rs `group_items` *)
Example group_items_test :
  collect 9 (pure GroupItems_next) {| gi_data := [4; 0x00; 0x04; 7; 0x00; 0x07; 7; 0x01; 0x07; 7; 0x02; 0x07]; gi_index := 0 |} =
    Val [{| gi_type := 4; gi_handle := 0x0400 |}; {| gi_type := 7; gi_handle := 0x0700 |}; {| gi_type := 7; gi_handle := 0x0701 |};
         {| gi_type := 7; gi_handle := 0x0702 |}].
Proof. vm_compute. repeat split; reflexivity. Qed.

(* `group_associations` *)
Example group_associations :
  match GroupAssociations_try_from debug (raw 3 4 InfoType_GroupAssociations 14 0x28 [1; 4; 8; 0; 4; 10; 0; 7; 9; 0] ((asc "Dual-Processor CPU Complex" ++ [0])%list ++ [0])%list) with
  | Val (Ok g) => (group_group_name g, collect 9 (pure GroupItems_next) (group_items g)) | _ => ([], UB) end =
  (asc "Dual-Processor CPU Complex", Val [{| gi_type := 4; gi_handle := 8 |}; {| gi_type := 4; gi_handle := 10 |}; {| gi_type := 7; gi_handle := 9 |}]).
Proof. vm_compute. repeat split; reflexivity. Qed.

(* -------------------------------------------------- 015_system_event_log *)

(* log_record_format.rs `system_management_type` *)
Example system_management_type :
  map SystemManagementType_from [0x03; 0x0A; 0x1F; 0x23; 0x1BEEF; 0x20000; 4294967295] =
    [SMT_OutOfRangeVoltagePlus5; SMT_OutOfRangeVoltageReserved 10; SMT_OutOfRangeTemperatureReserved 31; SMT_OutOfRangeFan 3;
     SMT_OutOfRangeSystemManagementProbe 0xBEEF; SMT_Reserved 131072; SMT_OemAssigned 4294967295] /\
  map (fun k => SystemManagementType_display (SystemManagementType_from k)) [0x03; 0x0A; 0x1F; 0x23; 0x1BEEF; 0x20000; 4294967295] =
    ["+5V Out of range"; "Out-of-range voltage reserved: 10"; "Out-of-range temperatures reserved: 31"; "Fan 3 Out of range";
     "A system-management probe or cooling device with handle 0xBEEF is out of range"; "Reserved: 131072"; "OEM assigned: 4294967295"].
Proof. vm_compute. repeat split; reflexivity. Qed.

(* `post_results` *)
Example post_results :
  let q := N.lor (N.shiftl 1360 32) 42 in
  significant_texts false 8 q PostResults_layout = Val ["Primary PIC (8259 #1) error"; "CMOS RAM Battery Failure"; "CMOS RAM Checksum Error";
    "PCI I/O Conflict"; "PNP Memory Conflict"] /\
  omap (fun fs => map (fun f => (position f, Flag_display false f)) (filter (fun f => is_set f && is_reserved (type_ f)) fs)) (flags debug 8 q PostResults_layout) =
    Val [(36, "Available for OEM assignment"); (38, "Available for OEM assignment")].
Proof. vm_compute. repeat split; reflexivity. Qed.

(* mod.rs `access_method` *)
Example access_method :
  map (fun m => AccessMethod_display true (AccessMethod_new m 0x12345678)) [0; 1; 2; 3; 4; 5; 0x80] =
    ["Indexed I/O, one 8-bit index port, one 8-bit data port: Index 0x78, Data 0x34";
     "Indexed I/O, two 8-bit index ports, one 8-bit data port: Index [78, 56], Data 0x34";
     "Indexed I/O, one 16-bit index port, one 8-bit data port: Index 0x5678, Data 0x34";
     "Memory-mapped physical 32-bit address: 0x12345678"; "General-Purpose NonVolatile Data functions, handle 0x5678";
     "Available: Method 5, Address 0x12345678"; "BIOS Vendor/OEM-specific: Method 128, Address 0x12345678"].
Proof. looked_up. vm_compute. repeat split; reflexivity. Qed.

(* `log_status` *)
Example log_status :
  significant_texts true 1 7 LogStatus_layout = Val ["Log area valid"; "Log area full"].
Proof. vm_compute. repeat split; reflexivity. Qed.

(* `log_header_format` *)
Example log_header_format :
  map (fun k => LogHeaderFormat_display true (LogHeaderFormat_from k)) [0; 1; 2; 0xFF] =
    ["No Header"; "Type 1 log header"; "Available: 2"; "BIOS vendor or OEM-specific format: 255"].
Proof. vm_compute. repeat split; reflexivity. Qed.

Definition desc (t : EventLogType) (d : VariableDataFormatType) := {| log_type := t; variable_data_format_type := d |}.

(* `supported_event_log_type_descriptors` *)
Example supported_event_log_type_descriptors :
  match EventLogTypeDescriptors_new [2; 0; 4; 1; 8; 2; 0x16; 3; 0x66; 0; 0xEE; 0; 0xFF; 0] 2 with
  | Val s => collect 20 (pure EventLogTypeDescriptors_next) s | _ => UB end =
  Val [desc EventLogType_MultiBitEccMemoryError VDF_None; desc EventLogType_BusTimeOut (VDF_Handle 0); desc EventLogType_PostError (VDF_MultipleEvent 0);
       desc EventLogType_LogAreaReset (VDF_MultipleEventHandle 0 0); desc (EventLogType_Unused 0x66) VDF_None;
       desc (EventLogType_Available 0xEE) VDF_None; desc EventLogType_EndOfLog VDF_None].
Proof. vm_compute. repeat split; reflexivity. Qed.

Definition descs := [desc EventLogType_SingleBitEccMemoryError VDF_None;
  desc EventLogType_MultiBitEccMemoryError VDF_None;
  desc EventLogType_ParityMemoryError VDF_None;
  desc EventLogType_BusTimeOut VDF_None;
  desc EventLogType_IoChannelCheck VDF_None;
  desc EventLogType_SoftwareNmi VDF_None;
  desc EventLogType_PostMemoryResize VDF_None;
  desc EventLogType_PostError (VDF_PostResults 0);
  desc EventLogType_PciParityError VDF_None;
  desc EventLogType_PciSystemError VDF_None;
  desc EventLogType_CpuFailure VDF_None;
  desc EventLogType_EisaFailSafeTimerTimeOut VDF_None;
  desc EventLogType_CorrectableMemoryLogDisabled VDF_None;
  desc EventLogType_LoggingDisabledForSpecificEventType VDF_None;
  desc EventLogType_SystemLimitExceeded VDF_None;
  desc EventLogType_AsynchronousHardwareTimerExpired VDF_None;
  desc EventLogType_SystemConfigurationInformation VDF_None;
  desc EventLogType_HardDiskInformation VDF_None;
  desc EventLogType_SystemReconfigured VDF_None;
  desc EventLogType_UncorrectableCpuComplexError VDF_None;
  desc EventLogType_LogAreaReset VDF_None;
  desc EventLogType_SystemBoot VDF_None;
  desc EventLogType_EndOfLog VDF_None;
  desc (EventLogType_Available 0xB0) (VDF_OemAssigned 0xB0);
  desc (EventLogType_Available 0xB1) (VDF_OemAssigned 0xB1);
  desc (EventLogType_Available 0xE0) (VDF_OemAssigned 0xE0);
  desc (EventLogType_Available 0xE1) (VDF_OemAssigned 0xE1)].
Definition log15 := raw 2 7 InfoType_SystemEventLog 73 0x36 (take 73 (drop 4 type15_bin)) (drop 77 type15_bin).

(* `system_event_log` *)
Example system_event_log :
  match SystemEventLog_try_from debug log15 with
  | Val (Ok s) =>
    log_handle s = 0x36 /\ log_log_area_length s = 16383 /\ log_log_header_start_offset s = 0 /\ log_log_data_start_offset s = 16 /\
    log_access_method s = AM_MemoryMappedPhysicaAddress 0xFFC40000 /\ log_log_status s = 1 /\ log_log_change_token s = 1 /\
    log_log_header_format s = Some LogHeaderFormat_LogHeaderType1 /\
    match log_descriptors s with
    | Some d => descriptors_size d = 2 /\ collect 40 (pure EventLogTypeDescriptors_next) d = Val descs /\
                descriptors_data d = flat_map (fun x => let (a, b) := EventLogTypeDescriptor_to x in [a; b]) descs
    | None => False end
  | _ => False end.
Proof. vm_compute. repeat split; reflexivity. Qed.

(* ----------------------------------------------------- 017_memory_device.rs *)

(* `smbios_2_8_memory_device_with_34_bytes_parses`; Detail::SYNCHRONOUS is bit 7, UNREGISTERED bit 14 *)
Example smbios_2_8_memory_device_with_34_bytes_parses :
  MemoryDevice_try_from debug (raw 2 8 InfoType_MemoryDevice 0x22 0x4e
    [0x4C; 0x00; 0xFE; 0xFF; 0x40; 0x00; 0x40; 0x00; 0x00; 0x20; 0x09; 0x00; 0x01; 0x02; 0x18; 0x80; 0x40;
     0x40; 0x06; 0x03; 0x04; 0x05; 0x06; 0x02; 0x00; 0x00; 0x00; 0x00; 0x40; 0x06]
    (asc "DIMM A0" ++ [0] ++ asc "A0_Node0_Channel0_Dimm0" ++ [0] ++ asc "Hynix" ++ [0] ++ asc "FAKE_SERIAL_NUMBER" ++ [0] ++ asc "FAKE_ASSET_TAG" ++ [0] ++ asc "FAKE_PART_NUMBER" ++ [0])%list) =
  Val (Ok {|
    memdev_handle := 78; memdev_physical_memory_handle := 76; memdev_memory_error_handle := None; memdev_total_width := Some 64;
    memdev_data_width := Some 64; memdev_size := Some 8192; memdev_form_factor := FormFactor_Dimm; memdev_device_set := Some 0;
    memdev_device_locator := asc "DIMM A0"; memdev_bank_locator := asc "A0_Node0_Channel0_Dimm0"; memdev_memory_type := MemoryType_Ddr3;
    memdev_type_detail := N.lor (2 ^ 7) (2 ^ 14); memdev_speed := Some 1600; memdev_manufacturer := asc "Hynix"; memdev_serial := asc "FAKE_SERIAL_NUMBER";
    memdev_asset_tag := asc "FAKE_ASSET_TAG"; memdev_part_number := asc "FAKE_PART_NUMBER"; memdev_attributes := 2; memdev_extended_size := 0;
    memdev_configured_memory_speed := Some 1600; memdev_minimum_voltage := None; memdev_maximum_voltage := None;
    memdev_configured_voltage := None; memdev_memory_technology := None; memdev_operating_mode_capability := None;
    memdev_firmware_version := None; memdev_module_manufacturer := None; memdev_module_product_id := None;
    memdev_memory_subsystem_controller_manufacturer_id := None; memdev_memory_subsystem_controller_product_id := None;
    memdev_non_volatile_size := None; memdev_volatile_size := None; memdev_cache_size := None; memdev_logical_size := None;
    memdev_extended_speed := None; memdev_extended_configured_memory_speed := None |}).
Proof. vm_compute. repeat split; reflexivity. Qed.

(* `smbios_3_2_memory_device_with_40_bytes_parses`; REGISTERED is bit 13 *)
Example smbios_3_2_memory_device_with_40_bytes_parses :
  MemoryDevice_try_from debug (raw 3 2 InfoType_MemoryDevice 0x28 0x3b
    [0x39; 0x00; 0xfe; 0xff; 0x48; 0x00; 0x40; 0x00; 0x00; 0x40; 0x09; 0x00; 0x01; 0x02; 0x1a; 0x80; 0x20;
     0x6a; 0x0a; 0x03; 0x04; 0x05; 0x06; 0x02; 0x00; 0x00; 0x00; 0x00; 0x60; 0x09; 0xb0; 0x04; 0xb0; 0x04; 0xb0; 0x04]
    (asc "DIMM_A0" ++ [0] ++ asc "_Node0_Channel0_Dimm0" ++ [0] ++ asc "Hynix" ++ [0] ++ asc "FAKE_SERIAL_NUMBER" ++ [0] ++ asc "FAKE_ASSET_TAG" ++ [0] ++ asc "FAKE_PART_NUMBER" ++ [0])%list) =
  Val (Ok {|
    memdev_handle := 59; memdev_physical_memory_handle := 57; memdev_memory_error_handle := None; memdev_total_width := Some 72;
    memdev_data_width := Some 64; memdev_size := Some 16384; memdev_form_factor := FormFactor_Dimm; memdev_device_set := Some 0;
    memdev_device_locator := asc "DIMM_A0"; memdev_bank_locator := asc "_Node0_Channel0_Dimm0"; memdev_memory_type := MemoryType_Ddr4;
    memdev_type_detail := N.lor (2 ^ 7) (2 ^ 13); memdev_speed := Some 2666; memdev_manufacturer := asc "Hynix"; memdev_serial := asc "FAKE_SERIAL_NUMBER";
    memdev_asset_tag := asc "FAKE_ASSET_TAG"; memdev_part_number := asc "FAKE_PART_NUMBER"; memdev_attributes := 2; memdev_extended_size := 0;
    memdev_configured_memory_speed := Some 2400; memdev_minimum_voltage := Some 1200; memdev_maximum_voltage := Some 1200;
    memdev_configured_voltage := Some 1200; memdev_memory_technology := None; memdev_operating_mode_capability := None;
    memdev_firmware_version := None; memdev_module_manufacturer := None; memdev_module_product_id := None;
    memdev_memory_subsystem_controller_manufacturer_id := None; memdev_memory_subsystem_controller_product_id := None;
    memdev_non_volatile_size := None; memdev_volatile_size := None; memdev_cache_size := None; memdev_logical_size := None;
    memdev_extended_speed := None; memdev_extended_configured_memory_speed := None |}).
Proof. vm_compute. repeat split; reflexivity. Qed.

(* `foo` *)
Example memory_device_foo :
  MemoryDevice_try_from debug (raw 3 14 InfoType_MemoryDevice 34 112
    [0; 2; 254; 255; 64; 0; 64; 0; 0; 16; 9; 0; 1; 0; 7; 128; 0; 0; 0; 0; 0; 0; 0; 0; 0; 0; 0; 0; 0; 0] [68; 73; 77; 77; 32; 48; 0; 0]) =
  Val (Ok {|
    memdev_handle := 112; memdev_physical_memory_handle := 512; memdev_memory_error_handle := None; memdev_total_width := Some 64;
    memdev_data_width := Some 64; memdev_size := Some 4096; memdev_form_factor := FormFactor_Dimm; memdev_device_set := Some 0;
    memdev_device_locator := asc "DIMM 0"; memdev_bank_locator := asc ""; memdev_memory_type := MemoryType_Ram;
    memdev_type_detail := 2 ^ 7; memdev_speed := None; memdev_manufacturer := asc ""; memdev_serial := asc "";
    memdev_asset_tag := asc ""; memdev_part_number := asc ""; memdev_attributes := 0; memdev_extended_size := 0;
    memdev_configured_memory_speed := None; memdev_minimum_voltage := None; memdev_maximum_voltage := None;
    memdev_configured_voltage := None; memdev_memory_technology := None; memdev_operating_mode_capability := None;
    memdev_firmware_version := None; memdev_module_manufacturer := None; memdev_module_product_id := None;
    memdev_memory_subsystem_controller_manufacturer_id := None; memdev_memory_subsystem_controller_product_id := None;
    memdev_non_volatile_size := None; memdev_volatile_size := None; memdev_cache_size := None; memdev_logical_size := None;
    memdev_extended_speed := None; memdev_extended_configured_memory_speed := None |}).
Proof. vm_compute. repeat split; reflexivity. Qed.

(* ------------------------------------------------------------ 018 to 021 *)

(* 018_memory_error_32.rs `error_operation` *)
Example error_operation :
  map (fun k => MEErrorOperation_display true (MEErrorOperation_from k)) (map N.of_nat (seq 1 6)) =
    ["Other"; "Unknown"; "Read"; "Write"; "Partial write"; "Undefined: 6"].
Proof. vm_compute. repeat split; reflexivity. Qed.

(* `error_granularity` *)
Example error_granularity :
  map (fun k => MEErrorGranularity_display true (MEErrorGranularity_from k)) (map N.of_nat (seq 0 6)) =
    ["Undefined: 0"; "Other"; "Unknown"; "Device level"; "Memory partition level"; "Undefined: 5"].
Proof. vm_compute. repeat split; reflexivity. Qed.

(* `error_type` *)
Example error_type :
  map (fun k => MEErrorType_display true (MEErrorType_from k)) (map N.of_nat (seq 0 14)) =
    ["Undefined: 0"; "Other"; "Unknown"; "OK"; "Bad read"; "Parity error"; "Single-bit error"; "Double-bit error"; "Multi-bit error"; "Nibble error"; "Checksum error"; "CRC error"; "Corrected single-bit error"; "Corrected error"].
Proof. vm_compute. repeat split; reflexivity. Qed.

(* `memory_error_32` *)
Example memory_error_32 :
  MemoryError32_try_from debug (raw 2 4 InfoType_MemoryError32 23 0x01E3 (take 19 (drop 4 type18_bin)) (drop 23 type18_bin)) = Val (Ok {|
    me_handle := 0x01E3; me_error_type := MEErrorType_Ok; me_error_granularity := MEErrorGranularity_Unknown;
    me_error_operation := MEErrorOperation_Unknown; me_vendor_syndrome := 0; me_memory_array_error_address := 0x80000000;
    me_device_error_address := 0x80000000; me_error_resolution := 0x80000000 |}).
Proof. vm_compute. repeat split; reflexivity. Qed.

(* 019 `memory_array_mapped_address` *)
Example memory_array_mapped_address :
  MemoryArrayMappedAddress_try_from debug (raw 2 7 InfoType_MemoryArrayMappedAddress 31 0x27 (take 27 (drop 4 type19_bin)) (drop 31 type19_bin)) = Val (Ok {|
    ama_handle := 0x27; ama_starting_address := 0; ama_ending_address := 0x0207C000; ama_memory_array_handle := 0x26; ama_partition_width := 255;
    ama_extended_starting_address := Some 0; ama_extended_ending_address := Some 0 |}).
Proof. vm_compute. repeat split; reflexivity. Qed.

(* 020 `memory_device_mapped_address` *)
Example memory_device_mapped_address :
  MemoryDeviceMappedAddress_try_from debug (raw 2 7 InfoType_MemoryDeviceMappedAddress 35 0x29 (take 31 (drop 4 type20_bin)) (drop 35 type20_bin)) = Val (Ok {|
    dma_handle := 0x29; dma_starting_address := 0; dma_ending_address := 0xFFFFFF; dma_memory_device_handle := 0x28;
    dma_memory_array_mapped_address_handle := 0x27; dma_partition_row_position := 0; dma_interleave_position := 0xFF;
    dma_interleaved_data_depth := 0xFF; dma_extended_starting_address := Some 0; dma_extended_ending_address := Some 0 |}).
Proof. vm_compute. repeat split; reflexivity. Qed.

(* 021_built_in_pointing_device.rs `type_` *)
Example type_ :
  map (fun k => PointingDeviceType_display true (PointingDeviceType_from k)) (map N.of_nat (seq 0 10)) =
    ["Undefined: 0"; "Other"; "Unknown"; "Mouse"; "Track Ball"; "Track Point"; "Glide Point"; "Touch Pad"; "Touch Screen"; "Optical Sensor"].
Proof. vm_compute. repeat split; reflexivity. Qed.

(* `interface` *)
Example interface :
  map (fun k => PointingDeviceInterface_display true (PointingDeviceInterface_from k)) (map N.of_nat (seq 0 9)) =
    ["Undefined: 0"; "Other"; "Unknown"; "Serial"; "PS/2"; "Infrared"; "HP-HIL"; "Bus mouse"; "ADB (Apple Desktop Bus)"].
Proof. vm_compute. repeat split; reflexivity. Qed.

(* `interface` *)
Example interface_a0 :
  map (fun k => PointingDeviceInterface_display true (PointingDeviceInterface_from k)) (map N.of_nat (seq 160 3)) =
    ["Bus mouse DB-9"; "Bus mouse micro-DIN"; "USB"].
Proof. vm_compute. repeat split; reflexivity. Qed.

(* `built_in_pointing_device` *)
Example built_in_pointing_device :
  BuiltInPointingDevice_try_from debug (raw 2 7 InfoType_BuiltInPointingDevice 7 0xAAAA (take 3 (drop 4 type21_bin)) (drop 7 type21_bin)) = Val (Ok {|
    pd_handle := 0xAAAA; pd_type := PointingDeviceType_Mouse; pd_interface := PointingDeviceInterface_Serial; pd_number_of_buttons := 3 |}).
Proof. vm_compute. repeat split; reflexivity. Qed.

(* -------------------------------------------------- 022_portable_battery.rs *)

(* `manufacture_date` *)
Example manufacture_date :
  map ManufactureDate_display [ManufactureDate_new None None; ManufactureDate_new (Some (asc "07/17/2019")) None; ManufactureDate_new None (Some 0x2841)] =
    [""; "07/17/2019"; "2000-02-01"].
Proof. vm_compute. repeat split; reflexivity. Qed.

(* `serial_number` *)
Example serial_number :
  map SerialNumber_display [SerialNumber_new None None; SerialNumber_new (Some (asc "S/N 1111")) None; SerialNumber_new None (Some 0xBEAF)] =
    [""; "S/N 1111"; "0xBEAF"].
Proof. vm_compute. repeat split; reflexivity. Qed.

(* `device_chemistry` *)
Example device_chemistry :
  map (fun k => DeviceChemistry_display (DeviceChemistry_new k None)) [0; 1; 2; 3; 4; 5; 6; 7; 8] =
    ["Undefined: 0"; "Other"; "Unknown"; "Lead Acid"; "Nickel Cadmium"; "Nickel metal hydride"; "Lithium-ion"; "Zinc air"; "Lithium Polymer"] /\
  DeviceChemistry_display (DeviceChemistry_new 2 (Some (asc "PbAc"))) = "PbAc".
Proof. vm_compute. repeat split; reflexivity. Qed.

(* `design_capacity` *)
Example design_capacity :
  map (fun '(v, m) => DesignCapacity_to_u64 debug (DesignCapacity_new v m)) [(0, None); (0, Some 42); (4800, None); (4800, Some 2)] =
    map Val [0; 0; 4800; 9600].
Proof. vm_compute. repeat split; reflexivity. Qed.

(* `portable_battery` *)
Example portable_battery :
  PortableBattery_try_from debug (raw 3 2 InfoType_PortableBattery 26 0x2B (take 22 (drop 4 type22_bin)) (drop 26 type22_bin)) = Val (Ok {|
    battery_handle := 0x2B; battery_location := asc "Front"; battery_manufacturer := asc "LGC";
    battery_manufacture_date := MD_SmartBatteryDataSpecification 2020 7 1; battery_serial_number := SN_SmartBatteryDataSpecification 0x058B;
    battery_device_name := asc "5B10W13930"; battery_device_chemistry := Chem_SmartBatteryDataSpecification (asc "LiP");
    battery_design_capacity := DC_Data 5100 10; battery_design_voltage := 15400; battery_sbds_version_number := asc "03.01";
    battery_maximum_error_in_battery_data := 0xFF; battery_oem_specific := Some 0 |}).
Proof. vm_compute. repeat split; reflexivity. Qed.
