(* Specification for C74: what the standard calls the bits of the flag words, by the number
   of the bit, and how the crate is to put it: in short and at length. *)
From Coq Require Import String.
From Verif Require Import Base M_Bitfield G_Layouts Spec S_Bitfield.
Local Open Scope string_scope.
Local Open Scope N_scope.

(* a bit with a name, or the bits [from] to [to] that are reserved or left to others *)
Inductive bits := Bit (k : N) (short long : string) | Bits (from to : N) (note : string).

Fixpoint called (l : list bits) (k : N) : option FlagType :=
  match l with
  | [] => None
  | Bit j short long :: l => if k =? j then Some (Significant short long) else called l k
  | Bits a b note :: l => if (a <=? k) && (k <=? b) then Some (FReserved note) else called l k
  end.

(* 7.1.1 BIOS characteristics (offset 0Ah) *)
Definition bios_bits : list bits := [
  Bit 0 "Reserved" "Reserved";
  Bit 1 "Reserved" "Reserved";
  Bit 2 "Unknown" "Unknown";
  Bit 3 "BIOS characteristics not supported" "BIOS Characteristics are not supported";
  Bit 4 "ISA is supported" "ISA is supported";
  Bit 5 "MCA is supported" "MCA is supported";
  Bit 6 "EISA is supported" "EISA is supported";
  Bit 7 "PCI is supported" "PCI is supported";
  Bit 8 "PC card (PCMCIA) is supported" "PC card (PCMCIA) is supported";
  Bit 9 "PNP is supported" "Plug and Play is supported";
  Bit 10 "APM is supported" "APM is supported";
  Bit 11 "BIOS is upgradeable" "BIOS is upgradeable (Flash)";
  Bit 12 "BIOS shadowing is allowed" "BIOS shadowing is allowed";
  Bit 13 "VLB is supported" "VL-VESA is supported";
  Bit 14 "ESCD support is available" "ESCD support is available";
  Bit 15 "Boot from CD is supported" "Boot from CD is supported";
  Bit 16 "Selectable boot is supported" "Selectable boot is supported";
  Bit 17 "BIOS ROM is socketed" "BIOS ROM is socketed (e.g. PLCC or SOP socket)";
  Bit 18 "Boot from PC card (PCMCIA) is supported" "Boot from PC card (PCMCIA) is supported";
  Bit 19 "EDD is supported" "EDD specification is supported";
  Bit 20 "Japanese floppy for NEC 9800 1.2 MB is supported (int 13h)" "Int 13h — Japanese floppy for NEC 9800 1.2 MB (3.5”, 1K bytes/sector, 360 RPM) is supported";
  Bit 21 "Japanese floppy for Toshiba 1.2 MB is supported (int 13h)" "Int 13h — Japanese floppy for Toshiba 1.2 MB (3.5”, 360 RPM) is supported";
  Bit 22 "5.25""/360 kB floppy services are supported (int 13h)" "Int 13h — 5.25” / 360 KB floppy services are supported";
  Bit 23 "5.25""/1.2 MB floppy services are supported (int 13h)" "Int 13h — 5.25” /1.2 MB floppy services are supported";
  Bit 24 "3.5""/720 kB floppy services are supported (int 13h)" "Int 13h — 3.5” / 720 KB floppy services are supported";
  Bit 25 "3.5""/2.88 MB floppy services are supported (int 13h)" "Int 13h — 3.5” / 2.88 MB floppy services are supported";
  Bit 26 "Print screen service is supported (int 5h)" "Int 5h, print screen Service is supported";
  Bit 27 "8042 keyboard services are supported (int 9h)" "Int 9h, 8042 keyboard services are supported";
  Bit 28 "Serial services are supported (int 14h)" "Int 14h, serial services are supported";
  Bit 29 "Printer services are supported (int 17h)" "Int 17h, printer services are supported";
  Bit 30 "CGA/mono video services are supported (int 10h)" "Int 10h, CGA/Mono Video Services are supported";
  Bit 31 "NEC PC-98" "NEC PC-98";
  Bits 32 47 "Reserved for BIOS vendor";
  Bits 48 63 "Reserved for system vendor"].

(* 7.1.2.1 BIOS characteristics, extension byte 1 (12h) *)
Definition bios_extension_1_bits : list bits := [
  Bit 0 "ACPI is supported" "ACPI is supported";
  Bit 1 "USB legacy is supported" "USB Legacy is supported";
  Bit 2 "AGP is supported" "AGP is supported";
  Bit 3 "I2O boot is supported" "I2O boot is supported";
  Bit 4 "LS-120 SuperDisk boot is supported" "LS-120 SuperDisk boot is supported";
  Bit 5 "ATAPI ZIP drive boot is supported" "ATAPI ZIP drive boot is supported";
  Bit 6 "IEEE 1394 boot is supported" "1394 boot is supported";
  Bit 7 "Smart battery is supported" "Smart battery is supported"].

(* 7.1.2.2 BIOS characteristics, extension byte 2 (13h) *)
Definition bios_extension_2_bits : list bits := [
  Bit 0 "BIOS boot specification is supported" "BIOS Boot specification is supported";
  Bit 1 "Function key-initiated network boot is supported" "Function key-initiated network service boot is supported. When function key-uninitiated network service boot is not supported, a network adapter option ROM may choose to offer this functionality on its own, thus offering this capability to legacy systems. When the function is supported, the network adapter option ROM shall not offer this capability";
  Bit 2 "Targeted content distribution is supported" "Enable targeted content distribution. The manufacturer has ensured that the SMBIOS data is useful in identifying the computer for targeted delivery of model-specific software and firmware content through third-party content distribution services";
  Bit 3 "UEFI is supported" "UEFI is supported";
  Bit 4 "System is a virtual machine" "SMBIOS table describes a virtual machine. (If this bit is not set, no inference can be made about the virtuality of the system.)";
  Bits 5 7 "Reserved for future assignment"].

(* 7.10.6 slot characteristics 1 (0Bh) *)
Definition slot_1_bits : list bits := [
  Bit 0 "Characteristics unknown" "Characteristics unknown";
  Bit 1 "5.0 V is provided" "Provides 5.0 volts";
  Bit 2 "3.3 V is provided" "Provides 3.3 volts";
  Bit 3 "Opening is shared" "Slot’s opening is shared with another slot (for example, PCI/EISA shared slot)";
  Bit 4 "PC Card-16 is supported" "PC Card slot supports PC Card-16";
  Bit 5 "Cardbus is supported" "PC Card slot supports CardBus";
  Bit 6 "Zoom Video is supported" "PC Card slot supports Zoom Video";
  Bit 7 "Modem ring resume is supported" "PC Card slot supports Modem Ring Resume"].

(* 7.10.7 slot characteristics 2 (0Ch) *)
Definition slot_2_bits : list bits := [
  Bit 0 "PME signal is supported" "PCI slot supports Power Management Event (PME#) signal";
  Bit 1 "Hot-plug devices are supported" "Slot supports hot-plug devices";
  Bit 2 "SMBus signal is supported" "PCI slot supports SMBus signal";
  Bit 3 "PCIe slot bifurcation is supported" "PCIe slot supports bifurcation. This slot can partition its lanes into two or more PCIe devices plugged into the slot. Note: This field does not indicate complete details on what levels of bifurcation are supported by the slot, but only that the slot supports some level of bifurcation";
  Bit 4 "Async/surprise removal is supported" "Slot supports async/surprise removal (i.e., removal without prior notification to the operating system, device driver, or applications)";
  Bit 5 "Flexbus slot, CXL 1.0 capable" "Flexbus slot, CXL 1.0 capable";
  Bit 6 "Flexbus slot, CXL 2.0 capable" "Flexbus slot, CXL 2.0 capable";
  Bits 7 7 "Reserved"].

(* 7.14 BIOS language, flags (05h) *)
Definition language_bits : list bits := [
  Bit 0 "Current Language strings use the abbreviated format" "If the bit is 0, each language string is in the form “ISO 639-1 Language Name | ISO 3166-1-alpha-2 Territory Name | Encoding Method”.
If the bit is 1, each language string consists of the two-character “ISO 639-1 Language Name” directly followed by the two-character “ISO 3166-1-alpha-2 Territory Name”.";
  Bits 1 7 "Reserved"].

(* 7.16.3 event log status (0Bh) *)
Definition log_bits : list bits := [
  Bit 0 "Valid" "Log area valid";
  Bit 1 "Full" "Log area full";
  Bits 2 7 "Reserved"].

(* 7.16.6.3 POST results: the first double word, then the second *)
Definition post_bits : list bits := [
  Bit 0 "Channel 2 Timer error" "Channel 2 Timer error";
  Bit 1 "Primary PIC (8259 #1) error" "Primary PIC (8259 #1) error";
  Bit 2 "Secondary PIC (8259 #2) error" "Secondary PIC (8259 #2) error";
  Bit 3 "CMOS RAM Battery Failure" "CMOS RAM Battery Failure";
  Bit 4 "CMOS RAM System Options Not Set" "CMOS RAM System Options Not Set";
  Bit 5 "CMOS RAM Checksum Error" "CMOS RAM Checksum Error";
  Bit 6 "CMOS RAM Configuration Error" "CMOS RAM Configuration Error";
  Bit 7 "Mouse and Keyboard Swapped" "Mouse and Keyboard Swapped";
  Bit 8 "Keyboard Locked" "Keyboard Locked";
  Bit 9 "Keyboard Not Functional" "Keyboard Not Functional";
  Bit 10 "Keyboard Controller Not Functional" "Keyboard Controller Not Functional";
  Bit 11 "CMOS Memory Size Different" "CMOS Memory Size Different";
  Bit 12 "Memory Decreased in Size" "Memory Decreased in Size";
  Bit 13 "Cache Memory Error" "Cache Memory Error";
  Bit 14 "Floppy Drive 0 Error" "Floppy Drive 0 Error";
  Bit 15 "Floppy Drive 1 Error" "Floppy Drive 1 Error";
  Bit 16 "Floppy Controller Failure" "Floppy Controller Failure";
  Bit 17 "Number of ATA Drives Reduced Error" "Number of ATA Drives Reduced Error";
  Bit 18 "RTC Time Not Set" "RTC Time Not Set";
  Bit 19 "DDC Monitor Configuration Change" "DDC Monitor Configuration Change";
  Bits 20 23 "Reserved";
  Bit 24 "Second DWORD has valid data" "Second DWORD has valid data";
  Bits 25 27 "Reserved";
  Bits 28 38 "Available for OEM assignment";
  Bit 39 "PCI Memory Conflict" "PCI Memory Conflict";
  Bit 40 "PCI I/O Conflict" "PCI I/O Conflict";
  Bit 41 "PCI IRQ Conflict" "PCI IRQ Conflict";
  Bit 42 "PNP Memory Conflict" "PNP Memory Conflict";
  Bit 43 "PNP 32 bit Memory Conflict" "PNP 32 bit Memory Conflict";
  Bit 44 "PNP I/O Conflict" "PNP I/O Conflict";
  Bit 45 "PNP IRQ Conflict" "PNP IRQ Conflict";
  Bit 46 "PNP DMA Conflict" "PNP DMA Conflict";
  Bit 47 "Bad PNP Serial ID Checksum" "Bad PNP Serial ID Checksum";
  Bit 48 "Bad PNP Resource Data Checksum" "Bad PNP Resource Data Checksum";
  Bit 49 "Static Resource Conflict" "Static Resource Conflict";
  Bit 50 "NVRAM Checksum Error, NVRAM Cleared" "NVRAM Checksum Error, NVRAM Cleared";
  Bit 51 "System Board Device Resource Conflict" "System Board Device Resource Conflict";
  Bit 52 "Primary Output Device Not Found" "Primary Output Device Not Found";
  Bit 53 "Primary Input Device Not Found" "Primary Input Device Not Found";
  Bit 54 "Primary Boot Device Not Found" "Primary Boot Device Not Found";
  Bit 55 "NVRAM Cleared By Jumper" "NVRAM Cleared By Jumper";
  Bit 56 "NVRAM Data Invalid, NVRAM Cleared" "NVRAM Data Invalid, NVRAM Cleared";
  Bit 57 "FDC Resource Conflict" "FDC Resource Conflict";
  Bit 58 "Primary ATA Controller Resource Conflict" "Primary ATA Controller Resource Conflict";
  Bit 59 "Secondary ATA Controller Resource Conflict" "Secondary ATA Controller Resource Conflict";
  Bit 60 "Parallel Port Resource Conflict" "Parallel Port Resource Conflict";
  Bit 61 "Serial Port 1 Resource Conflict" "Serial Port 1 Resource Conflict";
  Bit 62 "Serial Port 2 Resource Conflict" "Serial Port 2 Resource Conflict";
  Bit 63 "Audio Resource Conflict" "Audio Resource Conflict"].

(* the flags of the value v: one per bit, in order, each with its bit and its name *)
Definition names_flags (size v : N) (l : list bits) (fs : list Flag) : Prop :=
  len fs = size * 8 /\
  forall k f, nth_error fs k = Some f ->
    position f = N.of_nat k /\ is_set f = N.testbit v (N.of_nat k) /\ called l (N.of_nat k) = Some (type_ f).

(* iterating the flag word v of [size] bytes with the layout l of its type yields flags that
   go by these names, and then ends *)
Definition named_by (c : cfg) (size v : N) (l : Layout) (names : list bits) : Prop :=
  exists fs it, drains (iter_next c) (iter_new size v l) fs it /\ none_forever (iter_next c) it /\ names_flags size v names fs.

(* the flag words of the crate: size in bytes, layout, names *)
Definition named_layouts : list (N * Layout * list bits) := [
  (8, Characteristics_layout, bios_bits);
  (1, CharacteristicsExtension1_layout, bios_extension_1_bits);
  (1, CharacteristicsExtension2_layout, bios_extension_2_bits);
  (1, SlotCharacteristics1_layout, slot_1_bits);
  (1, SlotCharacteristics2_layout, slot_2_bits);
  (1, LanguageFlags_layout, language_bits);
  (1, LogStatus_layout, log_bits);
  (8, PostResults_layout, post_bits)].
