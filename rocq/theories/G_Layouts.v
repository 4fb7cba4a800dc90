(* Generated by tools/gen_layouts.py from /repo/src/structures; do not edit by
   hand.  One definition per `impl BitField`: the items of its `layout!`, and the
   size in bytes of its value type. *)
From Coq Require Import String.
From Verif Require Import Base M_Bitfield.
Local Open Scope string_scope.
Local Open Scope N_scope.

(* src/structures/000_bios.rs:210-269 `impl BitField for Characteristics` *)
Definition Characteristics_size : N := 8.
Definition Characteristics_layout : Layout := layout 64 [
  Short "Reserved";
  Short "Reserved";
  Short "Unknown";
  Long "BIOS characteristics not supported" "BIOS Characteristics are not supported";
  Short "ISA is supported";
  Short "MCA is supported";
  Short "EISA is supported";
  Short "PCI is supported";
  Short "PC card (PCMCIA) is supported";
  Long "PNP is supported" "Plug and Play is supported";
  Short "APM is supported";
  Long "BIOS is upgradeable" "BIOS is upgradeable (Flash)";
  Short "BIOS shadowing is allowed";
  Long "VLB is supported" "VL-VESA is supported";
  Short "ESCD support is available";
  Short "Boot from CD is supported";
  Short "Selectable boot is supported";
  Long "BIOS ROM is socketed" "BIOS ROM is socketed (e.g. PLCC or SOP socket)";
  Short "Boot from PC card (PCMCIA) is supported";
  Long "EDD is supported" "EDD specification is supported";
  Long "Japanese floppy for NEC 9800 1.2 MB is supported (int 13h)" "Int 13h — Japanese floppy for NEC 9800 1.2 MB (3.5”, 1K bytes/sector, 360 RPM) is supported";
  Long "Japanese floppy for Toshiba 1.2 MB is supported (int 13h)" "Int 13h — Japanese floppy for Toshiba 1.2 MB (3.5”, 360 RPM) is supported";
  Long "5.25""/360 kB floppy services are supported (int 13h)" "Int 13h — 5.25” / 360 KB floppy services are supported";
  Long "5.25""/1.2 MB floppy services are supported (int 13h)" "Int 13h — 5.25” /1.2 MB floppy services are supported";
  Long "3.5""/720 kB floppy services are supported (int 13h)" "Int 13h — 3.5” / 720 KB floppy services are supported";
  Long "3.5""/2.88 MB floppy services are supported (int 13h)" "Int 13h — 3.5” / 2.88 MB floppy services are supported";
  Long "Print screen service is supported (int 5h)" "Int 5h, print screen Service is supported";
  Long "8042 keyboard services are supported (int 9h)" "Int 9h, 8042 keyboard services are supported";
  Long "Serial services are supported (int 14h)" "Int 14h, serial services are supported";
  Long "Printer services are supported (int 17h)" "Int 17h, printer services are supported";
  Long "CGA/mono video services are supported (int 10h)" "Int 10h, CGA/Mono Video Services are supported";
  Short "NEC PC-98";
  Res "Reserved for BIOS vendor" 16;
  Res "Reserved for system vendor" 16
].

(* src/structures/000_bios.rs:271-289 `impl BitField for CharacteristicsExtension1` *)
Definition CharacteristicsExtension1_size : N := 1.
Definition CharacteristicsExtension1_layout : Layout := layout 8 [
  Short "ACPI is supported";
  Long "USB legacy is supported" "USB Legacy is supported";
  Short "AGP is supported";
  Short "I2O boot is supported";
  Short "LS-120 SuperDisk boot is supported";
  Short "ATAPI ZIP drive boot is supported";
  Long "IEEE 1394 boot is supported" "1394 boot is supported";
  Short "Smart battery is supported"
].

(* src/structures/000_bios.rs:291-316 `impl BitField for CharacteristicsExtension2` *)
Definition CharacteristicsExtension2_size : N := 1.
Definition CharacteristicsExtension2_layout : Layout := layout 8 [
  Long "BIOS boot specification is supported" "BIOS Boot specification is supported";
  Long "Function key-initiated network boot is supported" "Function key-initiated network service boot is supported. When function key-uninitiated network service boot is not supported, a network adapter option ROM may choose to offer this functionality on its own, thus offering this capability to legacy systems. When the function is supported, the network adapter option ROM shall not offer this capability";
  Long "Targeted content distribution is supported" "Enable targeted content distribution. The manufacturer has ensured that the SMBIOS data is useful in identifying the computer for targeted delivery of model-specific software and firmware content through third-party content distribution services";
  Short "UEFI is supported";
  Long "System is a virtual machine" "SMBIOS table describes a virtual machine. (If this bit is not set, no inference can be made about the virtuality of the system.)";
  Res "Reserved for future assignment" 3
].

(* src/structures/009_system_slots.rs:736-759 `impl BitField for SlotCharacteristics1` *)
Definition SlotCharacteristics1_size : N := 1.
Definition SlotCharacteristics1_layout : Layout := layout 8 [
  Short "Characteristics unknown";
  Long "5.0 V is provided" "Provides 5.0 volts";
  Long "3.3 V is provided" "Provides 3.3 volts";
  Long "Opening is shared" "Slot’s opening is shared with another slot (for example, PCI/EISA shared slot)";
  Long "PC Card-16 is supported" "PC Card slot supports PC Card-16";
  Long "Cardbus is supported" "PC Card slot supports CardBus";
  Long "Zoom Video is supported" "PC Card slot supports Zoom Video";
  Long "Modem ring resume is supported" "PC Card slot supports Modem Ring Resume"
].

(* src/structures/009_system_slots.rs:766-791 `impl BitField for SlotCharacteristics2` *)
Definition SlotCharacteristics2_size : N := 1.
Definition SlotCharacteristics2_layout : Layout := layout 8 [
  Long "PME signal is supported" "PCI slot supports Power Management Event (PME#) signal";
  Long "Hot-plug devices are supported" "Slot supports hot-plug devices";
  Long "SMBus signal is supported" "PCI slot supports SMBus signal";
  Long "PCIe slot bifurcation is supported" "PCIe slot supports bifurcation. This slot can partition its lanes into two or more PCIe devices plugged into the slot. Note: This field does not indicate complete details on what levels of bifurcation are supported by the slot, but only that the slot supports some level of bifurcation";
  Long "Async/surprise removal is supported" "Slot supports async/surprise removal (i.e., removal without prior notification to the operating system, device driver, or applications)";
  Short "Flexbus slot, CXL 1.0 capable";
  Short "Flexbus slot, CXL 2.0 capable";
  Res "Reserved" 1
].

(* src/structures/013_bios_language.rs:89-103 `impl BitField for LanguageFlags` *)
Definition LanguageFlags_size : N := 1.
Definition LanguageFlags_layout : Layout := layout 8 [
  Long "Current Language strings use the abbreviated format" "If the bit is 0, each language string is in the form “ISO 639-1 Language Name | ISO 3166-1-alpha-2 Territory Name | Encoding Method”.
If the bit is 1, each language string consists of the two-character “ISO 639-1 Language Name” directly followed by the two-character “ISO 3166-1-alpha-2 Territory Name”.";
  Res "Reserved" 7
].

(* src/structures/015_system_event_log/mod.rs:316-327 `impl BitField for LogStatus` *)
Definition LogStatus_size : N := 1.
Definition LogStatus_layout : Layout := layout 8 [
  Long "Valid" "Log area valid";
  Long "Full" "Log area full";
  Res "Reserved" 6
].

(* src/structures/015_system_event_log/log_record_format.rs:414-471 `impl BitField for PostResults` *)
Definition PostResults_size : N := 8.
Definition PostResults_layout : Layout := layout 64 [
  Short "Channel 2 Timer error";
  Short "Primary PIC (8259 #1) error";
  Short "Secondary PIC (8259 #2) error";
  Short "CMOS RAM Battery Failure";
  Short "CMOS RAM System Options Not Set";
  Short "CMOS RAM Checksum Error";
  Short "CMOS RAM Configuration Error";
  Short "Mouse and Keyboard Swapped";
  Short "Keyboard Locked";
  Short "Keyboard Not Functional";
  Short "Keyboard Controller Not Functional";
  Short "CMOS Memory Size Different";
  Short "Memory Decreased in Size";
  Short "Cache Memory Error";
  Short "Floppy Drive 0 Error";
  Short "Floppy Drive 1 Error";
  Short "Floppy Controller Failure";
  Short "Number of ATA Drives Reduced Error";
  Short "RTC Time Not Set";
  Short "DDC Monitor Configuration Change";
  Res "Reserved" 4;
  Short "Second DWORD has valid data";
  Res "Reserved" 3;
  Res "Available for OEM assignment" 11;
  Short "PCI Memory Conflict";
  Short "PCI I/O Conflict";
  Short "PCI IRQ Conflict";
  Short "PNP Memory Conflict";
  Short "PNP 32 bit Memory Conflict";
  Short "PNP I/O Conflict";
  Short "PNP IRQ Conflict";
  Short "PNP DMA Conflict";
  Short "Bad PNP Serial ID Checksum";
  Short "Bad PNP Resource Data Checksum";
  Short "Static Resource Conflict";
  Short "NVRAM Checksum Error, NVRAM Cleared";
  Short "System Board Device Resource Conflict";
  Short "Primary Output Device Not Found";
  Short "Primary Input Device Not Found";
  Short "Primary Boot Device Not Found";
  Short "NVRAM Cleared By Jumper";
  Short "NVRAM Data Invalid, NVRAM Cleared";
  Short "FDC Resource Conflict";
  Short "Primary ATA Controller Resource Conflict";
  Short "Secondary ATA Controller Resource Conflict";
  Short "Parallel Port Resource Conflict";
  Short "Serial Port 1 Resource Conflict";
  Short "Serial Port 2 Resource Conflict";
  Short "Audio Resource Conflict"
].

(* every layout of the crate: size in bytes and table *)
Definition all_layouts : list (N * Layout) := [
  (Characteristics_size, Characteristics_layout);
  (CharacteristicsExtension1_size, CharacteristicsExtension1_layout);
  (CharacteristicsExtension2_size, CharacteristicsExtension2_layout);
  (SlotCharacteristics1_size, SlotCharacteristics1_layout);
  (SlotCharacteristics2_size, SlotCharacteristics2_layout);
  (LanguageFlags_size, LanguageFlags_layout);
  (LogStatus_size, LogStatus_layout);
  (PostResults_size, PostResults_layout)
].
