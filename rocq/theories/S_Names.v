(* The names the standard (DMTF DSP0134) gives the codes of its enumerations, and what
   the displayed text of each code is to be.  The tables are keyed by the code and do
   not mention the values the code decodes to.  Wordings that the standard gives as a
   sentence are shortened; the wordings of codes without a name are the crate's own. *)
From Coq Require Import String.
From Verif Require Import Base G_Enums M_Raw M_Entry M_Enclosure M_Processor M_Cache M_SystemEventLog M_PortableBattery
  M_Display S_Enums S_Text.
Local Open Scope string_scope.
Local Open Scope N_scope.

(* ------------------------------------------------------- the form of a text *)

(* a text is made of fixed parts and numerals: without zeros in front, or of at least
   [w] digits *)
Inductive piece :=
| Text (s : string)
| Numeral (base n : N)
| Padded (base : N) (w : nat) (n : N).

Fixpoint written (ps : list piece) (t : string) : Prop :=
  match ps with
  | [] => t = ""
  | p :: ps => exists a b, t = a ++ b /\ written ps b /\
      match p with
      | Text s => a = s
      | Numeral base n => numeral base a n
      | Padded base w n => padded base w a n
      end
  end.

(* the name of a code, or else what is said about it *)
Definition by_name (names : list (N * string)) (rest : N -> list piece) (k : N) : list piece :=
  match named names k with Some s => [Text s] | None => rest k end.
(* ... which is mostly one of these *)
Definition undefined (k : N) : list piece := [Text "Undefined: "; Numeral 10 k].
Definition nothing (k : N) : list piece := [].

(* ------------------------------------------------------------------- tables *)

(* 6.2 and 7.1 ff.: structure types; the crate shows the ones it does not know, the
   obsolete ones among them, like those of 128 and above, which are OEM-specific *)
Definition InfoType_names : list (N * string) := [
  (0, "BIOS Information"); (1, "System Information"); (2, "Baseboard (or Module) Information");
  (3, "System Enclosure or Chassis"); (4, "Processor Information"); (7, "Cache Information");
  (8, "Port Connector Information"); (9, "System Slots"); (11, "OEM Strings");
  (12, "System Configuration Options"); (13, "BIOS Language Information"); (14, "Group Associations");
  (15, "System Event Log"); (16, "Physical Memory Array"); (17, "Memory Device");
  (18, "32-Bit Memory Error Information"); (19, "Memory Array Mapped Address");
  (20, "Memory Device Mapped Address"); (21, "Built-in Pointing Device"); (22, "Portable Battery");
  (32, "System Boot Information"); (127, "End-of-Table")].
Definition InfoType_unknown (k : N) : list piece := [Text "OEM: "; Numeral 10 k].

(* the same types as error messages call them *)
Definition InfoType_labels : list (N * string) := [
  (0, "Bios"); (1, "System"); (2, "BaseBoard"); (3, "Enclosure"); (4, "Processor"); (7, "Cache");
  (8, "PortConnector"); (9, "SystemSlots"); (11, "OemStrings"); (12, "SystemConfigurationOptions");
  (13, "BiosLanguage"); (14, "GroupAssociations"); (15, "SystemEventLog"); (16, "PhysicalMemoryArray");
  (17, "MemoryDevice"); (18, "MemoryError32"); (19, "MemoryArrayMappedAddress");
  (20, "MemoryDeviceMappedAddress"); (21, "BuiltInPointingDevice"); (22, "PortableBattery");
  (32, "SystemBoot"); (127, "End")].
Definition InfoType_label (k : N) : list piece :=
  by_name InfoType_labels (fun k => [Text "Oem("; Numeral 10 k; Text ")"]) k.

(* 7.3.2 *)
Definition BoardType_names : list (N * string) := [
  (0x01, "Unknown"); (0x02, "Other"); (0x03, "Server Blade"); (0x04, "Connectivity Switch");
  (0x05, "System Management Module"); (0x06, "Processor Module"); (0x07, "I/O Module");
  (0x08, "Memory Module"); (0x09, "Daughter board");
  (0x0A, "Motherboard (includes processor, memory, and I/O)"); (0x0B, "Processor/Memory Module");
  (0x0C, "Processor/IO Module"); (0x0D, "Interconnect board")].

(* 7.4.1 *)
Definition EnclosureType_names : list (N * string) := [
  (0x01, "Other"); (0x02, "Unknown"); (0x03, "Desktop"); (0x04, "Low Profile Desktop"); (0x05, "Pizza Box");
  (0x06, "Mini Tower"); (0x07, "Tower"); (0x08, "Portable"); (0x09, "Laptop"); (0x0A, "Notebook");
  (0x0B, "Hand Held"); (0x0C, "Docking Station"); (0x0D, "All in One"); (0x0E, "Sub Notebook");
  (0x0F, "Space-saving"); (0x10, "Lunch Box"); (0x11, "Main Server Chassis"); (0x12, "Expansion Chassis");
  (0x13, "SubChassis"); (0x14, "Bus Expansion Chassis"); (0x15, "Peripheral Chassis");
  (0x16, "RAID Chassis"); (0x17, "Rack Mount Chassis"); (0x18, "Sealed-case PC");
  (0x19, "Multi-system chassis"); (0x1A, "Compact PCI"); (0x1B, "Advanced TCA"); (0x1C, "Blade");
  (0x1D, "Blade Enclosure"); (0x1E, "Tablet"); (0x1F, "Convertible"); (0x20, "Detachable");
  (0x21, "IoT Gateway"); (0x22, "Embedded PC"); (0x23, "Mini PC"); (0x24, "Stick PC")].

(* 7.4.2 *)
Definition State_names : list (N * string) := [
  (0x01, "Other"); (0x02, "Unknown"); (0x03, "Safe"); (0x04, "Warning"); (0x05, "Critical");
  (0x06, "Non-recoverable")].

(* 7.4.3 *)
Definition SecurityStatus_names : list (N * string) := [
  (0x01, "Other"); (0x02, "Unknown"); (0x03, "None"); (0x04, "External interface locked out");
  (0x05, "External interface enabled")].

(* 7.5.2, with the footnote marks removed *)
Definition ProcessorFamily_names : list (N * string) := [
  (0x01, "Other"); (0x02, "Unknown"); (0x03, "8086"); (0x04, "80286");
  (0x05, "Intel386™ processor"); (0x06, "Intel486™ processor"); (0x07, "8087"); (0x08, "80287");
  (0x09, "80387"); (0x0A, "80487"); (0x0B, "Intel® Pentium® processor"); (0x0C, "Pentium® Pro processor");
  (0x0D, "Pentium® II processor"); (0x0E, "Pentium® processor with MMX™ technology");
  (0x0F, "Intel® Celeron® processor"); (0x10, "Pentium® II Xeon™ processor");
  (0x11, "Pentium® III processor"); (0x12, "M1 Family"); (0x13, "M2 Family");
  (0x14, "Intel® Celeron® M processor"); (0x15, "Intel® Pentium® 4 HT processor");
  (0x18, "AMD Duron™ Processor Family"); (0x19, "K5 Family"); (0x1A, "K6 Family"); (0x1B, "K6-2");
  (0x1C, "K6-3"); (0x1D, "AMD Athlon™ Processor Family"); (0x1E, "AMD29000 Family"); (0x1F, "K6-2+");
  (0x20, "Power PC Family"); (0x21, "Power PC 601"); (0x22, "Power PC 603"); (0x23, "Power PC 603+");
  (0x24, "Power PC 604"); (0x25, "Power PC 620"); (0x26, "Power PC x704"); (0x27, "Power PC 750");
  (0x28, "Intel® Core™ Duo processor"); (0x29, "Intel® Core™ Duo mobile processor");
  (0x2A, "Intel® Core™ Solo mobile processor"); (0x2B, "Intel® Atom™ processor");
  (0x2C, "Intel® Core™ M processor"); (0x2D, "Intel(R) Core(TM) m3 processor");
  (0x2E, "Intel(R) Core(TM) m5 processor"); (0x2F, "Intel(R) Core(TM) m7 processor");
  (0x30, "Alpha Family"); (0x31, "Alpha 21064"); (0x32, "Alpha 21066"); (0x33, "Alpha 21164");
  (0x34, "Alpha 21164PC"); (0x35, "Alpha 21164a"); (0x36, "Alpha 21264"); (0x37, "Alpha 21364");
  (0x38, "AMD Turion™ II Ultra Dual-Core Mobile M Processor Family");
  (0x39, "AMD Turion™ II Dual-Core Mobile M Processor Family");
  (0x3A, "AMD Athlon™ II Dual-Core M Processor Family"); (0x3B, "AMD Opteron™ 6100 Series Processor");
  (0x3C, "AMD Opteron™ 4100 Series Processor"); (0x3D, "AMD Opteron™ 6200 Series Processor");
  (0x3E, "AMD Opteron™ 4200 Series Processor"); (0x3F, "AMD FX™ Series Processor"); (0x40, "MIPS Family");
  (0x41, "MIPS R4000"); (0x42, "MIPS R4200"); (0x43, "MIPS R4400"); (0x44, "MIPS R4600");
  (0x45, "MIPS R10000"); (0x46, "AMD C-Series Processor"); (0x47, "AMD E-Series Processor");
  (0x48, "AMD A-Series Processor"); (0x49, "AMD G-Series Processor"); (0x4A, "AMD Z-Series Processor");
  (0x4B, "AMD R-Series Processor"); (0x4C, "AMD Opteron™ 4300 Series Processor");
  (0x4D, "AMD Opteron™ 6300 Series Processor"); (0x4E, "AMD Opteron™ 3300 Series Processor");
  (0x4F, "AMD FirePro™ Series Processor"); (0x50, "SPARC Family"); (0x51, "SuperSPARC");
  (0x52, "microSPARC II"); (0x53, "microSPARC IIep"); (0x54, "UltraSPARC"); (0x55, "UltraSPARC II");
  (0x56, "UltraSPARC Iii"); (0x57, "UltraSPARC III"); (0x58, "UltraSPARC IIIi"); (0x60, "68040 Family");
  (0x61, "68xxx"); (0x62, "68000"); (0x63, "68010"); (0x64, "68020"); (0x65, "68030");
  (0x66, "AMD Athlon(TM) X4 Quad-Core Processor Family"); (0x67, "AMD Opteron(TM) X1000 Series Processor");
  (0x68, "AMD Opteron(TM) X2000 Series APU"); (0x69, "AMD Opteron(TM) A-Series Processor");
  (0x6A, "AMD Opteron(TM) X3000 Series APU"); (0x6B, "AMD Zen Processor Family"); (0x70, "Hobbit Family");
  (0x78, "Crusoe™ TM5000 Family"); (0x79, "Crusoe™ TM3000 Family"); (0x7A, "Efficeon™ TM8000 Family");
  (0x80, "Weitek"); (0x82, "Itanium™ processor"); (0x83, "AMD Athlon™ 64 Processor Family");
  (0x84, "AMD Opteron™ Processor Family"); (0x85, "AMD Sempron™ Processor Family");
  (0x86, "AMD Turion™ 64 Mobile Technology"); (0x87, "Dual-Core AMD Opteron™ Processor Family");
  (0x88, "AMD Athlon™ 64 X2 Dual-Core Processor Family"); (0x89, "AMD Turion™ 64 X2 Mobile Technology");
  (0x8A, "Quad-Core AMD Opteron™ Processor Family");
  (0x8B, "Third-Generation AMD Opteron™ Processor Family");
  (0x8C, "AMD Phenom™ FX Quad-Core Processor Family"); (0x8D, "AMD Phenom™ X4 Quad-Core Processor Family");
  (0x8E, "AMD Phenom™ X2 Dual-Core Processor Family"); (0x8F, "AMD Athlon™ X2 Dual-Core Processor Family");
  (0x90, "PA-RISC Family"); (0x91, "PA-RISC 8500"); (0x92, "PA-RISC 8000"); (0x93, "PA-RISC 7300LC");
  (0x94, "PA-RISC 7200"); (0x95, "PA-RISC 7100LC"); (0x96, "PA-RISC 7100"); (0xA0, "V30 Family");
  (0xA1, "Quad-Core Intel® Xeon® processor 3200 Series");
  (0xA2, "Dual-Core Intel® Xeon® processor 3000 Series");
  (0xA3, "Quad-Core Intel® Xeon® processor 5300 Series");
  (0xA4, "Dual-Core Intel® Xeon® processor 5100 Series");
  (0xA5, "Dual-Core Intel® Xeon® processor 5000 Series"); (0xA6, "Dual-Core Intel® Xeon® processor LV");
  (0xA7, "Dual-Core Intel® Xeon® processor ULV"); (0xA8, "Dual-Core Intel® Xeon® processor 7100 Series");
  (0xA9, "Quad-Core Intel® Xeon® processor 5400 Series"); (0xAA, "Quad-Core Intel® Xeon® processor");
  (0xAB, "Dual-Core Intel® Xeon® processor 5200 Series");
  (0xAC, "Dual-Core Intel® Xeon® processor 7200 Series");
  (0xAD, "Quad-Core Intel® Xeon® processor 7300 Series");
  (0xAE, "Quad-Core Intel® Xeon® processor 7400 Series");
  (0xAF, "Multi-Core Intel® Xeon® processor 7400 Series"); (0xB0, "Pentium® III Xeon™ processor");
  (0xB1, "Pentium® III Processor with Intel® SpeedStep™ Technology"); (0xB2, "Pentium® 4 Processor");
  (0xB3, "Intel® Xeon® processor"); (0xB4, "AS400 Family"); (0xB5, "Intel® Xeon™ processor MP");
  (0xB6, "AMD Athlon™ XP Processor Family"); (0xB7, "AMD Athlon™ MP Processor Family");
  (0xB8, "Intel® Itanium® 2 processor"); (0xB9, "Intel® Pentium® M processor");
  (0xBA, "Intel® Celeron® D processor"); (0xBB, "Intel® Pentium® D processor");
  (0xBC, "Intel® Pentium® Processor Extreme Edition"); (0xBD, "Intel® Core™ Solo Processor");
  (0xBE, "Ambiguous"); (0xBF, "Intel® Core™ 2 Duo Processor"); (0xC0, "Intel® Core™ 2 Solo processor");
  (0xC1, "Intel® Core™ 2 Extreme processor"); (0xC2, "Intel® Core™ 2 Quad processor");
  (0xC3, "Intel® Core™ 2 Extreme mobile processor"); (0xC4, "Intel® Core™ 2 Duo mobile processor");
  (0xC5, "Intel® Core™ 2 Solo mobile processor"); (0xC6, "Intel® Core™ i7 processor");
  (0xC7, "Dual-Core Intel® Celeron® processor"); (0xC8, "IBM390 Family"); (0xC9, "G4"); (0xCA, "G5");
  (0xCB, "ESA/390 G6"); (0xCC, "z/Architecture base"); (0xCD, "Intel® Core™ i5 processor");
  (0xCE, "Intel® Core™ i3 processor"); (0xCF, "Intel® Core™ i9 processor");
  (0xD2, "VIA C7™-M Processor Family"); (0xD3, "VIA C7™-D Processor Family");
  (0xD4, "VIA C7™ Processor Family"); (0xD5, "VIA Eden™ Processor Family");
  (0xD6, "Multi-Core Intel® Xeon® processor"); (0xD7, "Dual-Core Intel® Xeon® processor 3xxx Series");
  (0xD8, "Quad-Core Intel® Xeon® processor 3xxx Series"); (0xD9, "VIA Nano™ Processor Family");
  (0xDA, "Dual-Core Intel® Xeon® processor 5xxx Series");
  (0xDB, "Quad-Core Intel® Xeon® processor 5xxx Series");
  (0xDD, "Dual-Core Intel® Xeon® processor 7xxx Series");
  (0xDE, "Quad-Core Intel® Xeon® processor 7xxx Series");
  (0xDF, "Multi-Core Intel® Xeon® processor 7xxx Series");
  (0xE0, "Multi-Core Intel® Xeon® processor 3400 Series"); (0xE4, "AMD Opteron™ 3000 Series Processor");
  (0xE5, "AMD Sempron™ II Processor"); (0xE6, "Embedded AMD Opteron™ Quad-Core Processor Family");
  (0xE7, "AMD Phenom™ Triple-Core Processor Family");
  (0xE8, "AMD Turion™ Ultra Dual-Core Mobile Processor Family");
  (0xE9, "AMD Turion™ Dual-Core Mobile Processor Family"); (0xEA, "AMD Athlon™ Dual-Core Processor Family");
  (0xEB, "AMD Sempron™ SI Processor Family"); (0xEC, "AMD Phenom™ II Processor Family");
  (0xED, "AMD Athlon™ II Processor Family"); (0xEE, "Six-Core AMD Opteron™ Processor Family");
  (0xEF, "AMD Sempron™ M Processor Family"); (0xFA, "i860"); (0xFB, "i960");
  (0xFE, "Processor Family 2 has the enumerated value"); (0x100, "ARMv7"); (0x101, "ARMv8");
  (0x102, "ARMv9"); (0x104, "SH-3"); (0x105, "SH-4"); (0x118, "ARM"); (0x119, "StrongARM"); (0x12C, "6x86");
  (0x12D, "MediaGX"); (0x12E, "MII"); (0x140, "WinChip"); (0x15E, "DSP"); (0x1F4, "Video Processor");
  (0x200, "RISC-V RV32"); (0x201, "RISC-V RV64"); (0x202, "RISC-V RV128");
  (0xFFFE, "For special use in the future")].
(* FFh and FFFFh are what erased flash memory reads; 0 is not a code at all; everything
   else may still be assigned *)
Definition ProcessorFamily_unnamed (k : N) : list piece :=
  if k =? 0 then [Text "OUT OF SPEC"]
  else if (k =? 0xFF) || (k =? 0xFFFF) then
    [Text "Not used. "; Numeral 16 k; Text "h is the un-initialized value of Flash memory."]
  else [Text "Available 0x"; Numeral 16 k].

(* 7.5.5 *)
Definition ProcessorUpgrade_names : list (N * string) := [
  (0x01, "Other"); (0x02, "Unknown"); (0x03, "Daughter Board"); (0x04, "ZIF Socket");
  (0x05, "Replaceable Piggy Back"); (0x06, "None"); (0x07, "LIF Socket"); (0x08, "Slot 1");
  (0x09, "Slot 2"); (0x0A, "370-pin socket"); (0x0B, "Slot A"); (0x0C, "Slot M"); (0x0D, "Socket 423");
  (0x0E, "Socket A (Socket 462)"); (0x0F, "Socket 478"); (0x10, "Socket 754"); (0x11, "Socket 940");
  (0x12, "Socket 939"); (0x13, "Socket mPGA604"); (0x14, "Socket LGA771"); (0x15, "Socket LGA775");
  (0x16, "Socket S1"); (0x17, "Socket AM2"); (0x18, "Socket F (1207)"); (0x19, "Socket LGA1366");
  (0x1A, "Socket G34"); (0x1B, "Socket AM3"); (0x1C, "Socket C32"); (0x1D, "Socket LGA1156");
  (0x1E, "Socket LGA1567"); (0x1F, "Socket PGA988A"); (0x20, "Socket BGA1288"); (0x21, "Socket rPGA988B");
  (0x22, "Socket BGA1023"); (0x23, "Socket BGA1224"); (0x24, "Socket LGA1155"); (0x25, "Socket LGA1356");
  (0x26, "Socket LGA2011"); (0x27, "Socket FS1"); (0x28, "Socket FS2"); (0x29, "Socket FM1");
  (0x2A, "Socket FM2"); (0x2B, "Socket LGA2011-3"); (0x2C, "Socket LGA1356-3"); (0x2D, "Socket LGA1150");
  (0x2E, "Socket BGA1168"); (0x2F, "Socket BGA1234"); (0x30, "Socket BGA1364"); (0x31, "Socket AM4");
  (0x32, "Socket LGA1151"); (0x33, "Socket BGA1356"); (0x34, "Socket BGA1440"); (0x35, "Socket BGA1515");
  (0x36, "Socket LGA3647-1"); (0x37, "Socket SP3"); (0x38, "Socket SP3r2"); (0x39, "Socket LGA2066");
  (0x3A, "Socket BGA1392"); (0x3B, "Socket BGA1510"); (0x3C, "Socket BGA1528"); (0x3D, "Socket LGA4189");
  (0x3E, "Socket LGA1200")].
Definition ProcessorUpgrade_undefined (k : N) : list piece := [Text "Undefined "; Numeral 10 k].

(* 7.8, bits 2:0 of the configuration *)
Definition CacheLevel_names : list (N * string) := [
  (0x00, "L1"); (0x01, "L2"); (0x02, "L3"); (0x03, "L4"); (0x04, "L5"); (0x05, "L6"); (0x06, "L7");
  (0x07, "L8")].

(* 7.8, bits 6:5 of the configuration *)
Definition CacheLocation_names : list (N * string) := [
  (0x00, "Internal"); (0x01, "External"); (0x02, "Reserved"); (0x03, "Unknown")].

(* 7.8, bits 9:8 of the configuration *)
Definition CacheOperationalMode_names : list (N * string) := [
  (0x00, "Write Through"); (0x01, "Write Back"); (0x02, "Varies with Memory Address"); (0x03, "Unknown")].

(* 7.8.3 *)
Definition CacheErrorCorrectionType_names : list (N * string) := [
  (0x01, "Other"); (0x02, "Unknown"); (0x03, "None"); (0x04, "Parity"); (0x05, "Single-bit ECC");
  (0x06, "Multi-bit ECC")].

(* 7.8.4 *)
Definition SystemCacheType_names : list (N * string) := [
  (0x01, "Other"); (0x02, "Unknown"); (0x03, "Instruction"); (0x04, "Data"); (0x05, "Unified")].

(* 7.8.5 *)
Definition CacheAssociativity_names : list (N * string) := [
  (0x01, "Other"); (0x02, "Unknown"); (0x03, "Direct Mapped"); (0x04, "2-way Set-Associative");
  (0x05, "4-way Set-Associative"); (0x06, "Fully Associative"); (0x07, "8-way Set-Associative");
  (0x08, "16-way Set-Associative"); (0x09, "12-way Set-Associative"); (0x0A, "24-way Set-Associative");
  (0x0B, "32-way Set-Associative"); (0x0C, "48-way Set-Associative"); (0x0D, "64-way Set-Associative");
  (0x0E, "20-way Set-Associative")].

(* 7.9.2 *)
Definition ConnectorType_names : list (N * string) := [
  (0x00, "None"); (0x01, "Centronics"); (0x02, "Mini Centronics"); (0x03, "Proprietary");
  (0x04, "DB-25 pin male"); (0x05, "DB-25 pin female"); (0x06, "DB-15 pin male");
  (0x07, "DB-15 pin female"); (0x08, "DB-9 pin male"); (0x09, "DB-9 pin female"); (0x0A, "RJ-11");
  (0x0B, "RJ-45"); (0x0C, "50-pin MiniSCSI"); (0x0D, "Mini-DIN"); (0x0E, "Micro-DIN"); (0x0F, "PS/2");
  (0x10, "Infrared"); (0x11, "HP-HIL"); (0x12, "Access Bus (USB)"); (0x13, "SSA SCSI");
  (0x14, "Circular DIN-8 male"); (0x15, "Circular DIN-8 female"); (0x16, "On Board IDE");
  (0x17, "On Board Floppy"); (0x18, "9-pin Dual Inline (pin 10 cut)");
  (0x19, "25-pin Dual Inline (pin 26 cut)"); (0x1A, "50-pin Dual Inline"); (0x1B, "68-pin Dual Inline");
  (0x1C, "On Board Sound Input from CD-ROM"); (0x1D, "Mini-Centronics Type-14");
  (0x1E, "Mini-Centronics Type-26"); (0x1F, "Mini-jack (headphones)"); (0x20, "BNC"); (0x21, "1394");
  (0x22, "SAS/SATA Plug Receptacle"); (0x23, "USB Type-C Receptacle"); (0xA0, "PC-98");
  (0xA1, "PC-98Hireso"); (0xA2, "PC-H98"); (0xA3, "PC-98Note"); (0xA4, "PC-98Full");
  (0xFF, "Other – Use Reference Designator Strings to supply information.")].

(* 7.9.3 *)
Definition PortType_names : list (N * string) := [
  (0x00, "None"); (0x01, "Parallel Port XT/AT Compatible"); (0x02, "Parallel Port PS/2");
  (0x03, "Parallel Port ECP"); (0x04, "Parallel Port EPP"); (0x05, "Parallel Port ECP/EPP");
  (0x06, "Serial Port XT/AT Compatible"); (0x07, "Serial Port 16450 Compatible");
  (0x08, "Serial Port 16550 Compatible"); (0x09, "Serial Port 16550A Compatible"); (0x0A, "SCSI Port");
  (0x0B, "MIDI Port"); (0x0C, "Joy Stick Port"); (0x0D, "Keyboard Port"); (0x0E, "Mouse Port");
  (0x0F, "SSA SCSI"); (0x10, "USB"); (0x11, "FireWire (IEEE P1394)"); (0x12, "PCMCIA Type I");
  (0x13, "PCMCIA Type II"); (0x14, "PCMCIA Type III"); (0x15, "Cardbus"); (0x16, "Access Bus Port");
  (0x17, "SCSI II"); (0x18, "SCSI Wide"); (0x19, "PC-98"); (0x1A, "PC-98-Hireso"); (0x1B, "PC-H98");
  (0x1C, "Video Port"); (0x1D, "Audio Port"); (0x1E, "Modem Port"); (0x1F, "Network Port"); (0x20, "SATA");
  (0x21, "SAS"); (0x22, "MFDP (Multi-Function Display Port)"); (0x23, "Thunderbolt");
  (0xA0, "8251 Compatible"); (0xA1, "8251 FIFO Compatible"); (0xFF, "Other")].

(* 7.10.1 *)
Definition SlotType_names : list (N * string) := [
  (0x01, "Other"); (0x02, "Unknown"); (0x03, "ISA"); (0x04, "MCA"); (0x05, "EISA"); (0x06, "PCI");
  (0x07, "PC Card (PCMCIA)"); (0x08, "VL-VESA"); (0x09, "Proprietary"); (0x0A, "Processor Card Slot");
  (0x0B, "Proprietary Memory Card Slot"); (0x0C, "I/O Riser Card Slot"); (0x0D, "NuBus");
  (0x0E, "PCI – 66MHz Capable"); (0x0F, "AGP"); (0x10, "AGP 2X"); (0x11, "AGP 4X"); (0x12, "PCI-X");
  (0x13, "AGP 8X"); (0x14, "M.2 Socket 1-DP (Mechanical Key A)");
  (0x15, "M.2 Socket 1-SD (Mechanical Key E)"); (0x16, "M.2 Socket 2 (Mechanical Key B)");
  (0x17, "M.2 Socket 3 (Mechanical Key M)"); (0x18, "MXM Type I"); (0x19, "MXM Type II");
  (0x1A, "MXM Type III (standard connector)"); (0x1B, "MXM Type III (HE connector)"); (0x1C, "MXM Type IV");
  (0x1D, "MXM 3.0 Type A"); (0x1E, "MXM 3.0 Type B"); (0x1F, "PCI Express Gen 2 SFF-8639 (U.2)");
  (0x20, "PCI Express Gen 3 SFF-8639 (U.2)"); (0x21, "PCI Express Mini 52-pin with bottom-side keep-outs");
  (0x22, "PCI Express Mini 52-pin without bottom-side keep-outs"); (0x23, "PCI Express Mini 76-pin");
  (0x24, "PCI Express Gen 4 SFF-8639 (U.2)"); (0x25, "PCI Express Gen 5 SFF-8639 (U.2)");
  (0x26, "OCP NIC 3.0 Small Form Factor (SFF)"); (0x27, "OCP NIC 3.0 Large Form Factor (LFF)");
  (0x28, "OCP NIC Prior to 3.0"); (0x30, "CXL Flexbus 1.0 (deprecated)"); (0xA0, "PC-98/C20");
  (0xA1, "PC-98/C24"); (0xA2, "PC-98/E"); (0xA3, "PC-98/Local Bus"); (0xA4, "PC-98/Card");
  (0xA5, "PCI Express"); (0xA6, "PCI Express x1"); (0xA7, "PCI Express x2"); (0xA8, "PCI Express x4");
  (0xA9, "PCI Express x8"); (0xAA, "PCI Express x16"); (0xAB, "PCI Express Gen 2");
  (0xAC, "PCI Express Gen 2 x1"); (0xAD, "PCI Express Gen 2 x2"); (0xAE, "PCI Express Gen 2 x4");
  (0xAF, "PCI Express Gen 2 x8"); (0xB0, "PCI Express Gen 2 x16"); (0xB1, "PCI Express Gen 3");
  (0xB2, "PCI Express Gen 3 x1"); (0xB3, "PCI Express Gen 3 x2"); (0xB4, "PCI Express Gen 3 x4");
  (0xB5, "PCI Express Gen 3 x8"); (0xB6, "PCI Express Gen 3 x16"); (0xB8, "PCI Express Gen 4");
  (0xB9, "PCI Express Gen 4 x1"); (0xBA, "PCI Express Gen 4 x2"); (0xBB, "PCI Express Gen 4 x4");
  (0xBC, "PCI Express Gen 4 x8"); (0xBD, "PCI Express Gen 4 x16"); (0xBE, "PCI Express Gen 5");
  (0xBF, "PCI Express Gen 5 x1"); (0xC0, "PCI Express Gen 5 x2"); (0xC1, "PCI Express Gen 5 x4");
  (0xC2, "PCI Express Gen 5 x8"); (0xC3, "PCI Express Gen 5 x16"); (0xC4, "PCI Express Gen 6 and Beyond");
  (0xC5, "EDSFF E1"); (0xC6, "EDSFF E3")].
(* the alternate form adds the standard's explanations *)
Definition SlotType_long_names : list (N * string) := [
  (0x21, "PCI Express Mini 52-pin (CEM spec. 2.0) with bottom-side keep-outs. Use Slot Length field value 03h (short length) for ""half-Mini card"" -only support, 04h (long length) for ""full-Mini card"" or dual support.");
  (0x22, "PCI Express Mini 52-pin (CEM spec. 2.0) without bottom-side keep-outs. Use Slot Length field value 03h (short length) for ""half-Mini card"" -only support, 04h (long length) for ""full-Mini card"" or dual support.");
  (0x23, "PCI Express Mini 76-pin (CEM spec. 2.0) Corresponds to Display-Mini card.");
  (0xC5, "Enterprise and Datacenter 1U E1 Form Factor Slot (EDSFF E1.S, E1.L). See specifications SFF-TA-1006 and SFF-TA-1007 for more details on values for slot length and pitch.");
  (0xC6, "Enterprise and Datacenter 3"" E3 Form Factor Slot (EDSFF E3.S, E3.L). See specification SFF-TA-1008 for details on values for slot length and pitch.")] ++ SlotType_names.

(* 7.10.2 *)
Definition SlotWidth_names : list (N * string) := [
  (0x01, "Other"); (0x02, "Unknown"); (0x03, "8 bit"); (0x04, "16 bit"); (0x05, "32 bit"); (0x06, "64 bit");
  (0x07, "128 bit"); (0x08, "1x or x1"); (0x09, "2x or x2"); (0x0A, "4x or x4"); (0x0B, "8x or x8");
  (0x0C, "12x or x12"); (0x0D, "16x or x16"); (0x0E, "32x or x32")].

(* 7.10.3 *)
Definition CurrentUsage_names : list (N * string) := [
  (0x01, "Other"); (0x02, "Unknown"); (0x03, "Available"); (0x04, "In use"); (0x05, "Unavailable")].
Definition CurrentUsage_long_names : list (N * string) := [
  (0x05, "Unavailable (e.g., connected to a processor that is not installed)")] ++ CurrentUsage_names.

(* 7.10.4 *)
Definition SlotLength_names : list (N * string) := [
  (0x01, "Other"); (0x02, "Unknown"); (0x03, "Short Length"); (0x04, "Long Length");
  (0x05, "2.5"" drive form factor"); (0x06, "3.5"" drive form factor")].

(* 7.17.1 *)
Definition MemoryArrayLocation_names : list (N * string) := [
  (0x01, "Other"); (0x02, "Unknown"); (0x03, "System board or motherboard"); (0x04, "ISA add-on card");
  (0x05, "EISA add-on card"); (0x06, "PCI add-on card"); (0x07, "MCA add-on card");
  (0x08, "PCMCIA add-on card"); (0x09, "Proprietary add-on card"); (0x0A, "NuBus");
  (0xA0, "PC-98/C20 add-on card"); (0xA1, "PC-98/C24 add-on card"); (0xA2, "PC-98/E add-on card");
  (0xA3, "PC-98/Local bus add-on card"); (0xA4, "CXL add-on card")].

(* 7.17.2 *)
Definition MemoryArrayUse_names : list (N * string) := [
  (0x01, "Other"); (0x02, "Unknown"); (0x03, "System memory"); (0x04, "Video memory");
  (0x05, "Flash memory"); (0x06, "Non-volatile RAM"); (0x07, "Cache memory")].

(* 7.17.3 *)
Definition MemoryArrayErrorCorrectionTypes_names : list (N * string) := [
  (0x01, "Other"); (0x02, "Unknown"); (0x03, "None"); (0x04, "Parity"); (0x05, "Single-bit ECC");
  (0x06, "Multi-bit ECC"); (0x07, "CRC")].

(* 7.19.1 *)
Definition MEErrorType_names : list (N * string) := [
  (0x01, "Other"); (0x02, "Unknown"); (0x03, "OK"); (0x04, "Bad read"); (0x05, "Parity error");
  (0x06, "Single-bit error"); (0x07, "Double-bit error"); (0x08, "Multi-bit error"); (0x09, "Nibble error");
  (0x0A, "Checksum error"); (0x0B, "CRC error"); (0x0C, "Corrected single-bit error");
  (0x0D, "Corrected error"); (0x0E, "Uncorrectable error")].

(* 7.19.2 *)
Definition MEErrorGranularity_names : list (N * string) := [
  (0x01, "Other"); (0x02, "Unknown"); (0x03, "Device level"); (0x04, "Memory partition level")].

(* 7.19.3 *)
Definition MEErrorOperation_names : list (N * string) := [
  (0x01, "Other"); (0x02, "Unknown"); (0x03, "Read"); (0x04, "Write"); (0x05, "Partial write")].

(* 7.22.1 *)
Definition PointingDeviceType_names : list (N * string) := [
  (0x01, "Other"); (0x02, "Unknown"); (0x03, "Mouse"); (0x04, "Track Ball"); (0x05, "Track Point");
  (0x06, "Glide Point"); (0x07, "Touch Pad"); (0x08, "Touch Screen"); (0x09, "Optical Sensor")].

(* 7.22.2 *)
Definition PointingDeviceInterface_names : list (N * string) := [
  (0x01, "Other"); (0x02, "Unknown"); (0x03, "Serial"); (0x04, "PS/2"); (0x05, "Infrared");
  (0x06, "HP-HIL"); (0x07, "Bus mouse"); (0x08, "ADB (Apple Desktop Bus)"); (0xA0, "Bus mouse DB-9");
  (0xA1, "Bus mouse micro-DIN"); (0xA2, "USB")].

(* 7.16.6.1: event log types, short and in the wording of the standard *)
Definition EventLogType_short_names : list (N * string) := [
  (0x00, "Reserved"); (0x01, "Single-bit ECC memory error"); (0x02, "Multi-bit ECC memory error");
  (0x03, "Parity memory error"); (0x04, "Bus timeout"); (0x05, "I/O channel check"); (0x06, "Software NMI");
  (0x07, "POST memory resize"); (0x08, "POST error"); (0x09, "PCI parity error"); (0x0A, "PCI system error");
  (0x0B, "CPU failure"); (0x0C, "EISA failsafe timer timeout"); (0x0D, "Correctable memory log disabled");
  (0x0E, "Logging disabled"); (0x0F, "Reserved"); (0x10, "System limit exceeded");
  (0x11, "Asynchronous hardware timer expired"); (0x12, "System configuration information");
  (0x13, "Hard disk information"); (0x14, "System reconfigured"); (0x15, "Uncorrectable CPU-complex error");
  (0x16, "Log area reset/cleared"); (0x17, "System boot"); (0xFF, "End of log")].
Definition EventLogType_long_names : list (N * string) := [
  (0x01, "Single-bit ECC memory error"); (0x02, "Multi-bit ECC memory error");
  (0x03, "Parity memory error"); (0x04, "Bus time-out"); (0x05, "I/O Channel Check"); (0x06, "Software NMI");
  (0x07, "POST Memory Resize"); (0x08, "POST Error"); (0x09, "PCI Parity Error"); (0x0A, "PCI System Error");
  (0x0B, "CPU Failure"); (0x0C, "EISA FailSafe Timer time-out"); (0x0D, "Correctable memory log disabled");
  (0x0E, "Logging disabled for a specific Event Type"); (0x10, "System Limit Exceeded");
  (0x11, "Asynchronous hardware timer expired and issued a system reset");
  (0x12, "System configuration information"); (0x13, "Hard-disk information"); (0x14, "System reconfigured");
  (0x15, "Uncorrectable CPU-complex error"); (0x16, "Log Area Reset/Cleared"); (0x17, "System boot");
  (0xFF, "End of log")].
Definition EventLogType_unnamed (alt : bool) (k : N) : list piece :=
  if (k =? 0x00) || (k =? 0x0F) then [Text "Reserved: "; Numeral 10 k]
  else if k <? 0x80 then [Text "Unused: "; Numeral 10 k]
  else if alt then [Text "Available for system- and OEM-specific assignments: "; Numeral 10 k]
  else [Text "OEM-specific"].

(* 7.16.5: log header formats *)
Definition LogHeaderFormat_short_names : list (N * string) := [(0x00, "No Header"); (0x01, "Type 1")].
Definition LogHeaderFormat_long_names : list (N * string) := [(0x00, "No Header"); (0x01, "Type 1 log header")].
Definition LogHeaderFormat_unnamed (alt : bool) (k : N) : list piece :=
  if k <? 0x80 then [Text "Available: "; Numeral 10 k]
  else if alt then [Text "BIOS vendor or OEM-specific format: "; Numeral 10 k]
  else [Text "OEM-specific"].

(* 7.16.6.2: formats of variable data; a format code comes without data, so that the
   alternate form shows zeros and, for system management, the reserved type FFFFh *)
Definition VariableDataFormatType_short_names : list (N * string) := [
  (0x00, "None"); (0x01, "Handle"); (0x02, "Multiple-event"); (0x03, "Multiple-event handle");
  (0x04, "POST results bitmap"); (0x05, "System management"); (0x06, "Multiple-event system management")].
Definition VariableDataFormatType_long_names : list (N * string) := [
  (0x00, "No standard format data is available"); (0x01, "SMBIOS structure associated handle: 0");
  (0x02, "Multiple-event counter value: 0"); (0x03, "Multiple-event: Handle 0x0000, Count 0");
  (0x04, "POST result: 0x0"); (0x05, "System management: Reserved: 65535");
  (0x06, "Multiple-event system management: Type Reserved: 65535, Count 0")].
Definition VariableDataFormatType_unnamed (alt : bool) (k : N) : list piece :=
  if k <? 0x80 then [Text "Unused: "; Numeral 10 k]
  else if alt then [Text "OEM assigned: "; Numeral 10 k]
  else [Text "OEM-specific"].

(* 7.23.1: battery chemistries *)
Definition DeviceChemistry_names : list (N * string) := [
  (0x01, "Other"); (0x02, "Unknown"); (0x03, "Lead Acid"); (0x04, "Nickel Cadmium");
  (0x05, "Nickel metal hydride"); (0x06, "Lithium-ion"); (0x07, "Zinc air"); (0x08, "Lithium Polymer")].

(* 7.16.6.4: 32-bit system management types *)
Definition SystemManagementType_names : list (N * string) := [
  (0x00, "+2.5V Out of range, #1"); (0x01, "+2.5V Out of range, #2"); (0x02, "+3.3V Out of range");
  (0x03, "+5V Out of range"); (0x04, "-5V Out of range"); (0x05, "+12V Out of range");
  (0x06, "-12V Out of range"); (0x10, "System board temperature out of range");
  (0x11, "Processor #1 temperature out of range"); (0x12, "Processor #2 temperature out of range");
  (0x13, "Processor #3 temperature out of range"); (0x14, "Processor #4 temperature out of range");
  (0x30, "Chassis secure switch activated")].
Definition SystemManagementType_unnamed (k : N) : list piece :=
  if k <? 0x10 then [Text "Out-of-range voltage reserved: "; Numeral 10 k]
  else if k <? 0x20 then [Text "Out-of-range temperatures reserved: "; Numeral 10 k]
  else if k <? 0x28 then [Text "Fan "; Numeral 10 (k - 0x20); Text " Out of range"]
  else if k <? 0x10000 then [Text "Reserved: "; Numeral 10 k]
  else if k <? 0x20000 then
    [Text "A system-management probe or cooling device with handle 0x"; Padded 16 4 (k - 0x10000); Text " is out of range"]
  else if k <? 0x80000000 then [Text "Reserved: "; Numeral 10 k]
  else [Text "OEM assigned: "; Numeral 10 k].

(* 7.5.4: voltages below 80h; the standard's name of bit 0 is 5V *)
Definition legacy_voltage (bit_0 : string) (k : N) : list piece :=
  if 8 <=? k then [Text "Undefined 0b"; Numeral 2 k]
  else if k =? 0 then [Text "Voltage capability unknown"]
  else [Text "Processor socket accept: "; Text (if N.testbit k 0 then bit_0 else "");
        Text (if N.testbit k 1 then "3.3V " else ""); Text (if N.testbit k 2 then "2.9V " else "")].

(* the texts that are not the standard's *)
Definition ProcessorFamily_instead : list (N * string) := [
  (0x18, "AMD Duron™ Processor Family [1]"); (0x19, "K5 Family [1]"); (0x1A, "K6 Family [1]");
  (0x1D, "AMD Athlon™ Processor Family [1]"); (0x30, "Alpha Family [2]")].
Definition PortType_instead : list (N * string) := [(0x12, "PCMCIA Type I2")].
Definition SlotType_instead : list (N * string) := [
  (0x1F, "PCI Express Gen 2"); (0x20, "PCI Express Gen 3"); (0x24, "PCI Express Gen 4"); (0x25, "PCI Express Gen 5")].
Definition CacheOperationalMode_instead : list (N * string) := [(0x02, "Values with Memory Address")].
Definition MemoryArrayLocation_instead : list (N * string) := [
  (0x0B, "PC-98/C20 add-on card");
  (0x0C, "PC-98/C24 add-on card");
  (0x0D, "PC-98/E add-on card");
  (0x0E, "PC-98/Local bus add-on card");
  (0x0F, "CXL add-on card");
  (0xA0, "Undefined: 160");
  (0xA1, "Undefined: 161");
  (0xA2, "Undefined: 162");
  (0xA3, "Undefined: 163");
  (0xA4, "Undefined: 164")].
Definition EventLogType_instead : list (N * string) := [(0x05, "I/O channel block")].
Definition Voltage_instead : list (N * string) := [
  (1, "Processor socket accept: 5.5V "); (3, "Processor socket accept: 5.5V 3.3V ");
  (5, "Processor socket accept: 5.5V 2.9V "); (7, "Processor socket accept: 5.5V 3.3V 2.9V ")].

(* ---------------------------------------------------------------- the claim *)

(* An enumeration: its name, how many codes there are, what the standard has the text
   of a code be, the codes whose text is something else, with that text, and the text
   shown; [alt] tells `{:#}` from `{}`. *)
Record named_code := {
  enumeration : string;
  codes_below : N;
  standard : N -> list piece;
  instead : list (N * string);
  text_shown : N -> string
}.

Definition named_codes (alt : bool) : list named_code := [
  {| enumeration := "InfoType"; codes_below := 256; standard := by_name InfoType_names InfoType_unknown; instead := [];
     text_shown := fun k => InfoType_display alt (InfoType_from k) |};
  {| enumeration := "InfoType (in error messages)"; codes_below := 256; standard := InfoType_label; instead := [];
     text_shown := fun k => InfoType_debug (InfoType_from k) |};
  {| enumeration := "BoardType"; codes_below := 256; standard := by_name BoardType_names undefined; instead := [];
     text_shown := fun k => BoardType_display alt (BoardType_from k) |};
  {| enumeration := "EnclosureType"; codes_below := 256; standard := by_name EnclosureType_names undefined; instead := [];
     text_shown := fun k => EnclosureType_display alt (EnclosureType_from k) |};
  {| enumeration := "State"; codes_below := 256; standard := by_name State_names undefined; instead := [];
     text_shown := fun k => State_display alt (State_from k) |};
  {| enumeration := "SecurityStatus"; codes_below := 256; standard := by_name SecurityStatus_names undefined; instead := [];
     text_shown := fun k => SecurityStatus_display alt (SecurityStatus_from k) |};
  {| enumeration := "ProcessorFamily"; codes_below := 65536; standard := by_name ProcessorFamily_names ProcessorFamily_unnamed; instead := ProcessorFamily_instead;
     text_shown := fun k => ProcessorFamily_display alt (ProcessorFamily_from k) |};
  {| enumeration := "ProcessorUpgrade"; codes_below := 256; standard := by_name ProcessorUpgrade_names ProcessorUpgrade_undefined; instead := [];
     text_shown := fun k => ProcessorUpgrade_display alt (ProcessorUpgrade_from k) |};
  {| enumeration := "CacheErrorCorrectionType"; codes_below := 256; standard := by_name CacheErrorCorrectionType_names undefined; instead := [];
     text_shown := fun k => CacheErrorCorrectionType_display alt (CacheErrorCorrectionType_from k) |};
  {| enumeration := "SystemCacheType"; codes_below := 256; standard := by_name SystemCacheType_names undefined; instead := [];
     text_shown := fun k => SystemCacheType_display alt (SystemCacheType_from k) |};
  {| enumeration := "CacheAssociativity"; codes_below := 256; standard := by_name CacheAssociativity_names undefined; instead := [];
     text_shown := fun k => CacheAssociativity_display alt (CacheAssociativity_from k) |};
  {| enumeration := "ConnectorType"; codes_below := 256; standard := by_name ConnectorType_names undefined; instead := [];
     text_shown := fun k => ConnectorType_display alt (ConnectorType_from k) |};
  {| enumeration := "PortType"; codes_below := 256; standard := by_name PortType_names undefined; instead := PortType_instead;
     text_shown := fun k => PortType_display alt (PortType_from k) |};
  {| enumeration := "SlotType"; codes_below := 256; standard := by_name (if alt then SlotType_long_names else SlotType_names) undefined; instead := SlotType_instead;
     text_shown := fun k => SlotType_display alt (SlotType_from k) |};
  {| enumeration := "SlotWidth"; codes_below := 256; standard := by_name SlotWidth_names undefined; instead := [];
     text_shown := fun k => SlotWidth_display alt (SlotWidth_from k) |};
  {| enumeration := "CurrentUsage"; codes_below := 256; standard := by_name (if alt then CurrentUsage_long_names else CurrentUsage_names) undefined; instead := [];
     text_shown := fun k => CurrentUsage_display alt (CurrentUsage_from k) |};
  {| enumeration := "SlotLength"; codes_below := 256; standard := by_name SlotLength_names undefined; instead := [];
     text_shown := fun k => SlotLength_display alt (SlotLength_from k) |};
  {| enumeration := "MemoryArrayLocation"; codes_below := 256; standard := by_name MemoryArrayLocation_names undefined; instead := MemoryArrayLocation_instead;
     text_shown := fun k => MemoryArrayLocation_display alt (MemoryArrayLocation_from k) |};
  {| enumeration := "MemoryArrayUse"; codes_below := 256; standard := by_name MemoryArrayUse_names undefined; instead := [];
     text_shown := fun k => MemoryArrayUse_display alt (MemoryArrayUse_from k) |};
  {| enumeration := "MemoryArrayErrorCorrectionTypes"; codes_below := 256; standard := by_name MemoryArrayErrorCorrectionTypes_names undefined; instead := [];
     text_shown := fun k => MemoryArrayErrorCorrectionTypes_display alt (MemoryArrayErrorCorrectionTypes_from k) |};
  {| enumeration := "MEErrorType"; codes_below := 256; standard := by_name MEErrorType_names undefined; instead := [];
     text_shown := fun k => MEErrorType_display alt (MEErrorType_from k) |};
  {| enumeration := "MEErrorGranularity"; codes_below := 256; standard := by_name MEErrorGranularity_names undefined; instead := [];
     text_shown := fun k => MEErrorGranularity_display alt (MEErrorGranularity_from k) |};
  {| enumeration := "MEErrorOperation"; codes_below := 256; standard := by_name MEErrorOperation_names undefined; instead := [];
     text_shown := fun k => MEErrorOperation_display alt (MEErrorOperation_from k) |};
  {| enumeration := "PointingDeviceType"; codes_below := 256; standard := by_name PointingDeviceType_names undefined; instead := [];
     text_shown := fun k => PointingDeviceType_display alt (PointingDeviceType_from k) |};
  {| enumeration := "PointingDeviceInterface"; codes_below := 256; standard := by_name PointingDeviceInterface_names undefined; instead := [];
     text_shown := fun k => PointingDeviceInterface_display alt (PointingDeviceInterface_from k) |};
  {| enumeration := "EventLogType"; codes_below := 256; standard := by_name (if alt then EventLogType_long_names else EventLogType_short_names) (EventLogType_unnamed alt); instead := if alt then [] else EventLogType_instead;
     text_shown := fun k => EventLogType_display alt (EventLogType_from k) |};
  {| enumeration := "LogHeaderFormat"; codes_below := 256; standard := by_name (if alt then LogHeaderFormat_long_names else LogHeaderFormat_short_names) (LogHeaderFormat_unnamed alt); instead := [];
     text_shown := fun k => LogHeaderFormat_display alt (LogHeaderFormat_from k) |};
  {| enumeration := "VariableDataFormatType"; codes_below := 256; standard := by_name (if alt then VariableDataFormatType_long_names else VariableDataFormatType_short_names)
       (VariableDataFormatType_unnamed alt); instead := [];
     text_shown := fun k => VariableDataFormatType_display alt (VariableDataFormatType_from k) |};
  {| enumeration := "DeviceChemistry"; codes_below := 256; standard := by_name DeviceChemistry_names undefined; instead := [];
     text_shown := fun k => DeviceChemistry_display (DeviceChemistry_new k None) |};
  {| enumeration := "SystemManagementType"; codes_below := 2 ^ 32; standard := by_name SystemManagementType_names SystemManagementType_unnamed; instead := [];
     text_shown := fun k => SystemManagementType_display (SystemManagementType_from k) |};
  {| enumeration := "Voltage"; codes_below := 128; standard := legacy_voltage "5V "; instead := Voltage_instead;
     text_shown := fun k => Voltage_display (Voltage_from k) |}
].

(* what the text of a code is *)
Definition as_shown (e : named_code) (k : N) : list piece := by_name (instead e) (standard e) k.

(* the three codes in a cache configuration *)
Definition cache_names (alt : bool) (w : N) (x : CacheConfiguration) : Prop :=
  written (by_name CacheLevel_names nothing (w mod 8)) (CacheLevel_display alt (level x)) /\
  written (by_name CacheLocation_names nothing (w / 32 mod 4)) (CacheLocation_display alt (location x)) /\
  written (by_name (CacheOperationalMode_instead ++ CacheOperationalMode_names) nothing (w / 256 mod 4))
          (CacheOperationalMode_display alt (operational_mode x)).

(* 7.4.4: a contained element is a board type or, with bit 7 set, a structure type *)
Definition contained_element (t minimum maximum : N) : list piece :=
  (if t <? 128 then [Text "Baseboard type: "] ++ by_name BoardType_names undefined t
   else [Text "Structure type: "] ++ by_name InfoType_names InfoType_unknown (t - 128)) ++
  [Text " ("; Numeral 10 minimum; Text "-"; Numeral 10 maximum; Text ")"].

(* 7.16.3: how a log is reached, by method and 32-bit address *)
Definition access_words (alt : bool) (method address : N) : list piece :=
  let b0 := address mod 256 in
  let b1 := address / 256 mod 256 in
  let b2 := address / 65536 mod 256 in
  let low := address mod 65536 in
  if method =? 0 then
    [Text "Indexed I/O, one 8-bit index port, one 8-bit data port"] ++
    if alt then [Text ": Index 0x"; Padded 16 2 b0; Text ", Data 0x"; Padded 16 2 b2] else []
  else if method =? 1 then
    [Text "Indexed I/O, two 8-bit index ports, one 8-bit data port"] ++
    if alt then [Text ": Index ["; Numeral 16 b0; Text ", "; Numeral 16 b1; Text "], Data 0x"; Padded 16 2 b2] else []
  else if method =? 2 then
    [Text "Indexed I/O, one 16-bit index port, one 8-bit data port"] ++
    if alt then [Text ": Index 0x"; Padded 16 4 low; Text ", Data 0x"; Padded 16 2 b2] else []
  else if method =? 3 then
    [Text "Memory-mapped physical 32-bit address"] ++ if alt then [Text ": 0x"; Padded 16 8 address] else []
  else if method =? 4 then
    if alt then [Text "General-Purpose NonVolatile Data functions, handle 0x"; Padded 16 4 low]
    else [Text "General-purpose non-volatile data functions"]
  else if method <? 0x80 then
    if alt then [Text "Available: Method "; Numeral 10 method; Text ", Address 0x"; Padded 16 8 address]
    else [Text "Available: "; Numeral 10 method]
  else
    if alt then [Text "BIOS Vendor/OEM-specific: Method "; Numeral 10 method; Text ", Address 0x"; Padded 16 8 address]
    else [Text "OEM-specific: "; Numeral 10 method].

(* the error messages *)
Definition entry_error_words (e : InvalidEntryPointError) : list piece :=
  match e with
  | NotFound => [Text "Input did not contain a valid SMBIOS entry point"]
  | TooOldVersion version => [Text "Input version number was below 2.0: "; Numeral 10 version]
  | EpBadSize size => [Text "Input contained an invalid-sized SMBIOS entry: "; Numeral 10 size]
  | BadChecksum checksum => [Text "SMBIOS entry point has an invalid checksum: "; Numeral 10 checksum]
  end.
(* ... where [k] is the type number of the structure the error is about *)
Definition structure_error_words (k : N) (e : MalformedStructureError) : list piece :=
  match e with
  | BadSize offset length =>
      [Text "Structure at offset "; Numeral 10 offset; Text " with length "; Numeral 10 length; Text " extends beyond SMBIOS"]
  | UnterminatedStrings offset => [Text "Structure at offset "; Numeral 10 offset; Text " with unterminated strings"]
  | InvalidStringIndex _ handle index =>
      [Text "Structure "] ++ InfoType_label k ++
      [Text " with handle "; Numeral 10 handle; Text " has invalid string index "; Numeral 10 index]
  | InvalidSlice => [Text "could not convert slice to array"]
  | InvalidFormattedSectionLength _ handle spec length =>
      [Text "Formatted section length of structure "] ++ InfoType_label k ++
      [Text " with handle "; Numeral 10 handle; Text " should be "; Text spec; Numeral 10 length; Text " bytes"]
  end.
(* the type an error is about, if it is about one *)
Definition error_type (e : MalformedStructureError) : option InfoType :=
  match e with
  | InvalidStringIndex i _ _ | InvalidFormattedSectionLength i _ _ _ => Some i
  | _ => None
  end.
