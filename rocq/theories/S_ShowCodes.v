(* Generated by tools/gen_showcodes.py; do not edit by hand.  Specification for C87: the codes
   of the enumerations, and the name that the developer text gives for each of them.  The
   tables are those of the `impl From<..> for` blocks of /repo/src. *)
From Coq Require Import String.
From Verif Require Import Base G_Enums M_Show G_Show S_Text S_ShowFields.
Local Open Scope string_scope.
Local Open Scope N_scope.

(* the codes from .. to .. have that name; [numbered]: the code is written with it *)
Record row := { first_code : N; last_code : N; called : string; numbered : bool }.
Definition row_for (k : N) (name : string) : row := {| first_code := k; last_code := k; called := name; numbered := false |}.
Definition row_with (first last : N) (name : string) : row := {| first_code := first; last_code := last; called := name; numbered := true |}.
Definition row_of (rows : list row) (k : N) : option row := find (fun r => (first_code r <=? k) && (k <=? last_code r)) rows.

(* the text for a code; [other] is the name of the codes without a row, which are written with it *)
Definition code_text (wide : bool) (depth : nat) (rows : list row) (other : string) (k : N) (s : string) : Prop :=
  let with_number name := exists n, numeral 10 n k /\ s = enclosed wide depth (name ++ "(") "" ")" [n] in
  match row_of rows k with
  | Some r => if numbered r then with_number (called r) else s = called r
  | None => with_number other
  end.

(* src/lib.rs:715 *)
Definition InfoType_texts : list row := [
  row_for 0 "Bios";
  row_for 1 "System";
  row_for 2 "BaseBoard";
  row_for 3 "Enclosure";
  row_for 4 "Processor";
  row_for 7 "Cache";
  row_for 8 "PortConnector";
  row_for 9 "SystemSlots";
  row_for 11 "OemStrings";
  row_for 12 "SystemConfigurationOptions";
  row_for 13 "BiosLanguage";
  row_for 14 "GroupAssociations";
  row_for 15 "SystemEventLog";
  row_for 16 "PhysicalMemoryArray";
  row_for 17 "MemoryDevice";
  row_for 18 "MemoryError32";
  row_for 19 "MemoryArrayMappedAddress";
  row_for 20 "MemoryDeviceMappedAddress";
  row_for 21 "BuiltInPointingDevice";
  row_for 22 "PortableBattery";
  row_for 32 "SystemBoot";
  row_for 127 "End"].
(* src/structures/001_system.rs:26 *)
Definition WakeupType_texts : list row := [
  row_for 0 "Reserved";
  row_for 1 "Other";
  row_for 2 "Unknown";
  row_for 3 "APM_Timer";
  row_for 4 "Modem_Ring";
  row_for 5 "LAN_Remote";
  row_for 6 "Power_Switch";
  row_for 7 "PCI_PME";
  row_for 8 "AC_Power_Restored"].
(* src/structures/002_baseboard.rs:31 *)
Definition BoardType_texts : list row := [
  row_for 1 "Unknown";
  row_for 2 "Other";
  row_for 3 "ServerBlade";
  row_for 4 "ConnectivitySwitch";
  row_for 5 "SystemManagementModule";
  row_for 6 "ProcessorModule";
  row_for 7 "IoModule";
  row_for 8 "MemoryModule";
  row_for 9 "DaughterBoard";
  row_for 10 "MotherBoard";
  row_for 11 "ProcessorMemoryModule";
  row_for 12 "ProcessorIoModule";
  row_for 13 "InterconnectBoard"].
(* src/structures/003_enclosure.rs:272 *)
Definition EnclosureType_texts : list row := [
  row_for 0x01 "Other";
  row_for 0x02 "Unknown";
  row_for 0x03 "Desktop";
  row_for 0x04 "LowProfileDesktop";
  row_for 0x05 "PizzaBox";
  row_for 0x06 "MiniTower";
  row_for 0x07 "Tower";
  row_for 0x08 "Portable";
  row_for 0x09 "Laptop";
  row_for 0x0A "Notebook";
  row_for 0x0B "HandHeld";
  row_for 0x0C "DockingStation";
  row_for 0x0D "AllInOne";
  row_for 0x0E "SubNotebook";
  row_for 0x0F "SpaceSaving";
  row_for 0x10 "LunchBox";
  row_for 0x11 "MainServerChassis";
  row_for 0x12 "ExpansionChassis";
  row_for 0x13 "SubChassis";
  row_for 0x14 "BusExpansionChassis";
  row_for 0x15 "PeripheralChassis";
  row_for 0x16 "RaidChassis";
  row_for 0x17 "RackMountChassis";
  row_for 0x18 "SealedCasePc";
  row_for 0x19 "MultiSystemChassis";
  row_for 0x1A "CompactPci";
  row_for 0x1B "AdvancedTca";
  row_for 0x1C "Blade";
  row_for 0x1D "BladeEnclosure";
  row_for 0x1E "Tablet";
  row_for 0x1F "Convertible";
  row_for 0x20 "Detachable";
  row_for 0x21 "IotGateway";
  row_for 0x22 "EmbeddedPc";
  row_for 0x23 "MiniPc";
  row_for 0x24 "StickPc"].
(* src/structures/003_enclosure.rs:359 *)
Definition State_texts : list row := [
  row_for 0x01 "Other";
  row_for 0x02 "Unknown";
  row_for 0x03 "Safe";
  row_for 0x04 "Warning";
  row_for 0x05 "Critical";
  row_for 0x06 "NonRecoverable"].
(* src/structures/003_enclosure.rs:386 *)
Definition SecurityStatus_texts : list row := [
  row_for 0x01 "Other";
  row_for 0x02 "Unknown";
  row_for 0x03 "None";
  row_for 0x04 "ExternalInterfaceLockedOut";
  row_for 0x05 "ExternalInterfaceEnabled"].
(* src/structures/004_processor.rs:28 *)
Definition ProcessorType_texts : list row := [
  row_for 1 "Other";
  row_for 2 "Unknown";
  row_for 3 "CentralProcessor";
  row_for 4 "MathProcessor";
  row_for 5 "DspProcessor";
  row_for 6 "VideoProcessor"].
(* src/structures/004_processor.rs:831 *)
Definition ProcessorFamily_texts : list row := [
  row_for 0x00 "OutOfSpec";
  row_for 0x01 "Other";
  row_for 0x02 "Unknown";
  row_for 0x03 "Intel8086";
  row_for 0x04 "Intel80286";
  row_for 0x05 "Intel386Processor";
  row_for 0x06 "Intel486Processor";
  row_for 0x07 "Intel8087";
  row_for 0x08 "Intel80287";
  row_for 0x09 "Intel80387";
  row_for 0x0A "Intel80487";
  row_for 0x0B "IntelPentiumProcessor";
  row_for 0x0C "PentiumProProcessor";
  row_for 0x0D "PentiumIIProcessor";
  row_for 0x0E "PentiumProcessorWithMMXTechnology";
  row_for 0x0F "IntelCeleronProcessor";
  row_for 0x10 "PentiumIIXeonProcessor";
  row_for 0x11 "PentiumIIIProcessor";
  row_for 0x12 "M1Family";
  row_for 0x13 "M2Family";
  row_for 0x14 "IntelCeleronMProcessor";
  row_for 0x15 "IntelPentium4HTProcessor";
  row_with 0x16 0x17 "Available";
  row_for 0x18 "AMDDuronProcessorFamily";
  row_for 0x19 "K5Family";
  row_for 0x1A "K6Family";
  row_for 0x1B "K62";
  row_for 0x1C "K63";
  row_for 0x1D "AMDAthlonProcessorFamily";
  row_for 0x1E "AMD29000Family";
  row_for 0x1F "K62Plus";
  row_for 0x20 "PowerPCFamily";
  row_for 0x21 "PowerPC601";
  row_for 0x22 "PowerPC603";
  row_for 0x23 "PowerPC603Plus";
  row_for 0x24 "PowerPC604";
  row_for 0x25 "PowerPC620";
  row_for 0x26 "PowerPCX704";
  row_for 0x27 "PowerPC750";
  row_for 0x28 "IntelCoreDuoProcessor";
  row_for 0x29 "IntelCoreDuoMobileProcessor";
  row_for 0x2A "IntelCoreSoloMobileProcessor";
  row_for 0x2B "IntelAtomProcessor";
  row_for 0x2C "IntelCoreMProcessor";
  row_for 0x2D "IntelCoreM3Processor";
  row_for 0x2E "IntelCoreM5Processor";
  row_for 0x2F "IntelCoreM7Processor";
  row_for 0x30 "AlphaFamily";
  row_for 0x31 "Alpha21064";
  row_for 0x32 "Alpha21066";
  row_for 0x33 "Alpha21164";
  row_for 0x34 "Alpha21164PC";
  row_for 0x35 "Alpha21164a";
  row_for 0x36 "Alpha21264";
  row_for 0x37 "Alpha21364";
  row_for 0x38 "AMDTurionIIUltraDualCoreMobileMProcessorFamily";
  row_for 0x39 "AMDTurionIIDualCoreMobileMProcessorFamily";
  row_for 0x3A "AMDAthlonIIDualCoreMProcessorFamily";
  row_for 0x3B "AMDOpteron6100SeriesProcessor";
  row_for 0x3C "AMDOpteron4100SeriesProcessor";
  row_for 0x3D "AMDOpteron6200SeriesProcessor";
  row_for 0x3E "AMDOpteron4200SeriesProcessor";
  row_for 0x3F "AMDFXSeriesProcessor";
  row_for 0x40 "MIPSFamily";
  row_for 0x41 "MIPSR4000";
  row_for 0x42 "MIPSR4200";
  row_for 0x43 "MIPSR4400";
  row_for 0x44 "MIPSR4600";
  row_for 0x45 "MIPSR10000";
  row_for 0x46 "AMDCSeriesProcessor";
  row_for 0x47 "AMDESeriesProcessor";
  row_for 0x48 "AMDASeriesProcessor";
  row_for 0x49 "AMDGSeriesProcessor";
  row_for 0x4A "AMDZSeriesProcessor";
  row_for 0x4B "AMDRSeriesProcessor";
  row_for 0x4C "AMDOpteron4300SeriesProcessor";
  row_for 0x4D "AMDOpteron6300SeriesProcessor";
  row_for 0x4E "AMDOpteron3300SeriesProcessor";
  row_for 0x4F "AMDFireProSeriesProcessor";
  row_for 0x50 "SPARCFamily";
  row_for 0x51 "SuperSPARC";
  row_for 0x52 "MicroSPARCII";
  row_for 0x53 "MicroSPARCIIep";
  row_for 0x54 "UltraSPARC";
  row_for 0x55 "UltraSPARCII";
  row_for 0x56 "UltraSPARCIii";
  row_for 0x57 "UltraSPARCIII";
  row_for 0x58 "UltraSPARCIIIi";
  row_with 0x59 0x5F "Available";
  row_for 0x60 "Motorola68040Family";
  row_for 0x61 "Motorola68xxx";
  row_for 0x62 "Motorola68000";
  row_for 0x63 "Motorola68010";
  row_for 0x64 "Motorola68020";
  row_for 0x65 "Motorola68030";
  row_for 0x66 "AMDAthlonX4QuadCoreProcessorFamily";
  row_for 0x67 "AMDOpteronX1000SeriesProcessor";
  row_for 0x68 "AMDOpteronX2000SeriesAPU";
  row_for 0x69 "AMDOpteronASeriesProcessor";
  row_for 0x6A "AMDOpteronX3000SeriesAPU";
  row_for 0x6B "AMDZenProcessorFamily";
  row_with 0x6C 0x6F "Available";
  row_for 0x70 "HobbitFamily";
  row_with 0x71 0x77 "Available";
  row_for 0x78 "CrusoeTM5000Family";
  row_for 0x79 "CrusoeTM3000Family";
  row_for 0x7A "EfficeonTM8000Family";
  row_with 0x7B 0x7F "Available";
  row_for 0x80 "Weitek";
  row_with 0x81 0x81 "Available";
  row_for 0x82 "ItaniumProcessor";
  row_for 0x83 "AMDAthlon64ProcessorFamily";
  row_for 0x84 "AMDOpteronProcessorFamily";
  row_for 0x85 "AMDSempronProcessorFamily";
  row_for 0x86 "AMDTurion64MobileTechnology";
  row_for 0x87 "DualCoreAMDOpteronProcessorFamily";
  row_for 0x88 "AMDAthlon64X2DualCoreProcessorFamily";
  row_for 0x89 "AMDTurion64X2MobileTechnology";
  row_for 0x8A "QuadCoreAMDOpteronProcessorFamily";
  row_for 0x8B "ThirdGenerationAMDOpteronProcessorFamily";
  row_for 0x8C "AMDPhenomFXQuadCoreProcessorFamily";
  row_for 0x8D "AMDPhenomX4QuadCoreProcessorFamily";
  row_for 0x8E "AMDPhenomX2DualCoreProcessorFamily";
  row_for 0x8F "AMDAthlonX2DualCoreProcessorFamily";
  row_for 0x90 "PARISCFamily";
  row_for 0x91 "PARISC8500";
  row_for 0x92 "PARISC8000";
  row_for 0x93 "PARISC7300LC";
  row_for 0x94 "PARISC7200";
  row_for 0x95 "PARISC7100LC";
  row_for 0x96 "PARISC7100";
  row_with 0x97 0x9F "Available";
  row_for 0xA0 "V30Family";
  row_for 0xA1 "QuadCoreIntelXeonProcessor3200Series";
  row_for 0xA2 "DualCoreIntelXeonProcessor3000Series";
  row_for 0xA3 "QuadCoreIntelXeonProcessor5300Series";
  row_for 0xA4 "DualCoreIntelXeonProcessor5100Series";
  row_for 0xA5 "DualCoreIntelXeonProcessor5000Series";
  row_for 0xA6 "DualCoreIntelXeonProcessorLV";
  row_for 0xA7 "DualCoreIntelXeonProcessorULV";
  row_for 0xA8 "DualCoreIntelXeonProcessor7100Series";
  row_for 0xA9 "QuadCoreIntelXeonProcessor5400Series";
  row_for 0xAA "QuadCoreIntelXeonProcessor";
  row_for 0xAB "DualCoreIntelXeonProcessor5200Series";
  row_for 0xAC "DualCoreIntelXeonProcessor7200Series";
  row_for 0xAD "QuadCoreIntelXeonProcessor7300Series";
  row_for 0xAE "QuadCoreIntelXeonProcessor7400Series";
  row_for 0xAF "MultiCoreIntelXeonProcessor7400Series";
  row_for 0xB0 "PentiumIIIXeonProcessor";
  row_for 0xB1 "PentiumIIIProcessorWithIntelSpeedStepTechnology";
  row_for 0xB2 "Pentium4Processor";
  row_for 0xB3 "IntelXeonProcessor";
  row_for 0xB4 "AS400Family";
  row_for 0xB5 "IntelXeonProcessorMP";
  row_for 0xB6 "AMDAthlonXPProcessorFamily";
  row_for 0xB7 "AMDAthlonMPProcessorFamily";
  row_for 0xB8 "IntelItanium2Processor";
  row_for 0xB9 "IntelPentiumMProcessor";
  row_for 0xBA "IntelCeleronDProcessor";
  row_for 0xBB "IntelPentiumDProcessor";
  row_for 0xBC "IntelPentiumProcessorExtremeEdition";
  row_for 0xBD "IntelCoreSoloProcessor";
  row_for 0xBE "Ambiguous";
  row_for 0xBF "IntelCore2DuoProcessor";
  row_for 0xC0 "IntelCore2SoloProcessor";
  row_for 0xC1 "IntelCore2ExtremeProcessor";
  row_for 0xC2 "IntelCore2QuadProcessor";
  row_for 0xC3 "IntelCore2ExtremeMobileProcessor";
  row_for 0xC4 "IntelCore2DuoMobileProcessor";
  row_for 0xC5 "IntelCore2SoloMobileProcessor";
  row_for 0xC6 "IntelCoreI7Processor";
  row_for 0xC7 "DualCoreIntelCeleronProcessor";
  row_for 0xC8 "IBM390Family";
  row_for 0xC9 "G4";
  row_for 0xCA "G5";
  row_for 0xCB "ESA390G6";
  row_for 0xCC "ZArchitectureBase";
  row_for 0xCD "IntelCoreI5Processor";
  row_for 0xCE "IntelCoreI3Processor";
  row_for 0xCF "IntelCoreI9Processor";
  row_with 0xD0 0xD1 "Available";
  row_for 0xD2 "VIAC7MProcessorFamily";
  row_for 0xD3 "VIAC7DProcessorFamily";
  row_for 0xD4 "VIAC7ProcessorFamily";
  row_for 0xD5 "VIAEdenProcessorFamily";
  row_for 0xD6 "MultiCoreIntelXeonProcessor";
  row_for 0xD7 "DualCoreIntelXeonProcessor3xxxSeries";
  row_for 0xD8 "QuadCoreIntelXeonProcessor3xxxSeries";
  row_for 0xD9 "VIANanoProcessorFamily";
  row_for 0xDA "DualCoreIntelXeonProcessor5xxxSeries";
  row_for 0xDB "QuadCoreIntelXeonProcessor5xxxSeries";
  row_with 0xDC 0xDC "Available";
  row_for 0xDD "DualCoreIntelXeonProcessor7xxxSeries";
  row_for 0xDE "QuadCoreIntelXeonProcessor7xxxSeries";
  row_for 0xDF "MultiCoreIntelXeonProcessor7xxxSeries";
  row_for 0xE0 "MultiCoreIntelXeonProcessor3400Series";
  row_with 0xE1 0xE3 "Available";
  row_for 0xE4 "AMDOpteron3000SeriesProcessor";
  row_for 0xE5 "AMDSempronIIProcessor";
  row_for 0xE6 "EmbeddedAMDOpteronQuadCoreProcessorFamily";
  row_for 0xE7 "AMDPhenomTripleCoreProcessorFamily";
  row_for 0xE8 "AMDTurionUltraDualCoreMobileProcessorFamily";
  row_for 0xE9 "AMDTurionDualCoreMobileProcessorFamily";
  row_for 0xEA "AMDAthlonDualCoreProcessorFamily";
  row_for 0xEB "AMDSempronSIProcessorFamily";
  row_for 0xEC "AMDPhenomIIProcessorFamily";
  row_for 0xED "AMDAthlonIIProcessorFamily";
  row_for 0xEE "SixCoreAMDOpteronProcessorFamily";
  row_for 0xEF "AMDSempronMProcessorFamily";
  row_with 0xF0 0xF9 "Available";
  row_for 0xFA "I860";
  row_for 0xFB "I960";
  row_with 0xFC 0xFD "Available";
  row_for 0xFE "ProcessorFamily2";
  row_with 0xFF 0xFF "NotUsed";
  row_for 0x100 "ARMv7";
  row_for 0x101 "ARMv8";
  row_for 0x102 "ARMv9";
  row_with 0x103 0x103 "Available";
  row_for 0x104 "SH3";
  row_for 0x105 "SH4";
  row_with 0x106 0x117 "Available";
  row_for 0x118 "ARM";
  row_for 0x119 "StrongARM";
  row_with 0x11A 0x12B "Available";
  row_for 0x12C "Cyrix6x86";
  row_for 0x12D "MediaGX";
  row_for 0x12E "MII";
  row_with 0x12F 0x13F "Available";
  row_for 0x140 "WinChip";
  row_with 0x141 0x15D "Available";
  row_for 0x15E "DSP";
  row_with 0x15F 0x1F3 "Available";
  row_for 0x1F4 "VideoProcessor";
  row_with 0x1F5 0x1FF "Available";
  row_for 0x200 "RISCVRV32";
  row_for 0x201 "RISCVRV64";
  row_for 0x202 "RISCVRV128";
  row_with 0x203 0xFFFD "Available";
  row_for 0xFFFE "ForFutureUse";
  row_with 0xFFFF 0xFFFF "NotUsed"].
(* src/structures/004_processor.rs:1511 *)
Definition ProcessorUpgrade_texts : list row := [
  row_for 0x01 "Other";
  row_for 0x02 "Unknown";
  row_for 0x03 "DaughterBoard";
  row_for 0x04 "ZIFSocket";
  row_for 0x05 "ReplaceablePiggyBack";
  row_for 0x06 "None";
  row_for 0x07 "LIFSocket";
  row_for 0x08 "Slot1";
  row_for 0x09 "Slot2";
  row_for 0x0a "Socket370";
  row_for 0x0b "SlotA";
  row_for 0x0c "SlotM";
  row_for 0x0d "Socket423";
  row_for 0x0e "SocketA";
  row_for 0x0f "Socket478";
  row_for 0x10 "Socket754";
  row_for 0x11 "Socket940";
  row_for 0x12 "Socket939";
  row_for 0x13 "SocketmPGA604";
  row_for 0x14 "SocketLGA771";
  row_for 0x15 "SocketLGA775";
  row_for 0x16 "SocketS1";
  row_for 0x17 "SocketAM2";
  row_for 0x18 "SocketF";
  row_for 0x19 "SocketLGA1366";
  row_for 0x1a "SocketG34";
  row_for 0x1b "SocketAM3";
  row_for 0x1c "SocketC32";
  row_for 0x1d "SocketLGA1156";
  row_for 0x1e "SocketLGA1567";
  row_for 0x1f "SocketPGA988A";
  row_for 0x20 "SocketBGA1288";
  row_for 0x21 "SocketrPGA988B";
  row_for 0x22 "SocketBGA1023";
  row_for 0x23 "SocketBGA1224";
  row_for 0x24 "SocketLGA1155";
  row_for 0x25 "SocketLGA1356";
  row_for 0x26 "SocketLGA2011";
  row_for 0x27 "SocketFS1";
  row_for 0x28 "SocketFS2";
  row_for 0x29 "SocketFM1";
  row_for 0x2a "SocketFM2";
  row_for 0x2b "SocketLGA2011Three";
  row_for 0x2c "SocketLGA1356Three";
  row_for 0x2d "SocketLGA1150";
  row_for 0x2e "SocketBGA1168";
  row_for 0x2f "SocketBGA1234";
  row_for 0x30 "SocketBGA1364";
  row_for 0x31 "SocketAM4";
  row_for 0x32 "SocketLGA1151";
  row_for 0x33 "SocketBGA1356";
  row_for 0x34 "SocketBGA1440";
  row_for 0x35 "SocketBGA1515";
  row_for 0x36 "SocketLGA3647";
  row_for 0x37 "SocketSP3";
  row_for 0x38 "SocketSP3r2";
  row_for 0x39 "SocketLGA2066";
  row_for 0x3a "SocketBGA1392";
  row_for 0x3b "SocketBGA1510";
  row_for 0x3c "SocketBGA1528";
  row_for 0x3d "SocketLGA4189";
  row_for 0x3e "SocketLGA1200"].
(* src/structures/007_cache.rs:305 *)
Definition CacheLevel_texts : list row := [
  row_for 0 "L1";
  row_for 1 "L2";
  row_for 2 "L3";
  row_for 3 "L4";
  row_for 4 "L5";
  row_for 5 "L6";
  row_for 6 "L7";
  row_for 7 "L8"].
(* src/structures/007_cache.rs:335 *)
Definition CacheLocation_texts : list row := [
  row_for 0 "Internal";
  row_for 1 "External";
  row_for 2 "Reserved";
  row_for 3 "Unknown"].
(* src/structures/007_cache.rs:357 *)
Definition CacheOperationalMode_texts : list row := [
  row_for 0 "WriteThrough";
  row_for 1 "WriteBack";
  row_for 2 "ValuesWithMemoryAddress";
  row_for 3 "Unknown"].
(* src/structures/007_cache.rs:379 *)
Definition CacheErrorCorrectionType_texts : list row := [
  row_for 0x01 "Other";
  row_for 0x02 "Unknown";
  row_for 0x03 "None";
  row_for 0x04 "Parity";
  row_for 0x05 "SingleBitEcc";
  row_for 0x06 "MultiBitEcc"].
(* src/structures/007_cache.rs:406 *)
Definition SystemCacheType_texts : list row := [
  row_for 0x01 "Other";
  row_for 0x02 "Unknown";
  row_for 0x03 "Instruction";
  row_for 0x04 "Data";
  row_for 0x05 "Unified"].
(* src/structures/007_cache.rs:431 *)
Definition CacheAssociativity_texts : list row := [
  row_for 0x01 "Other";
  row_for 0x02 "Unknown";
  row_for 0x03 "DirectMapped";
  row_for 0x04 "TwowaySetAssociative";
  row_for 0x05 "FourWaySetAssociative";
  row_for 0x06 "FullyAssociative";
  row_for 0x07 "EightWaySetAssociative";
  row_for 0x08 "SixteenWaySetAssociative";
  row_for 0x09 "TwelveWaySetAssociative";
  row_for 0x0A "TwentyFourWaySetAssociative";
  row_for 0x0B "ThirtyTwoWaySetAssociative";
  row_for 0x0C "FourtyEightWaySetAssociative";
  row_for 0x0D "SixtyFourWaySetAssociative";
  row_for 0x0E "TwentyWaySetAssociative"].
(* src/structures/008_port_connector.rs:152 *)
Definition ConnectorType_texts : list row := [
  row_for 0x00 "None";
  row_for 0x01 "Centronics";
  row_for 0x02 "MiniCentronics";
  row_for 0x03 "Proprietary";
  row_for 0x04 "Db25PinMale";
  row_for 0x05 "Db25PinFemale";
  row_for 0x06 "Db15PinMale";
  row_for 0x07 "Db15PinFemale";
  row_for 0x08 "Db9PinMale";
  row_for 0x09 "Db9PinFemale";
  row_for 0x0A "Rj11";
  row_for 0x0B "Rj45";
  row_for 0x0C "MiniScsi";
  row_for 0x0D "MiniDin";
  row_for 0x0E "MicroDin";
  row_for 0x0F "Ps2";
  row_for 0x10 "Infrared";
  row_for 0x11 "HpHil";
  row_for 0x12 "AccessBus";
  row_for 0x13 "SsaScsi";
  row_for 0x14 "CircularDin8Male";
  row_for 0x15 "CircularDin8Female";
  row_for 0x16 "OnBoardIde";
  row_for 0x17 "OnBoardFloppy";
  row_for 0x18 "DualInline9";
  row_for 0x19 "DualInline25";
  row_for 0x1A "DualInline50";
  row_for 0x1B "DualInline68";
  row_for 0x1C "OnBoardSoundInputFromCdRom";
  row_for 0x1D "MiniCentronicsType14";
  row_for 0x1E "MiniCentronicsType26";
  row_for 0x1F "MiniJack";
  row_for 0x20 "Bnc";
  row_for 0x21 "Ieee1394";
  row_for 0x22 "SasSataPlugReceptacle";
  row_for 0x23 "UsbTypeCReceptacle";
  row_for 0xA0 "Pc98";
  row_for 0xA1 "Pc98Hireso";
  row_for 0xA2 "PcH98";
  row_for 0xA3 "Pc98Note";
  row_for 0xA4 "Pc98Full";
  row_for 0xFF "Other"].
(* src/structures/008_port_connector.rs:251 *)
Definition PortType_texts : list row := [
  row_for 0x00 "None";
  row_for 0x01 "ParallelPortXtAtCompatible";
  row_for 0x02 "ParallelPortPs2";
  row_for 0x03 "ParallelPortEcp";
  row_for 0x04 "ParallelPortEpp";
  row_for 0x05 "ParallelPortEcpEpp";
  row_for 0x06 "SerialPortXtAtCompatible";
  row_for 0x07 "SerialPort16450Compatible";
  row_for 0x08 "SerialPort16550Compatible";
  row_for 0x09 "SerialPort16550ACompatible";
  row_for 0x0A "ScsiPort";
  row_for 0x0B "MidiPort";
  row_for 0x0C "JoyStickPort";
  row_for 0x0D "KeyboardPort";
  row_for 0x0E "MousePort";
  row_for 0x0F "SsaScsi";
  row_for 0x10 "Usb";
  row_for 0x11 "FireWire";
  row_for 0x12 "PcmciaType1";
  row_for 0x13 "PcmciaType2";
  row_for 0x14 "PcmciaType3";
  row_for 0x15 "Cardbus";
  row_for 0x16 "AccessBusPort";
  row_for 0x17 "Scsi2";
  row_for 0x18 "ScsiWide";
  row_for 0x19 "Pc98";
  row_for 0x1A "Pc98Hireso";
  row_for 0x1B "PcH98";
  row_for 0x1C "VideoPort";
  row_for 0x1D "AudioPort";
  row_for 0x1E "ModemPort";
  row_for 0x1F "NetworkPort";
  row_for 0x20 "Sata";
  row_for 0x21 "Sas";
  row_for 0x22 "MultiFunctionDisplayPort";
  row_for 0x23 "Thunderbolt";
  row_for 0xA0 "Intel8251Compatible";
  row_for 0xA1 "Intel8251FifoCompatible";
  row_for 0xFF "Other"].
(* src/structures/009_system_slots.rs:407 *)
Definition SlotType_texts : list row := [
  row_for 0x01 "Other";
  row_for 0x02 "Unknown";
  row_for 0x03 "Isa";
  row_for 0x04 "Mca";
  row_for 0x05 "Eisa";
  row_for 0x06 "Pci";
  row_for 0x07 "PcCard";
  row_for 0x08 "VlVesa";
  row_for 0x09 "Proprietary";
  row_for 0x0A "ProcessorCardSlot";
  row_for 0x0B "ProprietaryMemoryCardSlot";
  row_for 0x0C "IoRiserCardSlot";
  row_for 0x0D "Nubus";
  row_for 0x0E "Pci66Mhz";
  row_for 0x0F "Agp";
  row_for 0x10 "Agp2x";
  row_for 0x11 "Agp4x";
  row_for 0x12 "PciX";
  row_for 0x13 "Agp8x";
  row_for 0x14 "M2Socket1DP";
  row_for 0x15 "M2Socket1SD";
  row_for 0x16 "M2Socket2";
  row_for 0x17 "M2Socket3";
  row_for 0x18 "MxmType1";
  row_for 0x19 "MxmType2";
  row_for 0x1A "MxmType3";
  row_for 0x1B "MxmType3He";
  row_for 0x1C "MxmType4";
  row_for 0x1D "Mxm3TypeA";
  row_for 0x1E "Mxm3TypeB";
  row_for 0x1F "PciExpressGen2";
  row_for 0x20 "PciExpressGen3";
  row_for 0x21 "PciExpressMini52pin1";
  row_for 0x22 "PciExpressMini52pin2";
  row_for 0x23 "PciExpressMini76pin";
  row_for 0x24 "PciExpressGen4";
  row_for 0x25 "PciExpressGen5";
  row_for 0x26 "OcpNic3Small";
  row_for 0x27 "OcpNic3Large";
  row_for 0x28 "OcpNicPriorTo3";
  row_for 0x30 "CxlFlexbus1";
  row_for 0xA0 "Pc98C20";
  row_for 0xA1 "Pc98C24";
  row_for 0xA2 "Pc98E";
  row_for 0xA3 "Pc98LocalBus";
  row_for 0xA4 "Pc98Card";
  row_for 0xA5 "PciExpress";
  row_for 0xA6 "PciExpressX1";
  row_for 0xA7 "PciExpressX2";
  row_for 0xA8 "PciExpressX4";
  row_for 0xA9 "PciExpressX8";
  row_for 0xAA "PciExpressX16";
  row_for 0xAB "PciExpressGen2";
  row_for 0xAC "PciExpressGen2x1";
  row_for 0xAD "PciExpressGen2x2";
  row_for 0xAE "PciExpressGen2x4";
  row_for 0xAF "PciExpressGen2x8";
  row_for 0xB0 "PciExpressGen2x16";
  row_for 0xB1 "PciExpressGen3";
  row_for 0xB2 "PciExpressGen3x1";
  row_for 0xB3 "PciExpressGen3x2";
  row_for 0xB4 "PciExpressGen3x4";
  row_for 0xB5 "PciExpressGen3x8";
  row_for 0xB6 "PciExpressGen3x16";
  row_for 0xB8 "PciExpressGen4";
  row_for 0xB9 "PciExpressGen4x1";
  row_for 0xBA "PciExpressGen4x2";
  row_for 0xBB "PciExpressGen4x4";
  row_for 0xBC "PciExpressGen4x8";
  row_for 0xBD "PciExpressGen4x16";
  row_for 0xBE "PciExpressGen5";
  row_for 0xBF "PciExpressGen5x1";
  row_for 0xC0 "PciExpressGen5x2";
  row_for 0xC1 "PciExpressGen5x4";
  row_for 0xC2 "PciExpressGen5x8";
  row_for 0xC3 "PciExpressGen5x16";
  row_for 0xC4 "PciExpressGen6";
  row_for 0xC5 "E1FormFactorSlot";
  row_for 0xC6 "E3FormFactorSlot"].
(* src/structures/009_system_slots.rs:634 *)
Definition SlotWidth_texts : list row := [
  row_for 0x01 "Other";
  row_for 0x02 "Unknown";
  row_for 0x03 "Byte";
  row_for 0x04 "Word";
  row_for 0x05 "Dword";
  row_for 0x06 "Qword";
  row_for 0x07 "Dqword";
  row_for 0x08 "X1";
  row_for 0x09 "X2";
  row_for 0x0A "X4";
  row_for 0x0B "X8";
  row_for 0x0C "X12";
  row_for 0x0D "X16";
  row_for 0x0E "X32"].
(* src/structures/009_system_slots.rs:677 *)
Definition CurrentUsage_texts : list row := [
  row_for 0x01 "Other";
  row_for 0x02 "Unknown";
  row_for 0x03 "Available";
  row_for 0x04 "InUse";
  row_for 0x05 "Unavailable"].
(* src/structures/009_system_slots.rs:709 *)
Definition SlotLength_texts : list row := [
  row_for 0x01 "Other";
  row_for 0x02 "Unknown";
  row_for 0x03 "ShortLength";
  row_for 0x04 "LongLength";
  row_for 0x05 "DriveFormFactor2_5";
  row_for 0x06 "DriveFormFactor3_5"].
(* src/structures/015_system_event_log/log_record_format.rs:220 *)
Definition EventLogType_texts : list row := [
  row_with 0x00 0x00 "Reserved";
  row_with 0x0F 0x0F "Reserved";
  row_for 0x01 "SingleBitEccMemoryError";
  row_for 0x02 "MultiBitEccMemoryError";
  row_for 0x03 "ParityMemoryError";
  row_for 0x04 "BusTimeOut";
  row_for 0x05 "IoChannelCheck";
  row_for 0x06 "SoftwareNmi";
  row_for 0x07 "PostMemoryResize";
  row_for 0x08 "PostError";
  row_for 0x09 "PciParityError";
  row_for 0x0A "PciSystemError";
  row_for 0x0B "CpuFailure";
  row_for 0x0C "EisaFailSafeTimerTimeOut";
  row_for 0x0D "CorrectableMemoryLogDisabled";
  row_for 0x0E "LoggingDisabledForSpecificEventType";
  row_for 0x10 "SystemLimitExceeded";
  row_for 0x11 "AsynchronousHardwareTimerExpired";
  row_for 0x12 "SystemConfigurationInformation";
  row_for 0x13 "HardDiskInformation";
  row_for 0x14 "SystemReconfigured";
  row_for 0x15 "UncorrectableCpuComplexError";
  row_for 0x16 "LogAreaReset";
  row_for 0x17 "SystemBoot";
  row_with 0x18 0x7F "Unused";
  row_with 0x80 0xFE "Available";
  row_for 0xFF "EndOfLog"].
(* src/structures/015_system_event_log/mod.rs:334 *)
Definition LogHeaderFormat_texts : list row := [
  row_for 0x00 "NoHeader";
  row_for 0x01 "LogHeaderType1";
  row_with 0x80 0xFF "OemSpecific"].
(* src/structures/016_physical_memory_array.rs:32 *)
Definition MemoryArrayLocation_texts : list row := [
  row_for 1 "Other";
  row_for 2 "Unknown";
  row_for 3 "SystemBoardOrMotherboard";
  row_for 4 "IsaAddOnCard";
  row_for 5 "EisaAddOnCard";
  row_for 6 "PciAddOnCard";
  row_for 7 "McaAddOnCard";
  row_for 8 "PcmciaAddOnCard";
  row_for 9 "ProprietaryAddOnCard";
  row_for 10 "NuBus";
  row_for 11 "Pc98c20AddOnCard";
  row_for 12 "Pc98c24AddOnCard";
  row_for 13 "Pc98eAddOnCard";
  row_for 14 "Pc98LocalBusAddOnCard";
  row_for 15 "CxlAddOnCard"].
(* src/structures/016_physical_memory_array.rs:91 *)
Definition MemoryArrayUse_texts : list row := [
  row_for 1 "Other";
  row_for 2 "Unknown";
  row_for 3 "SystemMemory";
  row_for 4 "VideoMemory";
  row_for 5 "FlashMemory";
  row_for 6 "NonVolatileRam";
  row_for 7 "CacheMemory"].
(* src/structures/016_physical_memory_array.rs:134 *)
Definition MemoryArrayErrorCorrectionTypes_texts : list row := [
  row_for 1 "Other";
  row_for 2 "Unknown";
  row_for 3 "None";
  row_for 4 "Parity";
  row_for 5 "SingleBitEcc";
  row_for 6 "MultiBitEcc";
  row_for 7 "CRC"].
(* src/structures/017_memory_device.rs:25 *)
Definition MDErrorGranularity_texts : list row := [
  row_for 1 "Other";
  row_for 2 "Unknown";
  row_for 3 "DeviceLevel";
  row_for 4 "MemoryLevel"].
(* src/structures/017_memory_device.rs:47 *)
Definition MDErrorOperation_texts : list row := [
  row_for 1 "Other";
  row_for 2 "Unknown";
  row_for 3 "Read";
  row_for 4 "Write";
  row_for 5 "PartialWrite"].
(* src/structures/017_memory_device.rs:79 *)
Definition MDErrorType_texts : list row := [
  row_for 1 "Other";
  row_for 2 "Unknown";
  row_for 3 "Ok";
  row_for 4 "BadRead";
  row_for 5 "Parity";
  row_for 6 "SingleBit";
  row_for 7 "DoubleBit";
  row_for 8 "MultiBit";
  row_for 9 "Nibble";
  row_for 10 "Checksum";
  row_for 11 "Crc";
  row_for 12 "CorrectedSingleBit";
  row_for 13 "Corrected";
  row_for 14 "Uncorrectable"].
(* src/structures/017_memory_device.rs:122 *)
Definition FormFactor_texts : list row := [
  row_for 0 "Other";
  row_for 1 "Unknown";
  row_for 2 "Simm";
  row_for 3 "Sip";
  row_for 4 "Chip";
  row_for 5 "Dip";
  row_for 6 "Zip";
  row_for 7 "ProprietaryCard";
  row_for 8 "Dimm";
  row_for 9 "Dimm";
  row_for 10 "Tsop";
  row_for 11 "RowOfChips";
  row_for 12 "Rimm";
  row_for 13 "SoDimm";
  row_for 14 "Srimm";
  row_for 15 "FbDimm"].
(* src/structures/017_memory_device.rs:159 *)
Definition MemoryTechnology_texts : list row := [
  row_for 1 "Other";
  row_for 2 "Unknown";
  row_for 3 "Dram";
  row_for 4 "NvDimmN";
  row_for 5 "NvDimmF";
  row_for 6 "NvDimmP";
  row_for 7 "IntelOptane"].
(* src/structures/017_memory_device.rs:213 *)
Definition MemoryType_texts : list row := [
  row_for 1 "Other";
  row_for 2 "Unknown";
  row_for 3 "Dram";
  row_for 4 "Edram";
  row_for 5 "Vram";
  row_for 6 "Sram";
  row_for 7 "Ram";
  row_for 8 "Rom";
  row_for 9 "Flash";
  row_for 10 "Eeprom";
  row_for 11 "Feprom";
  row_for 12 "Eprom";
  row_for 13 "Cdram";
  row_for 14 "ThreeDram";
  row_for 15 "Sdram";
  row_for 16 "Sgram";
  row_for 17 "Rdram";
  row_for 18 "Ddr";
  row_for 19 "Ddr2";
  row_for 20 "Ddr2FbDimm";
  row_for 21 "Reserved";
  row_for 22 "Reserved";
  row_for 23 "Reserved";
  row_for 24 "Ddr3";
  row_for 25 "Fbd2";
  row_for 26 "Ddr4";
  row_for 27 "LpDdr";
  row_for 28 "LpDdr2";
  row_for 29 "LpDdr3";
  row_for 30 "LpDdr4";
  row_for 31 "LogicalNonVolatileDevice";
  row_for 32 "Hbm";
  row_for 33 "Hbm2";
  row_for 34 "Ddr5";
  row_for 35 "LpDdr5"].
(* src/structures/018_memory_error_32.rs:102 *)
Definition MEErrorType_texts : list row := [
  row_for 0x01 "Other";
  row_for 0x02 "Unknown";
  row_for 0x03 "Ok";
  row_for 0x04 "BadRead";
  row_for 0x05 "ParityError";
  row_for 0x06 "SingleBitError";
  row_for 0x07 "DoubleBitError";
  row_for 0x08 "MultiBitError";
  row_for 0x09 "NibbleError";
  row_for 0x0a "ChecksumError";
  row_for 0x0b "CrcError";
  row_for 0x0c "CorrectedSingleBitError";
  row_for 0x0d "CorrectedError";
  row_for 0x0e "UncorrectableError"].
(* src/structures/018_memory_error_32.rs:145 *)
Definition MEErrorGranularity_texts : list row := [
  row_for 0x01 "Other";
  row_for 0x02 "Unknown";
  row_for 0x03 "DeviceLevel";
  row_for 0x04 "MemoryPartitionLevel"].
(* src/structures/018_memory_error_32.rs:168 *)
Definition MEErrorOperation_texts : list row := [
  row_for 0x01 "Other";
  row_for 0x02 "Unknown";
  row_for 0x03 "Read";
  row_for 0x04 "Write";
  row_for 0x05 "PartialWrite"].
(* src/structures/021_built_in_pointing_device.rs:85 *)
Definition PointingDeviceType_texts : list row := [
  row_for 0x01 "Other";
  row_for 0x02 "Unknown";
  row_for 0x03 "Mouse";
  row_for 0x04 "TrackBall";
  row_for 0x05 "TrackPoint";
  row_for 0x06 "GlidePoint";
  row_for 0x07 "TouchPad";
  row_for 0x08 "TouchScreen";
  row_for 0x09 "OpticalSensor"].
(* src/structures/021_built_in_pointing_device.rs:118 *)
Definition PointingDeviceInterface_texts : list row := [
  row_for 0x01 "Other";
  row_for 0x02 "Unknown";
  row_for 0x03 "Serial";
  row_for 0x04 "Ps2";
  row_for 0x05 "Infrared";
  row_for 0x06 "HpHil";
  row_for 0x07 "BusMouse";
  row_for 0x08 "Adb";
  row_for 0xA0 "BusMouseDb9";
  row_for 0xA1 "BusMouseMicroDin";
  row_for 0xA2 "Usb"].

(* the enumerations: how many codes there are, what the value decoded from a code tells the
   formatter, the table, and the name for the other codes *)
Definition coded_types : list (N * (N -> out tree) * list row * string) := [
  (256, (fun k => Val (InfoType_tree (InfoType_from k))), InfoType_texts, "Oem");
  (256, (fun k => Val (WakeupType_tree (WakeupType_from k))), WakeupType_texts, "Undefined");
  (256, (fun k => Val (BoardType_tree (BoardType_from k))), BoardType_texts, "Undefined");
  (256, (fun k => Val (EnclosureType_tree (EnclosureType_from k))), EnclosureType_texts, "Undefined");
  (256, (fun k => Val (State_tree (State_from k))), State_texts, "Undefined");
  (256, (fun k => Val (SecurityStatus_tree (SecurityStatus_from k))), SecurityStatus_texts, "Undefined");
  (256, (fun k => Val (ProcessorType_tree (ProcessorType_from k))), ProcessorType_texts, "Undefined");
  (65536, (fun k => Val (ProcessorFamily_tree (ProcessorFamily_from k))), ProcessorFamily_texts, "");
  (256, (fun k => Val (ProcessorUpgrade_tree (ProcessorUpgrade_from k))), ProcessorUpgrade_texts, "Undefined");
  (8, (fun k => let! x := CacheLevel_from k in Val (CacheLevel_tree x)), CacheLevel_texts, "");
  (4, (fun k => let! x := CacheLocation_from k in Val (CacheLocation_tree x)), CacheLocation_texts, "");
  (4, (fun k => let! x := CacheOperationalMode_from k in Val (CacheOperationalMode_tree x)), CacheOperationalMode_texts, "");
  (256, (fun k => Val (CacheErrorCorrectionType_tree (CacheErrorCorrectionType_from k))), CacheErrorCorrectionType_texts, "Undefined");
  (256, (fun k => Val (SystemCacheType_tree (SystemCacheType_from k))), SystemCacheType_texts, "Undefined");
  (256, (fun k => Val (CacheAssociativity_tree (CacheAssociativity_from k))), CacheAssociativity_texts, "Undefined");
  (256, (fun k => Val (ConnectorType_tree (ConnectorType_from k))), ConnectorType_texts, "Undefined");
  (256, (fun k => Val (PortType_tree (PortType_from k))), PortType_texts, "Undefined");
  (256, (fun k => Val (SlotType_tree (SlotType_from k))), SlotType_texts, "Undefined");
  (256, (fun k => Val (SlotWidth_tree (SlotWidth_from k))), SlotWidth_texts, "Undefined");
  (256, (fun k => Val (CurrentUsage_tree (CurrentUsage_from k))), CurrentUsage_texts, "Undefined");
  (256, (fun k => Val (SlotLength_tree (SlotLength_from k))), SlotLength_texts, "Undefined");
  (256, (fun k => Val (EventLogType_tree (EventLogType_from k))), EventLogType_texts, "");
  (256, (fun k => Val (LogHeaderFormat_tree (LogHeaderFormat_from k))), LogHeaderFormat_texts, "Available");
  (256, (fun k => Val (MemoryArrayLocation_tree (MemoryArrayLocation_from k))), MemoryArrayLocation_texts, "Undefined");
  (256, (fun k => Val (MemoryArrayUse_tree (MemoryArrayUse_from k))), MemoryArrayUse_texts, "Undefined");
  (256, (fun k => Val (MemoryArrayErrorCorrectionTypes_tree (MemoryArrayErrorCorrectionTypes_from k))), MemoryArrayErrorCorrectionTypes_texts, "Undefined");
  (256, (fun k => Val (MDErrorGranularity_tree (MDErrorGranularity_from k))), MDErrorGranularity_texts, "Undefined");
  (256, (fun k => Val (MDErrorOperation_tree (MDErrorOperation_from k))), MDErrorOperation_texts, "Undefined");
  (256, (fun k => Val (MDErrorType_tree (MDErrorType_from k))), MDErrorType_texts, "Undefined");
  (256, (fun k => Val (FormFactor_tree (FormFactor_from k))), FormFactor_texts, "Undefined");
  (256, (fun k => Val (MemoryTechnology_tree (MemoryTechnology_from k))), MemoryTechnology_texts, "Undefined");
  (256, (fun k => Val (MemoryType_tree (MemoryType_from k))), MemoryType_texts, "Undefined");
  (256, (fun k => Val (MEErrorType_tree (MEErrorType_from k))), MEErrorType_texts, "Undefined");
  (256, (fun k => Val (MEErrorGranularity_tree (MEErrorGranularity_from k))), MEErrorGranularity_texts, "Undefined");
  (256, (fun k => Val (MEErrorOperation_tree (MEErrorOperation_from k))), MEErrorOperation_texts, "Undefined");
  (256, (fun k => Val (PointingDeviceType_tree (PointingDeviceType_from k))), PointingDeviceType_texts, "Undefined");
  (256, (fun k => Val (PointingDeviceInterface_tree (PointingDeviceInterface_from k))), PointingDeviceInterface_texts, "Undefined")].
