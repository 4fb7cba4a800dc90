(* Generated by tools/gen_enums.py from /repo/src; do not edit by hand.
   Every definition cites the lines it transliterates.  A `match` with
   literal, range or binding patterns becomes a chain of comparisons in the
   same order.  Where the Rust match is exhaustive without a wildcard (the
   scrutinee is a u8 or u16) the last arm is the final `else`.
   `unreachable!()` becomes [Panic].  The boolean argument of `X_display` is
   the formatter's alternate flag (`{:#}`). *)
From Coq Require Import String.
From Verif Require Import Base.
Local Open Scope string_scope.
Local Open Scope N_scope.

(* src/lib.rs:689-713 `enum InfoType` *)
Inductive InfoType : Type :=
| InfoType_Bios
| InfoType_System
| InfoType_BaseBoard
| InfoType_Enclosure
| InfoType_Processor
| InfoType_Cache
| InfoType_PortConnector
| InfoType_SystemSlots
| InfoType_OemStrings
| InfoType_SystemConfigurationOptions
| InfoType_GroupAssociations
| InfoType_SystemEventLog
| InfoType_BiosLanguage
| InfoType_PhysicalMemoryArray
| InfoType_MemoryDevice
| InfoType_MemoryError32
| InfoType_MemoryArrayMappedAddress
| InfoType_MemoryDeviceMappedAddress
| InfoType_BuiltInPointingDevice
| InfoType_PortableBattery
| InfoType_SystemBoot
| InfoType_Oem (v : N)
| InfoType_End.

(* src/lib.rs:715-743 `impl From<u8> for InfoType` *)
Definition InfoType_from (byte : N) : InfoType :=
  if (byte =? 0) then InfoType_Bios else
  if (byte =? 1) then InfoType_System else
  if (byte =? 2) then InfoType_BaseBoard else
  if (byte =? 3) then InfoType_Enclosure else
  if (byte =? 4) then InfoType_Processor else
  if (byte =? 7) then InfoType_Cache else
  if (byte =? 8) then InfoType_PortConnector else
  if (byte =? 9) then InfoType_SystemSlots else
  if (byte =? 11) then InfoType_OemStrings else
  if (byte =? 12) then InfoType_SystemConfigurationOptions else
  if (byte =? 13) then InfoType_BiosLanguage else
  if (byte =? 14) then InfoType_GroupAssociations else
  if (byte =? 15) then InfoType_SystemEventLog else
  if (byte =? 16) then InfoType_PhysicalMemoryArray else
  if (byte =? 17) then InfoType_MemoryDevice else
  if (byte =? 18) then InfoType_MemoryError32 else
  if (byte =? 19) then InfoType_MemoryArrayMappedAddress else
  if (byte =? 20) then InfoType_MemoryDeviceMappedAddress else
  if (byte =? 21) then InfoType_BuiltInPointingDevice else
  if (byte =? 22) then InfoType_PortableBattery else
  if (byte =? 32) then InfoType_SystemBoot else
  if (byte =? 127) then InfoType_End else
  InfoType_Oem byte.

(* src/lib.rs:744-797 `impl fmt::Display for InfoType` *)
Definition InfoType_display (alt : bool) (x : InfoType) : string :=
  match x with
  | InfoType_Bios => "BIOS Information"
  | InfoType_System => "System Information"
  | InfoType_BaseBoard => "Baseboard (or Module) Information"
  | InfoType_Enclosure => "System Enclosure or Chassis"
  | InfoType_Processor => "Processor Information"
  | InfoType_Cache => "Cache Information"
  | InfoType_PortConnector => "Port Connector Information"
  | InfoType_SystemSlots => "System Slots"
  | InfoType_OemStrings => "OEM Strings"
  | InfoType_SystemConfigurationOptions => "System Configuration Options"
  | InfoType_BiosLanguage => "BIOS Language Information"
  | InfoType_GroupAssociations => "Group Associations"
  | InfoType_SystemEventLog => "System Event Log"
  | InfoType_PhysicalMemoryArray => "Physical Memory Array"
  | InfoType_MemoryDevice => "Memory Device"
  | InfoType_MemoryError32 => "32-Bit Memory Error Information"
  | InfoType_MemoryArrayMappedAddress => "Memory Array Mapped Address"
  | InfoType_MemoryDeviceMappedAddress => "Memory Device Mapped Address"
  | InfoType_BuiltInPointingDevice => "Built-in Pointing Device"
  | InfoType_PortableBattery => "Portable Battery"
  | InfoType_SystemBoot => "System Boot Information"
  | InfoType_End => "End-of-Table"
  | InfoType_Oem t => "OEM: " ++ show_dec t
  end.

(* src/structures/001_system.rs:13-24 `enum WakeupType` *)
Inductive WakeupType : Type :=
| WakeupType_Reserved
| WakeupType_Other
| WakeupType_Unknown
| WakeupType_APM_Timer
| WakeupType_Modem_Ring
| WakeupType_LAN_Remote
| WakeupType_Power_Switch
| WakeupType_PCI_PME
| WakeupType_AC_Power_Restored
| WakeupType_Undefined (v : N).

(* src/structures/001_system.rs:26-41 `impl From<u8> for WakeupType` *)
Definition WakeupType_from (byte : N) : WakeupType :=
  if (byte =? 0) then WakeupType_Reserved else
  if (byte =? 1) then WakeupType_Other else
  if (byte =? 2) then WakeupType_Unknown else
  if (byte =? 3) then WakeupType_APM_Timer else
  if (byte =? 4) then WakeupType_Modem_Ring else
  if (byte =? 5) then WakeupType_LAN_Remote else
  if (byte =? 6) then WakeupType_Power_Switch else
  if (byte =? 7) then WakeupType_PCI_PME else
  if (byte =? 8) then WakeupType_AC_Power_Restored else
  WakeupType_Undefined byte.

(* src/structures/002_baseboard.rs:14-29 `enum BoardType` *)
Inductive BoardType : Type :=
| BoardType_Unknown
| BoardType_Other
| BoardType_ServerBlade
| BoardType_ConnectivitySwitch
| BoardType_SystemManagementModule
| BoardType_ProcessorModule
| BoardType_IoModule
| BoardType_MemoryModule
| BoardType_DaughterBoard
| BoardType_MotherBoard
| BoardType_ProcessorMemoryModule
| BoardType_ProcessorIoModule
| BoardType_InterconnectBoard
| BoardType_Undefined (v : N).

(* src/structures/002_baseboard.rs:31-50 `impl From<u8> for BoardType` *)
Definition BoardType_from (byte : N) : BoardType :=
  if (byte =? 1) then BoardType_Unknown else
  if (byte =? 2) then BoardType_Other else
  if (byte =? 3) then BoardType_ServerBlade else
  if (byte =? 4) then BoardType_ConnectivitySwitch else
  if (byte =? 5) then BoardType_SystemManagementModule else
  if (byte =? 6) then BoardType_ProcessorModule else
  if (byte =? 7) then BoardType_IoModule else
  if (byte =? 8) then BoardType_MemoryModule else
  if (byte =? 9) then BoardType_DaughterBoard else
  if (byte =? 10) then BoardType_MotherBoard else
  if (byte =? 11) then BoardType_ProcessorMemoryModule else
  if (byte =? 12) then BoardType_ProcessorIoModule else
  if (byte =? 13) then BoardType_InterconnectBoard else
  BoardType_Undefined byte.

(* src/structures/002_baseboard.rs:51-72 `impl fmt::Display for BoardType` *)
Definition BoardType_display (alt : bool) (x : BoardType) : string :=
  match x with
  | BoardType_Unknown => "Unknown"
  | BoardType_Other => "Other"
  | BoardType_ServerBlade => "Server Blade"
  | BoardType_ConnectivitySwitch => "Connectivity Switch"
  | BoardType_SystemManagementModule => "System Management Module"
  | BoardType_ProcessorModule => "Processor Module"
  | BoardType_IoModule => "I/O Module"
  | BoardType_MemoryModule => "Memory Module"
  | BoardType_DaughterBoard => "Daughter board"
  | BoardType_MotherBoard => "Motherboard (includes processor, memory, and I/O)"
  | BoardType_ProcessorMemoryModule => "Processor/Memory Module"
  | BoardType_ProcessorIoModule => "Processor/IO Module"
  | BoardType_InterconnectBoard => "Interconnect board"
  | BoardType_Undefined t => "Undefined: " ++ show_dec t
  end.

(* src/structures/003_enclosure.rs:57-108 `enum EnclosureType` *)
Inductive EnclosureType : Type :=
| EnclosureType_Other
| EnclosureType_Unknown
| EnclosureType_Desktop
| EnclosureType_LowProfileDesktop
| EnclosureType_PizzaBox
| EnclosureType_MiniTower
| EnclosureType_Tower
| EnclosureType_Portable
| EnclosureType_Laptop
| EnclosureType_Notebook
| EnclosureType_HandHeld
| EnclosureType_DockingStation
| EnclosureType_AllInOne
| EnclosureType_SubNotebook
| EnclosureType_SpaceSaving
| EnclosureType_LunchBox
| EnclosureType_MainServerChassis
| EnclosureType_ExpansionChassis
| EnclosureType_SubChassis
| EnclosureType_BusExpansionChassis
| EnclosureType_PeripheralChassis
| EnclosureType_RaidChassis
| EnclosureType_RackMountChassis
| EnclosureType_SealedCasePc
| EnclosureType_MultiSystemChassis
| EnclosureType_CompactPci
| EnclosureType_AdvancedTca
| EnclosureType_Blade
| EnclosureType_BladeEnclosure
| EnclosureType_Tablet
| EnclosureType_Convertible
| EnclosureType_Detachable
| EnclosureType_IotGateway
| EnclosureType_EmbeddedPc
| EnclosureType_MiniPc
| EnclosureType_StickPc
| EnclosureType_Undefined (v : N).

(* src/structures/003_enclosure.rs:272-314 `impl From<u8> for EnclosureType` *)
Definition EnclosureType_from (byte : N) : EnclosureType :=
  if (byte =? 0x01) then EnclosureType_Other else
  if (byte =? 0x02) then EnclosureType_Unknown else
  if (byte =? 0x03) then EnclosureType_Desktop else
  if (byte =? 0x04) then EnclosureType_LowProfileDesktop else
  if (byte =? 0x05) then EnclosureType_PizzaBox else
  if (byte =? 0x06) then EnclosureType_MiniTower else
  if (byte =? 0x07) then EnclosureType_Tower else
  if (byte =? 0x08) then EnclosureType_Portable else
  if (byte =? 0x09) then EnclosureType_Laptop else
  if (byte =? 0x0A) then EnclosureType_Notebook else
  if (byte =? 0x0B) then EnclosureType_HandHeld else
  if (byte =? 0x0C) then EnclosureType_DockingStation else
  if (byte =? 0x0D) then EnclosureType_AllInOne else
  if (byte =? 0x0E) then EnclosureType_SubNotebook else
  if (byte =? 0x0F) then EnclosureType_SpaceSaving else
  if (byte =? 0x10) then EnclosureType_LunchBox else
  if (byte =? 0x11) then EnclosureType_MainServerChassis else
  if (byte =? 0x12) then EnclosureType_ExpansionChassis else
  if (byte =? 0x13) then EnclosureType_SubChassis else
  if (byte =? 0x14) then EnclosureType_BusExpansionChassis else
  if (byte =? 0x15) then EnclosureType_PeripheralChassis else
  if (byte =? 0x16) then EnclosureType_RaidChassis else
  if (byte =? 0x17) then EnclosureType_RackMountChassis else
  if (byte =? 0x18) then EnclosureType_SealedCasePc else
  if (byte =? 0x19) then EnclosureType_MultiSystemChassis else
  if (byte =? 0x1A) then EnclosureType_CompactPci else
  if (byte =? 0x1B) then EnclosureType_AdvancedTca else
  if (byte =? 0x1C) then EnclosureType_Blade else
  if (byte =? 0x1D) then EnclosureType_BladeEnclosure else
  if (byte =? 0x1E) then EnclosureType_Tablet else
  if (byte =? 0x1F) then EnclosureType_Convertible else
  if (byte =? 0x20) then EnclosureType_Detachable else
  if (byte =? 0x21) then EnclosureType_IotGateway else
  if (byte =? 0x22) then EnclosureType_EmbeddedPc else
  if (byte =? 0x23) then EnclosureType_MiniPc else
  if (byte =? 0x24) then EnclosureType_StickPc else
  EnclosureType_Undefined byte.

(* src/structures/003_enclosure.rs:315-357 `impl fmt::Display for EnclosureType` *)
Definition EnclosureType_display (alt : bool) (x : EnclosureType) : string :=
  match x with
  | EnclosureType_Other => "Other"
  | EnclosureType_Unknown => "Unknown"
  | EnclosureType_Desktop => "Desktop"
  | EnclosureType_LowProfileDesktop => "Low Profile Desktop"
  | EnclosureType_PizzaBox => "Pizza Box"
  | EnclosureType_MiniTower => "Mini Tower"
  | EnclosureType_Tower => "Tower"
  | EnclosureType_Portable => "Portable"
  | EnclosureType_Laptop => "Laptop"
  | EnclosureType_Notebook => "Notebook"
  | EnclosureType_HandHeld => "Hand Held"
  | EnclosureType_DockingStation => "Docking Station"
  | EnclosureType_AllInOne => "All in One"
  | EnclosureType_SubNotebook => "Sub Notebook"
  | EnclosureType_SpaceSaving => "Space-saving"
  | EnclosureType_LunchBox => "Lunch Box"
  | EnclosureType_MainServerChassis => "Main Server Chassis"
  | EnclosureType_ExpansionChassis => "Expansion Chassis"
  | EnclosureType_SubChassis => "SubChassis"
  | EnclosureType_BusExpansionChassis => "Bus Expansion Chassis"
  | EnclosureType_PeripheralChassis => "Peripheral Chassis"
  | EnclosureType_RaidChassis => "RAID Chassis"
  | EnclosureType_RackMountChassis => "Rack Mount Chassis"
  | EnclosureType_SealedCasePc => "Sealed-case PC"
  | EnclosureType_MultiSystemChassis => "Multi-system chassis"
  | EnclosureType_CompactPci => "Compact PCI"
  | EnclosureType_AdvancedTca => "Advanced TCA"
  | EnclosureType_Blade => "Blade"
  | EnclosureType_BladeEnclosure => "Blade Enclosure"
  | EnclosureType_Tablet => "Tablet"
  | EnclosureType_Convertible => "Convertible"
  | EnclosureType_Detachable => "Detachable"
  | EnclosureType_IotGateway => "IoT Gateway"
  | EnclosureType_EmbeddedPc => "Embedded PC"
  | EnclosureType_MiniPc => "Mini PC"
  | EnclosureType_StickPc => "Stick PC"
  | EnclosureType_Undefined v => "Undefined: " ++ show_dec v
  end.

(* src/structures/003_enclosure.rs:112-120 `enum State` *)
Inductive State : Type :=
| State_Other
| State_Unknown
| State_Safe
| State_Warning
| State_Critical
| State_NonRecoverable
| State_Undefined (v : N).

(* src/structures/003_enclosure.rs:359-371 `impl From<u8> for State` *)
Definition State_from (byte : N) : State :=
  if (byte =? 0x01) then State_Other else
  if (byte =? 0x02) then State_Unknown else
  if (byte =? 0x03) then State_Safe else
  if (byte =? 0x04) then State_Warning else
  if (byte =? 0x05) then State_Critical else
  if (byte =? 0x06) then State_NonRecoverable else
  State_Undefined byte.

(* src/structures/003_enclosure.rs:372-384 `impl fmt::Display for State` *)
Definition State_display (alt : bool) (x : State) : string :=
  match x with
  | State_Other => "Other"
  | State_Unknown => "Unknown"
  | State_Safe => "Safe"
  | State_Warning => "Warning"
  | State_Critical => "Critical"
  | State_NonRecoverable => "Non-recoverable"
  | State_Undefined v => "Undefined: " ++ show_dec v
  end.

(* src/structures/003_enclosure.rs:124-131 `enum SecurityStatus` *)
Inductive SecurityStatus : Type :=
| SecurityStatus_Other
| SecurityStatus_Unknown
| SecurityStatus_None
| SecurityStatus_ExternalInterfaceLockedOut
| SecurityStatus_ExternalInterfaceEnabled
| SecurityStatus_Undefined (v : N).

(* src/structures/003_enclosure.rs:386-397 `impl From<u8> for SecurityStatus` *)
Definition SecurityStatus_from (byte : N) : SecurityStatus :=
  if (byte =? 0x01) then SecurityStatus_Other else
  if (byte =? 0x02) then SecurityStatus_Unknown else
  if (byte =? 0x03) then SecurityStatus_None else
  if (byte =? 0x04) then SecurityStatus_ExternalInterfaceLockedOut else
  if (byte =? 0x05) then SecurityStatus_ExternalInterfaceEnabled else
  SecurityStatus_Undefined byte.

(* src/structures/003_enclosure.rs:398-409 `impl fmt::Display for SecurityStatus` *)
Definition SecurityStatus_display (alt : bool) (x : SecurityStatus) : string :=
  match x with
  | SecurityStatus_Other => "Other"
  | SecurityStatus_Unknown => "Unknown"
  | SecurityStatus_None => "None"
  | SecurityStatus_ExternalInterfaceLockedOut => "External interface locked out"
  | SecurityStatus_ExternalInterfaceEnabled => "External interface enabled"
  | SecurityStatus_Undefined v => "Undefined: " ++ show_dec v
  end.

(* src/structures/004_processor.rs:18-26 `enum ProcessorType` *)
Inductive ProcessorType : Type :=
| ProcessorType_Other
| ProcessorType_Unknown
| ProcessorType_CentralProcessor
| ProcessorType_MathProcessor
| ProcessorType_DspProcessor
| ProcessorType_VideoProcessor
| ProcessorType_Undefined (v : N).

(* src/structures/004_processor.rs:28-40 `impl From<u8> for ProcessorType` *)
Definition ProcessorType_from (byte : N) : ProcessorType :=
  if (byte =? 1) then ProcessorType_Other else
  if (byte =? 2) then ProcessorType_Unknown else
  if (byte =? 3) then ProcessorType_CentralProcessor else
  if (byte =? 4) then ProcessorType_MathProcessor else
  if (byte =? 5) then ProcessorType_DspProcessor else
  if (byte =? 6) then ProcessorType_VideoProcessor else
  ProcessorType_Undefined byte.

(* src/structures/004_processor.rs:136-379 `enum ProcessorFamily` *)
Inductive ProcessorFamily : Type :=
| ProcessorFamily_Other
| ProcessorFamily_Unknown
| ProcessorFamily_Intel8086
| ProcessorFamily_Intel80286
| ProcessorFamily_Intel386Processor
| ProcessorFamily_Intel486Processor
| ProcessorFamily_Intel8087
| ProcessorFamily_Intel80287
| ProcessorFamily_Intel80387
| ProcessorFamily_Intel80487
| ProcessorFamily_IntelPentiumProcessor
| ProcessorFamily_PentiumProProcessor
| ProcessorFamily_PentiumIIProcessor
| ProcessorFamily_PentiumProcessorWithMMXTechnology
| ProcessorFamily_IntelCeleronProcessor
| ProcessorFamily_PentiumIIXeonProcessor
| ProcessorFamily_PentiumIIIProcessor
| ProcessorFamily_M1Family
| ProcessorFamily_M2Family
| ProcessorFamily_IntelCeleronMProcessor
| ProcessorFamily_IntelPentium4HTProcessor
| ProcessorFamily_AMDDuronProcessorFamily
| ProcessorFamily_K5Family
| ProcessorFamily_K6Family
| ProcessorFamily_K62
| ProcessorFamily_K63
| ProcessorFamily_AMDAthlonProcessorFamily
| ProcessorFamily_AMD29000Family
| ProcessorFamily_K62Plus
| ProcessorFamily_PowerPCFamily
| ProcessorFamily_PowerPC601
| ProcessorFamily_PowerPC603
| ProcessorFamily_PowerPC603Plus
| ProcessorFamily_PowerPC604
| ProcessorFamily_PowerPC620
| ProcessorFamily_PowerPCX704
| ProcessorFamily_PowerPC750
| ProcessorFamily_IntelCoreDuoProcessor
| ProcessorFamily_IntelCoreDuoMobileProcessor
| ProcessorFamily_IntelCoreSoloMobileProcessor
| ProcessorFamily_IntelAtomProcessor
| ProcessorFamily_IntelCoreMProcessor
| ProcessorFamily_IntelCoreM3Processor
| ProcessorFamily_IntelCoreM5Processor
| ProcessorFamily_IntelCoreM7Processor
| ProcessorFamily_AlphaFamily
| ProcessorFamily_Alpha21064
| ProcessorFamily_Alpha21066
| ProcessorFamily_Alpha21164
| ProcessorFamily_Alpha21164PC
| ProcessorFamily_Alpha21164a
| ProcessorFamily_Alpha21264
| ProcessorFamily_Alpha21364
| ProcessorFamily_AMDTurionIIUltraDualCoreMobileMProcessorFamily
| ProcessorFamily_AMDTurionIIDualCoreMobileMProcessorFamily
| ProcessorFamily_AMDAthlonIIDualCoreMProcessorFamily
| ProcessorFamily_AMDOpteron6100SeriesProcessor
| ProcessorFamily_AMDOpteron4100SeriesProcessor
| ProcessorFamily_AMDOpteron6200SeriesProcessor
| ProcessorFamily_AMDOpteron4200SeriesProcessor
| ProcessorFamily_AMDFXSeriesProcessor
| ProcessorFamily_MIPSFamily
| ProcessorFamily_MIPSR4000
| ProcessorFamily_MIPSR4200
| ProcessorFamily_MIPSR4400
| ProcessorFamily_MIPSR4600
| ProcessorFamily_MIPSR10000
| ProcessorFamily_AMDCSeriesProcessor
| ProcessorFamily_AMDESeriesProcessor
| ProcessorFamily_AMDASeriesProcessor
| ProcessorFamily_AMDGSeriesProcessor
| ProcessorFamily_AMDZSeriesProcessor
| ProcessorFamily_AMDRSeriesProcessor
| ProcessorFamily_AMDOpteron4300SeriesProcessor
| ProcessorFamily_AMDOpteron6300SeriesProcessor
| ProcessorFamily_AMDOpteron3300SeriesProcessor
| ProcessorFamily_AMDFireProSeriesProcessor
| ProcessorFamily_SPARCFamily
| ProcessorFamily_SuperSPARC
| ProcessorFamily_MicroSPARCII
| ProcessorFamily_MicroSPARCIIep
| ProcessorFamily_UltraSPARC
| ProcessorFamily_UltraSPARCII
| ProcessorFamily_UltraSPARCIii
| ProcessorFamily_UltraSPARCIII
| ProcessorFamily_UltraSPARCIIIi
| ProcessorFamily_Motorola68040Family
| ProcessorFamily_Motorola68xxx
| ProcessorFamily_Motorola68000
| ProcessorFamily_Motorola68010
| ProcessorFamily_Motorola68020
| ProcessorFamily_Motorola68030
| ProcessorFamily_AMDAthlonX4QuadCoreProcessorFamily
| ProcessorFamily_AMDOpteronX1000SeriesProcessor
| ProcessorFamily_AMDOpteronX2000SeriesAPU
| ProcessorFamily_AMDOpteronASeriesProcessor
| ProcessorFamily_AMDOpteronX3000SeriesAPU
| ProcessorFamily_AMDZenProcessorFamily
| ProcessorFamily_HobbitFamily
| ProcessorFamily_CrusoeTM5000Family
| ProcessorFamily_CrusoeTM3000Family
| ProcessorFamily_EfficeonTM8000Family
| ProcessorFamily_Weitek
| ProcessorFamily_AvailableForAssignment
| ProcessorFamily_ItaniumProcessor
| ProcessorFamily_AMDAthlon64ProcessorFamily
| ProcessorFamily_AMDOpteronProcessorFamily
| ProcessorFamily_AMDSempronProcessorFamily
| ProcessorFamily_AMDTurion64MobileTechnology
| ProcessorFamily_DualCoreAMDOpteronProcessorFamily
| ProcessorFamily_AMDAthlon64X2DualCoreProcessorFamily
| ProcessorFamily_AMDTurion64X2MobileTechnology
| ProcessorFamily_QuadCoreAMDOpteronProcessorFamily
| ProcessorFamily_ThirdGenerationAMDOpteronProcessorFamily
| ProcessorFamily_AMDPhenomFXQuadCoreProcessorFamily
| ProcessorFamily_AMDPhenomX4QuadCoreProcessorFamily
| ProcessorFamily_AMDPhenomX2DualCoreProcessorFamily
| ProcessorFamily_AMDAthlonX2DualCoreProcessorFamily
| ProcessorFamily_PARISCFamily
| ProcessorFamily_PARISC8500
| ProcessorFamily_PARISC8000
| ProcessorFamily_PARISC7300LC
| ProcessorFamily_PARISC7200
| ProcessorFamily_PARISC7100LC
| ProcessorFamily_PARISC7100
| ProcessorFamily_V30Family
| ProcessorFamily_QuadCoreIntelXeonProcessor3200Series
| ProcessorFamily_DualCoreIntelXeonProcessor3000Series
| ProcessorFamily_QuadCoreIntelXeonProcessor5300Series
| ProcessorFamily_DualCoreIntelXeonProcessor5100Series
| ProcessorFamily_DualCoreIntelXeonProcessor5000Series
| ProcessorFamily_DualCoreIntelXeonProcessorLV
| ProcessorFamily_DualCoreIntelXeonProcessorULV
| ProcessorFamily_DualCoreIntelXeonProcessor7100Series
| ProcessorFamily_QuadCoreIntelXeonProcessor5400Series
| ProcessorFamily_QuadCoreIntelXeonProcessor
| ProcessorFamily_DualCoreIntelXeonProcessor5200Series
| ProcessorFamily_DualCoreIntelXeonProcessor7200Series
| ProcessorFamily_QuadCoreIntelXeonProcessor7300Series
| ProcessorFamily_QuadCoreIntelXeonProcessor7400Series
| ProcessorFamily_MultiCoreIntelXeonProcessor7400Series
| ProcessorFamily_PentiumIIIXeonProcessor
| ProcessorFamily_PentiumIIIProcessorWithIntelSpeedStepTechnology
| ProcessorFamily_Pentium4Processor
| ProcessorFamily_IntelXeonProcessor
| ProcessorFamily_AS400Family
| ProcessorFamily_IntelXeonProcessorMP
| ProcessorFamily_AMDAthlonXPProcessorFamily
| ProcessorFamily_AMDAthlonMPProcessorFamily
| ProcessorFamily_IntelItanium2Processor
| ProcessorFamily_IntelPentiumMProcessor
| ProcessorFamily_IntelCeleronDProcessor
| ProcessorFamily_IntelPentiumDProcessor
| ProcessorFamily_IntelPentiumProcessorExtremeEdition
| ProcessorFamily_IntelCoreSoloProcessor
| ProcessorFamily_Ambiguous
| ProcessorFamily_IntelCore2DuoProcessor
| ProcessorFamily_IntelCore2SoloProcessor
| ProcessorFamily_IntelCore2ExtremeProcessor
| ProcessorFamily_IntelCore2QuadProcessor
| ProcessorFamily_IntelCore2ExtremeMobileProcessor
| ProcessorFamily_IntelCore2DuoMobileProcessor
| ProcessorFamily_IntelCore2SoloMobileProcessor
| ProcessorFamily_IntelCoreI7Processor
| ProcessorFamily_DualCoreIntelCeleronProcessor
| ProcessorFamily_IBM390Family
| ProcessorFamily_G4
| ProcessorFamily_G5
| ProcessorFamily_ESA390G6
| ProcessorFamily_ZArchitectureBase
| ProcessorFamily_IntelCoreI5Processor
| ProcessorFamily_IntelCoreI3Processor
| ProcessorFamily_IntelCoreI9Processor
| ProcessorFamily_VIAC7MProcessorFamily
| ProcessorFamily_VIAC7DProcessorFamily
| ProcessorFamily_VIAC7ProcessorFamily
| ProcessorFamily_VIAEdenProcessorFamily
| ProcessorFamily_MultiCoreIntelXeonProcessor
| ProcessorFamily_DualCoreIntelXeonProcessor3xxxSeries
| ProcessorFamily_QuadCoreIntelXeonProcessor3xxxSeries
| ProcessorFamily_VIANanoProcessorFamily
| ProcessorFamily_DualCoreIntelXeonProcessor5xxxSeries
| ProcessorFamily_QuadCoreIntelXeonProcessor5xxxSeries
| ProcessorFamily_DualCoreIntelXeonProcessor7xxxSeries
| ProcessorFamily_QuadCoreIntelXeonProcessor7xxxSeries
| ProcessorFamily_MultiCoreIntelXeonProcessor7xxxSeries
| ProcessorFamily_MultiCoreIntelXeonProcessor3400Series
| ProcessorFamily_AMDOpteron3000SeriesProcessor
| ProcessorFamily_AMDSempronIIProcessor
| ProcessorFamily_EmbeddedAMDOpteronQuadCoreProcessorFamily
| ProcessorFamily_AMDPhenomTripleCoreProcessorFamily
| ProcessorFamily_AMDTurionUltraDualCoreMobileProcessorFamily
| ProcessorFamily_AMDTurionDualCoreMobileProcessorFamily
| ProcessorFamily_AMDAthlonDualCoreProcessorFamily
| ProcessorFamily_AMDSempronSIProcessorFamily
| ProcessorFamily_AMDPhenomIIProcessorFamily
| ProcessorFamily_AMDAthlonIIProcessorFamily
| ProcessorFamily_SixCoreAMDOpteronProcessorFamily
| ProcessorFamily_AMDSempronMProcessorFamily
| ProcessorFamily_I860
| ProcessorFamily_I960
| ProcessorFamily_ARMv7
| ProcessorFamily_ARMv8
| ProcessorFamily_ARMv9
| ProcessorFamily_SH3
| ProcessorFamily_SH4
| ProcessorFamily_ARM
| ProcessorFamily_StrongARM
| ProcessorFamily_Cyrix6x86
| ProcessorFamily_MediaGX
| ProcessorFamily_MII
| ProcessorFamily_WinChip
| ProcessorFamily_DSP
| ProcessorFamily_VideoProcessor
| ProcessorFamily_RISCVRV32
| ProcessorFamily_RISCVRV64
| ProcessorFamily_RISCVRV128
| ProcessorFamily_Available (v : N)
| ProcessorFamily_NotUsed (v : N)
| ProcessorFamily_ForFutureUse
| ProcessorFamily_ProcessorFamily2
| ProcessorFamily_OutOfSpec.

(* src/structures/004_processor.rs:831-1077 `impl From<u16> for ProcessorFamily` *)
Definition ProcessorFamily_from (byte : N) : ProcessorFamily :=
  if (byte =? 0x00) then ProcessorFamily_OutOfSpec else
  if (byte =? 0x01) then ProcessorFamily_Other else
  if (byte =? 0x02) then ProcessorFamily_Unknown else
  if (byte =? 0x03) then ProcessorFamily_Intel8086 else
  if (byte =? 0x04) then ProcessorFamily_Intel80286 else
  if (byte =? 0x05) then ProcessorFamily_Intel386Processor else
  if (byte =? 0x06) then ProcessorFamily_Intel486Processor else
  if (byte =? 0x07) then ProcessorFamily_Intel8087 else
  if (byte =? 0x08) then ProcessorFamily_Intel80287 else
  if (byte =? 0x09) then ProcessorFamily_Intel80387 else
  if (byte =? 0x0A) then ProcessorFamily_Intel80487 else
  if (byte =? 0x0B) then ProcessorFamily_IntelPentiumProcessor else
  if (byte =? 0x0C) then ProcessorFamily_PentiumProProcessor else
  if (byte =? 0x0D) then ProcessorFamily_PentiumIIProcessor else
  if (byte =? 0x0E) then ProcessorFamily_PentiumProcessorWithMMXTechnology else
  if (byte =? 0x0F) then ProcessorFamily_IntelCeleronProcessor else
  if (byte =? 0x10) then ProcessorFamily_PentiumIIXeonProcessor else
  if (byte =? 0x11) then ProcessorFamily_PentiumIIIProcessor else
  if (byte =? 0x12) then ProcessorFamily_M1Family else
  if (byte =? 0x13) then ProcessorFamily_M2Family else
  if (byte =? 0x14) then ProcessorFamily_IntelCeleronMProcessor else
  if (byte =? 0x15) then ProcessorFamily_IntelPentium4HTProcessor else
  if ((0x16 <=? byte) && (byte <=? 0x17)) then ProcessorFamily_Available byte else
  if (byte =? 0x18) then ProcessorFamily_AMDDuronProcessorFamily else
  if (byte =? 0x19) then ProcessorFamily_K5Family else
  if (byte =? 0x1A) then ProcessorFamily_K6Family else
  if (byte =? 0x1B) then ProcessorFamily_K62 else
  if (byte =? 0x1C) then ProcessorFamily_K63 else
  if (byte =? 0x1D) then ProcessorFamily_AMDAthlonProcessorFamily else
  if (byte =? 0x1E) then ProcessorFamily_AMD29000Family else
  if (byte =? 0x1F) then ProcessorFamily_K62Plus else
  if (byte =? 0x20) then ProcessorFamily_PowerPCFamily else
  if (byte =? 0x21) then ProcessorFamily_PowerPC601 else
  if (byte =? 0x22) then ProcessorFamily_PowerPC603 else
  if (byte =? 0x23) then ProcessorFamily_PowerPC603Plus else
  if (byte =? 0x24) then ProcessorFamily_PowerPC604 else
  if (byte =? 0x25) then ProcessorFamily_PowerPC620 else
  if (byte =? 0x26) then ProcessorFamily_PowerPCX704 else
  if (byte =? 0x27) then ProcessorFamily_PowerPC750 else
  if (byte =? 0x28) then ProcessorFamily_IntelCoreDuoProcessor else
  if (byte =? 0x29) then ProcessorFamily_IntelCoreDuoMobileProcessor else
  if (byte =? 0x2A) then ProcessorFamily_IntelCoreSoloMobileProcessor else
  if (byte =? 0x2B) then ProcessorFamily_IntelAtomProcessor else
  if (byte =? 0x2C) then ProcessorFamily_IntelCoreMProcessor else
  if (byte =? 0x2D) then ProcessorFamily_IntelCoreM3Processor else
  if (byte =? 0x2E) then ProcessorFamily_IntelCoreM5Processor else
  if (byte =? 0x2F) then ProcessorFamily_IntelCoreM7Processor else
  if (byte =? 0x30) then ProcessorFamily_AlphaFamily else
  if (byte =? 0x31) then ProcessorFamily_Alpha21064 else
  if (byte =? 0x32) then ProcessorFamily_Alpha21066 else
  if (byte =? 0x33) then ProcessorFamily_Alpha21164 else
  if (byte =? 0x34) then ProcessorFamily_Alpha21164PC else
  if (byte =? 0x35) then ProcessorFamily_Alpha21164a else
  if (byte =? 0x36) then ProcessorFamily_Alpha21264 else
  if (byte =? 0x37) then ProcessorFamily_Alpha21364 else
  if (byte =? 0x38) then ProcessorFamily_AMDTurionIIUltraDualCoreMobileMProcessorFamily else
  if (byte =? 0x39) then ProcessorFamily_AMDTurionIIDualCoreMobileMProcessorFamily else
  if (byte =? 0x3A) then ProcessorFamily_AMDAthlonIIDualCoreMProcessorFamily else
  if (byte =? 0x3B) then ProcessorFamily_AMDOpteron6100SeriesProcessor else
  if (byte =? 0x3C) then ProcessorFamily_AMDOpteron4100SeriesProcessor else
  if (byte =? 0x3D) then ProcessorFamily_AMDOpteron6200SeriesProcessor else
  if (byte =? 0x3E) then ProcessorFamily_AMDOpteron4200SeriesProcessor else
  if (byte =? 0x3F) then ProcessorFamily_AMDFXSeriesProcessor else
  if (byte =? 0x40) then ProcessorFamily_MIPSFamily else
  if (byte =? 0x41) then ProcessorFamily_MIPSR4000 else
  if (byte =? 0x42) then ProcessorFamily_MIPSR4200 else
  if (byte =? 0x43) then ProcessorFamily_MIPSR4400 else
  if (byte =? 0x44) then ProcessorFamily_MIPSR4600 else
  if (byte =? 0x45) then ProcessorFamily_MIPSR10000 else
  if (byte =? 0x46) then ProcessorFamily_AMDCSeriesProcessor else
  if (byte =? 0x47) then ProcessorFamily_AMDESeriesProcessor else
  if (byte =? 0x48) then ProcessorFamily_AMDASeriesProcessor else
  if (byte =? 0x49) then ProcessorFamily_AMDGSeriesProcessor else
  if (byte =? 0x4A) then ProcessorFamily_AMDZSeriesProcessor else
  if (byte =? 0x4B) then ProcessorFamily_AMDRSeriesProcessor else
  if (byte =? 0x4C) then ProcessorFamily_AMDOpteron4300SeriesProcessor else
  if (byte =? 0x4D) then ProcessorFamily_AMDOpteron6300SeriesProcessor else
  if (byte =? 0x4E) then ProcessorFamily_AMDOpteron3300SeriesProcessor else
  if (byte =? 0x4F) then ProcessorFamily_AMDFireProSeriesProcessor else
  if (byte =? 0x50) then ProcessorFamily_SPARCFamily else
  if (byte =? 0x51) then ProcessorFamily_SuperSPARC else
  if (byte =? 0x52) then ProcessorFamily_MicroSPARCII else
  if (byte =? 0x53) then ProcessorFamily_MicroSPARCIIep else
  if (byte =? 0x54) then ProcessorFamily_UltraSPARC else
  if (byte =? 0x55) then ProcessorFamily_UltraSPARCII else
  if (byte =? 0x56) then ProcessorFamily_UltraSPARCIii else
  if (byte =? 0x57) then ProcessorFamily_UltraSPARCIII else
  if (byte =? 0x58) then ProcessorFamily_UltraSPARCIIIi else
  if ((0x59 <=? byte) && (byte <=? 0x5F)) then ProcessorFamily_Available byte else
  if (byte =? 0x60) then ProcessorFamily_Motorola68040Family else
  if (byte =? 0x61) then ProcessorFamily_Motorola68xxx else
  if (byte =? 0x62) then ProcessorFamily_Motorola68000 else
  if (byte =? 0x63) then ProcessorFamily_Motorola68010 else
  if (byte =? 0x64) then ProcessorFamily_Motorola68020 else
  if (byte =? 0x65) then ProcessorFamily_Motorola68030 else
  if (byte =? 0x66) then ProcessorFamily_AMDAthlonX4QuadCoreProcessorFamily else
  if (byte =? 0x67) then ProcessorFamily_AMDOpteronX1000SeriesProcessor else
  if (byte =? 0x68) then ProcessorFamily_AMDOpteronX2000SeriesAPU else
  if (byte =? 0x69) then ProcessorFamily_AMDOpteronASeriesProcessor else
  if (byte =? 0x6A) then ProcessorFamily_AMDOpteronX3000SeriesAPU else
  if (byte =? 0x6B) then ProcessorFamily_AMDZenProcessorFamily else
  if ((0x6C <=? byte) && (byte <=? 0x6F)) then ProcessorFamily_Available byte else
  if (byte =? 0x70) then ProcessorFamily_HobbitFamily else
  if ((0x71 <=? byte) && (byte <=? 0x77)) then ProcessorFamily_Available byte else
  if (byte =? 0x78) then ProcessorFamily_CrusoeTM5000Family else
  if (byte =? 0x79) then ProcessorFamily_CrusoeTM3000Family else
  if (byte =? 0x7A) then ProcessorFamily_EfficeonTM8000Family else
  if ((0x7B <=? byte) && (byte <=? 0x7F)) then ProcessorFamily_Available byte else
  if (byte =? 0x80) then ProcessorFamily_Weitek else
  if (byte =? 0x81) then ProcessorFamily_Available byte else
  if (byte =? 0x82) then ProcessorFamily_ItaniumProcessor else
  if (byte =? 0x83) then ProcessorFamily_AMDAthlon64ProcessorFamily else
  if (byte =? 0x84) then ProcessorFamily_AMDOpteronProcessorFamily else
  if (byte =? 0x85) then ProcessorFamily_AMDSempronProcessorFamily else
  if (byte =? 0x86) then ProcessorFamily_AMDTurion64MobileTechnology else
  if (byte =? 0x87) then ProcessorFamily_DualCoreAMDOpteronProcessorFamily else
  if (byte =? 0x88) then ProcessorFamily_AMDAthlon64X2DualCoreProcessorFamily else
  if (byte =? 0x89) then ProcessorFamily_AMDTurion64X2MobileTechnology else
  if (byte =? 0x8A) then ProcessorFamily_QuadCoreAMDOpteronProcessorFamily else
  if (byte =? 0x8B) then ProcessorFamily_ThirdGenerationAMDOpteronProcessorFamily else
  if (byte =? 0x8C) then ProcessorFamily_AMDPhenomFXQuadCoreProcessorFamily else
  if (byte =? 0x8D) then ProcessorFamily_AMDPhenomX4QuadCoreProcessorFamily else
  if (byte =? 0x8E) then ProcessorFamily_AMDPhenomX2DualCoreProcessorFamily else
  if (byte =? 0x8F) then ProcessorFamily_AMDAthlonX2DualCoreProcessorFamily else
  if (byte =? 0x90) then ProcessorFamily_PARISCFamily else
  if (byte =? 0x91) then ProcessorFamily_PARISC8500 else
  if (byte =? 0x92) then ProcessorFamily_PARISC8000 else
  if (byte =? 0x93) then ProcessorFamily_PARISC7300LC else
  if (byte =? 0x94) then ProcessorFamily_PARISC7200 else
  if (byte =? 0x95) then ProcessorFamily_PARISC7100LC else
  if (byte =? 0x96) then ProcessorFamily_PARISC7100 else
  if ((0x97 <=? byte) && (byte <=? 0x9F)) then ProcessorFamily_Available byte else
  if (byte =? 0xA0) then ProcessorFamily_V30Family else
  if (byte =? 0xA1) then ProcessorFamily_QuadCoreIntelXeonProcessor3200Series else
  if (byte =? 0xA2) then ProcessorFamily_DualCoreIntelXeonProcessor3000Series else
  if (byte =? 0xA3) then ProcessorFamily_QuadCoreIntelXeonProcessor5300Series else
  if (byte =? 0xA4) then ProcessorFamily_DualCoreIntelXeonProcessor5100Series else
  if (byte =? 0xA5) then ProcessorFamily_DualCoreIntelXeonProcessor5000Series else
  if (byte =? 0xA6) then ProcessorFamily_DualCoreIntelXeonProcessorLV else
  if (byte =? 0xA7) then ProcessorFamily_DualCoreIntelXeonProcessorULV else
  if (byte =? 0xA8) then ProcessorFamily_DualCoreIntelXeonProcessor7100Series else
  if (byte =? 0xA9) then ProcessorFamily_QuadCoreIntelXeonProcessor5400Series else
  if (byte =? 0xAA) then ProcessorFamily_QuadCoreIntelXeonProcessor else
  if (byte =? 0xAB) then ProcessorFamily_DualCoreIntelXeonProcessor5200Series else
  if (byte =? 0xAC) then ProcessorFamily_DualCoreIntelXeonProcessor7200Series else
  if (byte =? 0xAD) then ProcessorFamily_QuadCoreIntelXeonProcessor7300Series else
  if (byte =? 0xAE) then ProcessorFamily_QuadCoreIntelXeonProcessor7400Series else
  if (byte =? 0xAF) then ProcessorFamily_MultiCoreIntelXeonProcessor7400Series else
  if (byte =? 0xB0) then ProcessorFamily_PentiumIIIXeonProcessor else
  if (byte =? 0xB1) then ProcessorFamily_PentiumIIIProcessorWithIntelSpeedStepTechnology else
  if (byte =? 0xB2) then ProcessorFamily_Pentium4Processor else
  if (byte =? 0xB3) then ProcessorFamily_IntelXeonProcessor else
  if (byte =? 0xB4) then ProcessorFamily_AS400Family else
  if (byte =? 0xB5) then ProcessorFamily_IntelXeonProcessorMP else
  if (byte =? 0xB6) then ProcessorFamily_AMDAthlonXPProcessorFamily else
  if (byte =? 0xB7) then ProcessorFamily_AMDAthlonMPProcessorFamily else
  if (byte =? 0xB8) then ProcessorFamily_IntelItanium2Processor else
  if (byte =? 0xB9) then ProcessorFamily_IntelPentiumMProcessor else
  if (byte =? 0xBA) then ProcessorFamily_IntelCeleronDProcessor else
  if (byte =? 0xBB) then ProcessorFamily_IntelPentiumDProcessor else
  if (byte =? 0xBC) then ProcessorFamily_IntelPentiumProcessorExtremeEdition else
  if (byte =? 0xBD) then ProcessorFamily_IntelCoreSoloProcessor else
  if (byte =? 0xBE) then ProcessorFamily_Ambiguous else
  if (byte =? 0xBF) then ProcessorFamily_IntelCore2DuoProcessor else
  if (byte =? 0xC0) then ProcessorFamily_IntelCore2SoloProcessor else
  if (byte =? 0xC1) then ProcessorFamily_IntelCore2ExtremeProcessor else
  if (byte =? 0xC2) then ProcessorFamily_IntelCore2QuadProcessor else
  if (byte =? 0xC3) then ProcessorFamily_IntelCore2ExtremeMobileProcessor else
  if (byte =? 0xC4) then ProcessorFamily_IntelCore2DuoMobileProcessor else
  if (byte =? 0xC5) then ProcessorFamily_IntelCore2SoloMobileProcessor else
  if (byte =? 0xC6) then ProcessorFamily_IntelCoreI7Processor else
  if (byte =? 0xC7) then ProcessorFamily_DualCoreIntelCeleronProcessor else
  if (byte =? 0xC8) then ProcessorFamily_IBM390Family else
  if (byte =? 0xC9) then ProcessorFamily_G4 else
  if (byte =? 0xCA) then ProcessorFamily_G5 else
  if (byte =? 0xCB) then ProcessorFamily_ESA390G6 else
  if (byte =? 0xCC) then ProcessorFamily_ZArchitectureBase else
  if (byte =? 0xCD) then ProcessorFamily_IntelCoreI5Processor else
  if (byte =? 0xCE) then ProcessorFamily_IntelCoreI3Processor else
  if (byte =? 0xCF) then ProcessorFamily_IntelCoreI9Processor else
  if ((0xD0 <=? byte) && (byte <=? 0xD1)) then ProcessorFamily_Available byte else
  if (byte =? 0xD2) then ProcessorFamily_VIAC7MProcessorFamily else
  if (byte =? 0xD3) then ProcessorFamily_VIAC7DProcessorFamily else
  if (byte =? 0xD4) then ProcessorFamily_VIAC7ProcessorFamily else
  if (byte =? 0xD5) then ProcessorFamily_VIAEdenProcessorFamily else
  if (byte =? 0xD6) then ProcessorFamily_MultiCoreIntelXeonProcessor else
  if (byte =? 0xD7) then ProcessorFamily_DualCoreIntelXeonProcessor3xxxSeries else
  if (byte =? 0xD8) then ProcessorFamily_QuadCoreIntelXeonProcessor3xxxSeries else
  if (byte =? 0xD9) then ProcessorFamily_VIANanoProcessorFamily else
  if (byte =? 0xDA) then ProcessorFamily_DualCoreIntelXeonProcessor5xxxSeries else
  if (byte =? 0xDB) then ProcessorFamily_QuadCoreIntelXeonProcessor5xxxSeries else
  if (byte =? 0xDC) then ProcessorFamily_Available byte else
  if (byte =? 0xDD) then ProcessorFamily_DualCoreIntelXeonProcessor7xxxSeries else
  if (byte =? 0xDE) then ProcessorFamily_QuadCoreIntelXeonProcessor7xxxSeries else
  if (byte =? 0xDF) then ProcessorFamily_MultiCoreIntelXeonProcessor7xxxSeries else
  if (byte =? 0xE0) then ProcessorFamily_MultiCoreIntelXeonProcessor3400Series else
  if ((0xE1 <=? byte) && (byte <=? 0xE3)) then ProcessorFamily_Available byte else
  if (byte =? 0xE4) then ProcessorFamily_AMDOpteron3000SeriesProcessor else
  if (byte =? 0xE5) then ProcessorFamily_AMDSempronIIProcessor else
  if (byte =? 0xE6) then ProcessorFamily_EmbeddedAMDOpteronQuadCoreProcessorFamily else
  if (byte =? 0xE7) then ProcessorFamily_AMDPhenomTripleCoreProcessorFamily else
  if (byte =? 0xE8) then ProcessorFamily_AMDTurionUltraDualCoreMobileProcessorFamily else
  if (byte =? 0xE9) then ProcessorFamily_AMDTurionDualCoreMobileProcessorFamily else
  if (byte =? 0xEA) then ProcessorFamily_AMDAthlonDualCoreProcessorFamily else
  if (byte =? 0xEB) then ProcessorFamily_AMDSempronSIProcessorFamily else
  if (byte =? 0xEC) then ProcessorFamily_AMDPhenomIIProcessorFamily else
  if (byte =? 0xED) then ProcessorFamily_AMDAthlonIIProcessorFamily else
  if (byte =? 0xEE) then ProcessorFamily_SixCoreAMDOpteronProcessorFamily else
  if (byte =? 0xEF) then ProcessorFamily_AMDSempronMProcessorFamily else
  if ((0xF0 <=? byte) && (byte <=? 0xF9)) then ProcessorFamily_Available byte else
  if (byte =? 0xFA) then ProcessorFamily_I860 else
  if (byte =? 0xFB) then ProcessorFamily_I960 else
  if ((0xFC <=? byte) && (byte <=? 0xFD)) then ProcessorFamily_Available byte else
  if (byte =? 0xFE) then ProcessorFamily_ProcessorFamily2 else
  if (byte =? 0xFF) then ProcessorFamily_NotUsed byte else
  if (byte =? 0x100) then ProcessorFamily_ARMv7 else
  if (byte =? 0x101) then ProcessorFamily_ARMv8 else
  if (byte =? 0x102) then ProcessorFamily_ARMv9 else
  if (byte =? 0x103) then ProcessorFamily_Available 0x103 else
  if (byte =? 0x104) then ProcessorFamily_SH3 else
  if (byte =? 0x105) then ProcessorFamily_SH4 else
  if ((0x106 <=? byte) && (byte <=? 0x117)) then ProcessorFamily_Available byte else
  if (byte =? 0x118) then ProcessorFamily_ARM else
  if (byte =? 0x119) then ProcessorFamily_StrongARM else
  if ((0x11A <=? byte) && (byte <=? 0x12B)) then ProcessorFamily_Available byte else
  if (byte =? 0x12C) then ProcessorFamily_Cyrix6x86 else
  if (byte =? 0x12D) then ProcessorFamily_MediaGX else
  if (byte =? 0x12E) then ProcessorFamily_MII else
  if ((0x12F <=? byte) && (byte <=? 0x13F)) then ProcessorFamily_Available byte else
  if (byte =? 0x140) then ProcessorFamily_WinChip else
  if ((0x141 <=? byte) && (byte <=? 0x15D)) then ProcessorFamily_Available byte else
  if (byte =? 0x15E) then ProcessorFamily_DSP else
  if ((0x15F <=? byte) && (byte <=? 0x1F3)) then ProcessorFamily_Available byte else
  if (byte =? 0x1F4) then ProcessorFamily_VideoProcessor else
  if ((0x1F5 <=? byte) && (byte <=? 0x1FF)) then ProcessorFamily_Available byte else
  if (byte =? 0x200) then ProcessorFamily_RISCVRV32 else
  if (byte =? 0x201) then ProcessorFamily_RISCVRV64 else
  if (byte =? 0x202) then ProcessorFamily_RISCVRV128 else
  if ((0x203 <=? byte) && (byte <=? 0xFFFD)) then ProcessorFamily_Available byte else
  if (byte =? 0xFFFE) then ProcessorFamily_ForFutureUse else
  ProcessorFamily_NotUsed byte (* 0xFFFF *).

(* src/structures/004_processor.rs:1078-1465 `impl fmt::Display for ProcessorFamily` *)
Definition ProcessorFamily_display (alt : bool) (x : ProcessorFamily) : string :=
  match x with
  | ProcessorFamily_Other => "Other"
  | ProcessorFamily_Unknown => "Unknown"
  | ProcessorFamily_Intel8086 => "8086"
  | ProcessorFamily_Intel80286 => "80286"
  | ProcessorFamily_Intel386Processor => "Intel386™ processor"
  | ProcessorFamily_Intel486Processor => "Intel486™ processor"
  | ProcessorFamily_Intel8087 => "8087"
  | ProcessorFamily_Intel80287 => "80287"
  | ProcessorFamily_Intel80387 => "80387"
  | ProcessorFamily_Intel80487 => "80487"
  | ProcessorFamily_IntelPentiumProcessor => "Intel® Pentium® processor"
  | ProcessorFamily_PentiumProProcessor => "Pentium® Pro processor"
  | ProcessorFamily_PentiumIIProcessor => "Pentium® II processor"
  | ProcessorFamily_PentiumProcessorWithMMXTechnology => "Pentium® processor with MMX™ technology"
  | ProcessorFamily_IntelCeleronProcessor => "Intel® Celeron® processor"
  | ProcessorFamily_PentiumIIXeonProcessor => "Pentium® II Xeon™ processor"
  | ProcessorFamily_PentiumIIIProcessor => "Pentium® III processor"
  | ProcessorFamily_M1Family => "M1 Family"
  | ProcessorFamily_M2Family => "M2 Family"
  | ProcessorFamily_IntelCeleronMProcessor => "Intel® Celeron® M processor"
  | ProcessorFamily_IntelPentium4HTProcessor => "Intel® Pentium® 4 HT processor"
  | ProcessorFamily_AMDDuronProcessorFamily => "AMD Duron™ Processor Family [1]"
  | ProcessorFamily_K5Family => "K5 Family [1]"
  | ProcessorFamily_K6Family => "K6 Family [1]"
  | ProcessorFamily_K62 => "K6-2"
  | ProcessorFamily_K63 => "K6-3"
  | ProcessorFamily_AMDAthlonProcessorFamily => "AMD Athlon™ Processor Family [1]"
  | ProcessorFamily_AMD29000Family => "AMD29000 Family"
  | ProcessorFamily_K62Plus => "K6-2+"
  | ProcessorFamily_PowerPCFamily => "Power PC Family"
  | ProcessorFamily_PowerPC601 => "Power PC 601"
  | ProcessorFamily_PowerPC603 => "Power PC 603"
  | ProcessorFamily_PowerPC603Plus => "Power PC 603+"
  | ProcessorFamily_PowerPC604 => "Power PC 604"
  | ProcessorFamily_PowerPC620 => "Power PC 620"
  | ProcessorFamily_PowerPCX704 => "Power PC x704"
  | ProcessorFamily_PowerPC750 => "Power PC 750"
  | ProcessorFamily_IntelCoreDuoProcessor => "Intel® Core™ Duo processor"
  | ProcessorFamily_IntelCoreDuoMobileProcessor => "Intel® Core™ Duo mobile processor"
  | ProcessorFamily_IntelCoreSoloMobileProcessor => "Intel® Core™ Solo mobile processor"
  | ProcessorFamily_IntelAtomProcessor => "Intel® Atom™ processor"
  | ProcessorFamily_IntelCoreMProcessor => "Intel® Core™ M processor"
  | ProcessorFamily_IntelCoreM3Processor => "Intel(R) Core(TM) m3 processor"
  | ProcessorFamily_IntelCoreM5Processor => "Intel(R) Core(TM) m5 processor"
  | ProcessorFamily_IntelCoreM7Processor => "Intel(R) Core(TM) m7 processor"
  | ProcessorFamily_AlphaFamily => "Alpha Family [2]"
  | ProcessorFamily_Alpha21064 => "Alpha 21064"
  | ProcessorFamily_Alpha21066 => "Alpha 21066"
  | ProcessorFamily_Alpha21164 => "Alpha 21164"
  | ProcessorFamily_Alpha21164PC => "Alpha 21164PC"
  | ProcessorFamily_Alpha21164a => "Alpha 21164a"
  | ProcessorFamily_Alpha21264 => "Alpha 21264"
  | ProcessorFamily_Alpha21364 => "Alpha 21364"
  | ProcessorFamily_AMDTurionIIUltraDualCoreMobileMProcessorFamily => "AMD Turion™ II Ultra Dual-Core Mobile M Processor Family"
  | ProcessorFamily_AMDTurionIIDualCoreMobileMProcessorFamily => "AMD Turion™ II Dual-Core Mobile M Processor Family"
  | ProcessorFamily_AMDAthlonIIDualCoreMProcessorFamily => "AMD Athlon™ II Dual-Core M Processor Family"
  | ProcessorFamily_AMDOpteron6100SeriesProcessor => "AMD Opteron™ 6100 Series Processor"
  | ProcessorFamily_AMDOpteron4100SeriesProcessor => "AMD Opteron™ 4100 Series Processor"
  | ProcessorFamily_AMDOpteron6200SeriesProcessor => "AMD Opteron™ 6200 Series Processor"
  | ProcessorFamily_AMDOpteron4200SeriesProcessor => "AMD Opteron™ 4200 Series Processor"
  | ProcessorFamily_AMDFXSeriesProcessor => "AMD FX™ Series Processor"
  | ProcessorFamily_MIPSFamily => "MIPS Family"
  | ProcessorFamily_MIPSR4000 => "MIPS R4000"
  | ProcessorFamily_MIPSR4200 => "MIPS R4200"
  | ProcessorFamily_MIPSR4400 => "MIPS R4400"
  | ProcessorFamily_MIPSR4600 => "MIPS R4600"
  | ProcessorFamily_MIPSR10000 => "MIPS R10000"
  | ProcessorFamily_AMDCSeriesProcessor => "AMD C-Series Processor"
  | ProcessorFamily_AMDESeriesProcessor => "AMD E-Series Processor"
  | ProcessorFamily_AMDASeriesProcessor => "AMD A-Series Processor"
  | ProcessorFamily_AMDGSeriesProcessor => "AMD G-Series Processor"
  | ProcessorFamily_AMDZSeriesProcessor => "AMD Z-Series Processor"
  | ProcessorFamily_AMDRSeriesProcessor => "AMD R-Series Processor"
  | ProcessorFamily_AMDOpteron4300SeriesProcessor => "AMD Opteron™ 4300 Series Processor"
  | ProcessorFamily_AMDOpteron6300SeriesProcessor => "AMD Opteron™ 6300 Series Processor"
  | ProcessorFamily_AMDOpteron3300SeriesProcessor => "AMD Opteron™ 3300 Series Processor"
  | ProcessorFamily_AMDFireProSeriesProcessor => "AMD FirePro™ Series Processor"
  | ProcessorFamily_SPARCFamily => "SPARC Family"
  | ProcessorFamily_SuperSPARC => "SuperSPARC"
  | ProcessorFamily_MicroSPARCII => "microSPARC II"
  | ProcessorFamily_MicroSPARCIIep => "microSPARC IIep"
  | ProcessorFamily_UltraSPARC => "UltraSPARC"
  | ProcessorFamily_UltraSPARCII => "UltraSPARC II"
  | ProcessorFamily_UltraSPARCIii => "UltraSPARC Iii"
  | ProcessorFamily_UltraSPARCIII => "UltraSPARC III"
  | ProcessorFamily_UltraSPARCIIIi => "UltraSPARC IIIi"
  | ProcessorFamily_Motorola68040Family => "68040 Family"
  | ProcessorFamily_Motorola68xxx => "68xxx"
  | ProcessorFamily_Motorola68000 => "68000"
  | ProcessorFamily_Motorola68010 => "68010"
  | ProcessorFamily_Motorola68020 => "68020"
  | ProcessorFamily_Motorola68030 => "68030"
  | ProcessorFamily_AMDAthlonX4QuadCoreProcessorFamily => "AMD Athlon(TM) X4 Quad-Core Processor Family"
  | ProcessorFamily_AMDOpteronX1000SeriesProcessor => "AMD Opteron(TM) X1000 Series Processor"
  | ProcessorFamily_AMDOpteronX2000SeriesAPU => "AMD Opteron(TM) X2000 Series APU"
  | ProcessorFamily_AMDOpteronASeriesProcessor => "AMD Opteron(TM) A-Series Processor"
  | ProcessorFamily_AMDOpteronX3000SeriesAPU => "AMD Opteron(TM) X3000 Series APU"
  | ProcessorFamily_AMDZenProcessorFamily => "AMD Zen Processor Family"
  | ProcessorFamily_HobbitFamily => "Hobbit Family"
  | ProcessorFamily_CrusoeTM5000Family => "Crusoe™ TM5000 Family"
  | ProcessorFamily_CrusoeTM3000Family => "Crusoe™ TM3000 Family"
  | ProcessorFamily_EfficeonTM8000Family => "Efficeon™ TM8000 Family"
  | ProcessorFamily_Weitek => "Weitek"
  | ProcessorFamily_AvailableForAssignment => "Available for assignment"
  | ProcessorFamily_ItaniumProcessor => "Itanium™ processor"
  | ProcessorFamily_AMDAthlon64ProcessorFamily => "AMD Athlon™ 64 Processor Family"
  | ProcessorFamily_AMDOpteronProcessorFamily => "AMD Opteron™ Processor Family"
  | ProcessorFamily_AMDSempronProcessorFamily => "AMD Sempron™ Processor Family"
  | ProcessorFamily_AMDTurion64MobileTechnology => "AMD Turion™ 64 Mobile Technology"
  | ProcessorFamily_DualCoreAMDOpteronProcessorFamily => "Dual-Core AMD Opteron™ Processor Family"
  | ProcessorFamily_AMDAthlon64X2DualCoreProcessorFamily => "AMD Athlon™ 64 X2 Dual-Core Processor Family"
  | ProcessorFamily_AMDTurion64X2MobileTechnology => "AMD Turion™ 64 X2 Mobile Technology"
  | ProcessorFamily_QuadCoreAMDOpteronProcessorFamily => "Quad-Core AMD Opteron™ Processor Family"
  | ProcessorFamily_ThirdGenerationAMDOpteronProcessorFamily => "Third-Generation AMD Opteron™ Processor Family"
  | ProcessorFamily_AMDPhenomFXQuadCoreProcessorFamily => "AMD Phenom™ FX Quad-Core Processor Family"
  | ProcessorFamily_AMDPhenomX4QuadCoreProcessorFamily => "AMD Phenom™ X4 Quad-Core Processor Family"
  | ProcessorFamily_AMDPhenomX2DualCoreProcessorFamily => "AMD Phenom™ X2 Dual-Core Processor Family"
  | ProcessorFamily_AMDAthlonX2DualCoreProcessorFamily => "AMD Athlon™ X2 Dual-Core Processor Family"
  | ProcessorFamily_PARISCFamily => "PA-RISC Family"
  | ProcessorFamily_PARISC8500 => "PA-RISC 8500"
  | ProcessorFamily_PARISC8000 => "PA-RISC 8000"
  | ProcessorFamily_PARISC7300LC => "PA-RISC 7300LC"
  | ProcessorFamily_PARISC7200 => "PA-RISC 7200"
  | ProcessorFamily_PARISC7100LC => "PA-RISC 7100LC"
  | ProcessorFamily_PARISC7100 => "PA-RISC 7100"
  | ProcessorFamily_V30Family => "V30 Family"
  | ProcessorFamily_QuadCoreIntelXeonProcessor3200Series => "Quad-Core Intel® Xeon® processor 3200 Series"
  | ProcessorFamily_DualCoreIntelXeonProcessor3000Series => "Dual-Core Intel® Xeon® processor 3000 Series"
  | ProcessorFamily_QuadCoreIntelXeonProcessor5300Series => "Quad-Core Intel® Xeon® processor 5300 Series"
  | ProcessorFamily_DualCoreIntelXeonProcessor5100Series => "Dual-Core Intel® Xeon® processor 5100 Series"
  | ProcessorFamily_DualCoreIntelXeonProcessor5000Series => "Dual-Core Intel® Xeon® processor 5000 Series"
  | ProcessorFamily_DualCoreIntelXeonProcessorLV => "Dual-Core Intel® Xeon® processor LV"
  | ProcessorFamily_DualCoreIntelXeonProcessorULV => "Dual-Core Intel® Xeon® processor ULV"
  | ProcessorFamily_DualCoreIntelXeonProcessor7100Series => "Dual-Core Intel® Xeon® processor 7100 Series"
  | ProcessorFamily_QuadCoreIntelXeonProcessor5400Series => "Quad-Core Intel® Xeon® processor 5400 Series"
  | ProcessorFamily_QuadCoreIntelXeonProcessor => "Quad-Core Intel® Xeon® processor"
  | ProcessorFamily_DualCoreIntelXeonProcessor5200Series => "Dual-Core Intel® Xeon® processor 5200 Series"
  | ProcessorFamily_DualCoreIntelXeonProcessor7200Series => "Dual-Core Intel® Xeon® processor 7200 Series"
  | ProcessorFamily_QuadCoreIntelXeonProcessor7300Series => "Quad-Core Intel® Xeon® processor 7300 Series"
  | ProcessorFamily_QuadCoreIntelXeonProcessor7400Series => "Quad-Core Intel® Xeon® processor 7400 Series"
  | ProcessorFamily_MultiCoreIntelXeonProcessor7400Series => "Multi-Core Intel® Xeon® processor 7400 Series"
  | ProcessorFamily_PentiumIIIXeonProcessor => "Pentium® III Xeon™ processor"
  | ProcessorFamily_PentiumIIIProcessorWithIntelSpeedStepTechnology => "Pentium® III Processor with Intel® SpeedStep™ Technology"
  | ProcessorFamily_Pentium4Processor => "Pentium® 4 Processor"
  | ProcessorFamily_IntelXeonProcessor => "Intel® Xeon® processor"
  | ProcessorFamily_AS400Family => "AS400 Family"
  | ProcessorFamily_IntelXeonProcessorMP => "Intel® Xeon™ processor MP"
  | ProcessorFamily_AMDAthlonXPProcessorFamily => "AMD Athlon™ XP Processor Family"
  | ProcessorFamily_AMDAthlonMPProcessorFamily => "AMD Athlon™ MP Processor Family"
  | ProcessorFamily_IntelItanium2Processor => "Intel® Itanium® 2 processor"
  | ProcessorFamily_IntelPentiumMProcessor => "Intel® Pentium® M processor"
  | ProcessorFamily_IntelCeleronDProcessor => "Intel® Celeron® D processor"
  | ProcessorFamily_IntelPentiumDProcessor => "Intel® Pentium® D processor"
  | ProcessorFamily_IntelPentiumProcessorExtremeEdition => "Intel® Pentium® Processor Extreme Edition"
  | ProcessorFamily_IntelCoreSoloProcessor => "Intel® Core™ Solo Processor"
  | ProcessorFamily_Ambiguous => "Ambiguous"
  | ProcessorFamily_IntelCore2DuoProcessor => "Intel® Core™ 2 Duo Processor"
  | ProcessorFamily_IntelCore2SoloProcessor => "Intel® Core™ 2 Solo processor"
  | ProcessorFamily_IntelCore2ExtremeProcessor => "Intel® Core™ 2 Extreme processor"
  | ProcessorFamily_IntelCore2QuadProcessor => "Intel® Core™ 2 Quad processor"
  | ProcessorFamily_IntelCore2ExtremeMobileProcessor => "Intel® Core™ 2 Extreme mobile processor"
  | ProcessorFamily_IntelCore2DuoMobileProcessor => "Intel® Core™ 2 Duo mobile processor"
  | ProcessorFamily_IntelCore2SoloMobileProcessor => "Intel® Core™ 2 Solo mobile processor"
  | ProcessorFamily_IntelCoreI7Processor => "Intel® Core™ i7 processor"
  | ProcessorFamily_DualCoreIntelCeleronProcessor => "Dual-Core Intel® Celeron® processor"
  | ProcessorFamily_IBM390Family => "IBM390 Family"
  | ProcessorFamily_G4 => "G4"
  | ProcessorFamily_G5 => "G5"
  | ProcessorFamily_ESA390G6 => "ESA/390 G6"
  | ProcessorFamily_ZArchitectureBase => "z/Architecture base"
  | ProcessorFamily_IntelCoreI5Processor => "Intel® Core™ i5 processor"
  | ProcessorFamily_IntelCoreI3Processor => "Intel® Core™ i3 processor"
  | ProcessorFamily_IntelCoreI9Processor => "Intel® Core™ i9 processor"
  | ProcessorFamily_VIAC7MProcessorFamily => "VIA C7™-M Processor Family"
  | ProcessorFamily_VIAC7DProcessorFamily => "VIA C7™-D Processor Family"
  | ProcessorFamily_VIAC7ProcessorFamily => "VIA C7™ Processor Family"
  | ProcessorFamily_VIAEdenProcessorFamily => "VIA Eden™ Processor Family"
  | ProcessorFamily_MultiCoreIntelXeonProcessor => "Multi-Core Intel® Xeon® processor"
  | ProcessorFamily_DualCoreIntelXeonProcessor3xxxSeries => "Dual-Core Intel® Xeon® processor 3xxx Series"
  | ProcessorFamily_QuadCoreIntelXeonProcessor3xxxSeries => "Quad-Core Intel® Xeon® processor 3xxx Series"
  | ProcessorFamily_VIANanoProcessorFamily => "VIA Nano™ Processor Family"
  | ProcessorFamily_DualCoreIntelXeonProcessor5xxxSeries => "Dual-Core Intel® Xeon® processor 5xxx Series"
  | ProcessorFamily_QuadCoreIntelXeonProcessor5xxxSeries => "Quad-Core Intel® Xeon® processor 5xxx Series"
  | ProcessorFamily_DualCoreIntelXeonProcessor7xxxSeries => "Dual-Core Intel® Xeon® processor 7xxx Series"
  | ProcessorFamily_QuadCoreIntelXeonProcessor7xxxSeries => "Quad-Core Intel® Xeon® processor 7xxx Series"
  | ProcessorFamily_MultiCoreIntelXeonProcessor7xxxSeries => "Multi-Core Intel® Xeon® processor 7xxx Series"
  | ProcessorFamily_MultiCoreIntelXeonProcessor3400Series => "Multi-Core Intel® Xeon® processor 3400 Series"
  | ProcessorFamily_AMDOpteron3000SeriesProcessor => "AMD Opteron™ 3000 Series Processor"
  | ProcessorFamily_AMDSempronIIProcessor => "AMD Sempron™ II Processor"
  | ProcessorFamily_EmbeddedAMDOpteronQuadCoreProcessorFamily => "Embedded AMD Opteron™ Quad-Core Processor Family"
  | ProcessorFamily_AMDPhenomTripleCoreProcessorFamily => "AMD Phenom™ Triple-Core Processor Family"
  | ProcessorFamily_AMDTurionUltraDualCoreMobileProcessorFamily => "AMD Turion™ Ultra Dual-Core Mobile Processor Family"
  | ProcessorFamily_AMDTurionDualCoreMobileProcessorFamily => "AMD Turion™ Dual-Core Mobile Processor Family"
  | ProcessorFamily_AMDAthlonDualCoreProcessorFamily => "AMD Athlon™ Dual-Core Processor Family"
  | ProcessorFamily_AMDSempronSIProcessorFamily => "AMD Sempron™ SI Processor Family"
  | ProcessorFamily_AMDPhenomIIProcessorFamily => "AMD Phenom™ II Processor Family"
  | ProcessorFamily_AMDAthlonIIProcessorFamily => "AMD Athlon™ II Processor Family"
  | ProcessorFamily_SixCoreAMDOpteronProcessorFamily => "Six-Core AMD Opteron™ Processor Family"
  | ProcessorFamily_AMDSempronMProcessorFamily => "AMD Sempron™ M Processor Family"
  | ProcessorFamily_I860 => "i860"
  | ProcessorFamily_I960 => "i960"
  | ProcessorFamily_ARMv7 => "ARMv7"
  | ProcessorFamily_ARMv8 => "ARMv8"
  | ProcessorFamily_ARMv9 => "ARMv9"
  | ProcessorFamily_SH3 => "SH-3"
  | ProcessorFamily_SH4 => "SH-4"
  | ProcessorFamily_ARM => "ARM"
  | ProcessorFamily_StrongARM => "StrongARM"
  | ProcessorFamily_Cyrix6x86 => "6x86"
  | ProcessorFamily_MediaGX => "MediaGX"
  | ProcessorFamily_MII => "MII"
  | ProcessorFamily_WinChip => "WinChip"
  | ProcessorFamily_DSP => "DSP"
  | ProcessorFamily_VideoProcessor => "Video Processor"
  | ProcessorFamily_RISCVRV32 => "RISC-V RV32"
  | ProcessorFamily_RISCVRV64 => "RISC-V RV64"
  | ProcessorFamily_RISCVRV128 => "RISC-V RV128"
  | ProcessorFamily_ForFutureUse => "For special use in the future"
  | ProcessorFamily_ProcessorFamily2 => "Processor Family 2 has the enumerated value"
  | ProcessorFamily_Available n => "Available " ++ show_hex_alt n
  | ProcessorFamily_NotUsed n => "Not used. " ++ show_hex n ++ "h is the un-initialized value of Flash memory."
  | ProcessorFamily_OutOfSpec => "OUT OF SPEC"
  end.

(* src/structures/004_processor.rs:404-468 `enum ProcessorUpgrade` *)
Inductive ProcessorUpgrade : Type :=
| ProcessorUpgrade_Other
| ProcessorUpgrade_Unknown
| ProcessorUpgrade_DaughterBoard
| ProcessorUpgrade_ZIFSocket
| ProcessorUpgrade_ReplaceablePiggyBack
| ProcessorUpgrade_None
| ProcessorUpgrade_LIFSocket
| ProcessorUpgrade_Slot1
| ProcessorUpgrade_Slot2
| ProcessorUpgrade_Socket370
| ProcessorUpgrade_SlotA
| ProcessorUpgrade_SlotM
| ProcessorUpgrade_Socket423
| ProcessorUpgrade_SocketA
| ProcessorUpgrade_Socket478
| ProcessorUpgrade_Socket754
| ProcessorUpgrade_Socket940
| ProcessorUpgrade_Socket939
| ProcessorUpgrade_SocketmPGA604
| ProcessorUpgrade_SocketLGA771
| ProcessorUpgrade_SocketLGA775
| ProcessorUpgrade_SocketS1
| ProcessorUpgrade_SocketAM2
| ProcessorUpgrade_SocketF
| ProcessorUpgrade_SocketLGA1366
| ProcessorUpgrade_SocketG34
| ProcessorUpgrade_SocketAM3
| ProcessorUpgrade_SocketC32
| ProcessorUpgrade_SocketLGA1156
| ProcessorUpgrade_SocketLGA1567
| ProcessorUpgrade_SocketPGA988A
| ProcessorUpgrade_SocketBGA1288
| ProcessorUpgrade_SocketrPGA988B
| ProcessorUpgrade_SocketBGA1023
| ProcessorUpgrade_SocketBGA1224
| ProcessorUpgrade_SocketLGA1155
| ProcessorUpgrade_SocketLGA1356
| ProcessorUpgrade_SocketLGA2011
| ProcessorUpgrade_SocketFS1
| ProcessorUpgrade_SocketFS2
| ProcessorUpgrade_SocketFM1
| ProcessorUpgrade_SocketFM2
| ProcessorUpgrade_SocketLGA2011Three
| ProcessorUpgrade_SocketLGA1356Three
| ProcessorUpgrade_SocketLGA1150
| ProcessorUpgrade_SocketBGA1168
| ProcessorUpgrade_SocketBGA1234
| ProcessorUpgrade_SocketBGA1364
| ProcessorUpgrade_SocketAM4
| ProcessorUpgrade_SocketLGA1151
| ProcessorUpgrade_SocketBGA1356
| ProcessorUpgrade_SocketBGA1440
| ProcessorUpgrade_SocketBGA1515
| ProcessorUpgrade_SocketLGA3647
| ProcessorUpgrade_SocketSP3
| ProcessorUpgrade_SocketSP3r2
| ProcessorUpgrade_SocketLGA2066
| ProcessorUpgrade_SocketBGA1392
| ProcessorUpgrade_SocketBGA1510
| ProcessorUpgrade_SocketBGA1528
| ProcessorUpgrade_SocketLGA4189
| ProcessorUpgrade_SocketLGA1200
| ProcessorUpgrade_Undefined (v : N).

(* src/structures/004_processor.rs:1511-1579 `impl From<u8> for ProcessorUpgrade` *)
Definition ProcessorUpgrade_from (byte : N) : ProcessorUpgrade :=
  if (byte =? 0x01) then ProcessorUpgrade_Other else
  if (byte =? 0x02) then ProcessorUpgrade_Unknown else
  if (byte =? 0x03) then ProcessorUpgrade_DaughterBoard else
  if (byte =? 0x04) then ProcessorUpgrade_ZIFSocket else
  if (byte =? 0x05) then ProcessorUpgrade_ReplaceablePiggyBack else
  if (byte =? 0x06) then ProcessorUpgrade_None else
  if (byte =? 0x07) then ProcessorUpgrade_LIFSocket else
  if (byte =? 0x08) then ProcessorUpgrade_Slot1 else
  if (byte =? 0x09) then ProcessorUpgrade_Slot2 else
  if (byte =? 0x0a) then ProcessorUpgrade_Socket370 else
  if (byte =? 0x0b) then ProcessorUpgrade_SlotA else
  if (byte =? 0x0c) then ProcessorUpgrade_SlotM else
  if (byte =? 0x0d) then ProcessorUpgrade_Socket423 else
  if (byte =? 0x0e) then ProcessorUpgrade_SocketA else
  if (byte =? 0x0f) then ProcessorUpgrade_Socket478 else
  if (byte =? 0x10) then ProcessorUpgrade_Socket754 else
  if (byte =? 0x11) then ProcessorUpgrade_Socket940 else
  if (byte =? 0x12) then ProcessorUpgrade_Socket939 else
  if (byte =? 0x13) then ProcessorUpgrade_SocketmPGA604 else
  if (byte =? 0x14) then ProcessorUpgrade_SocketLGA771 else
  if (byte =? 0x15) then ProcessorUpgrade_SocketLGA775 else
  if (byte =? 0x16) then ProcessorUpgrade_SocketS1 else
  if (byte =? 0x17) then ProcessorUpgrade_SocketAM2 else
  if (byte =? 0x18) then ProcessorUpgrade_SocketF else
  if (byte =? 0x19) then ProcessorUpgrade_SocketLGA1366 else
  if (byte =? 0x1a) then ProcessorUpgrade_SocketG34 else
  if (byte =? 0x1b) then ProcessorUpgrade_SocketAM3 else
  if (byte =? 0x1c) then ProcessorUpgrade_SocketC32 else
  if (byte =? 0x1d) then ProcessorUpgrade_SocketLGA1156 else
  if (byte =? 0x1e) then ProcessorUpgrade_SocketLGA1567 else
  if (byte =? 0x1f) then ProcessorUpgrade_SocketPGA988A else
  if (byte =? 0x20) then ProcessorUpgrade_SocketBGA1288 else
  if (byte =? 0x21) then ProcessorUpgrade_SocketrPGA988B else
  if (byte =? 0x22) then ProcessorUpgrade_SocketBGA1023 else
  if (byte =? 0x23) then ProcessorUpgrade_SocketBGA1224 else
  if (byte =? 0x24) then ProcessorUpgrade_SocketLGA1155 else
  if (byte =? 0x25) then ProcessorUpgrade_SocketLGA1356 else
  if (byte =? 0x26) then ProcessorUpgrade_SocketLGA2011 else
  if (byte =? 0x27) then ProcessorUpgrade_SocketFS1 else
  if (byte =? 0x28) then ProcessorUpgrade_SocketFS2 else
  if (byte =? 0x29) then ProcessorUpgrade_SocketFM1 else
  if (byte =? 0x2a) then ProcessorUpgrade_SocketFM2 else
  if (byte =? 0x2b) then ProcessorUpgrade_SocketLGA2011Three else
  if (byte =? 0x2c) then ProcessorUpgrade_SocketLGA1356Three else
  if (byte =? 0x2d) then ProcessorUpgrade_SocketLGA1150 else
  if (byte =? 0x2e) then ProcessorUpgrade_SocketBGA1168 else
  if (byte =? 0x2f) then ProcessorUpgrade_SocketBGA1234 else
  if (byte =? 0x30) then ProcessorUpgrade_SocketBGA1364 else
  if (byte =? 0x31) then ProcessorUpgrade_SocketAM4 else
  if (byte =? 0x32) then ProcessorUpgrade_SocketLGA1151 else
  if (byte =? 0x33) then ProcessorUpgrade_SocketBGA1356 else
  if (byte =? 0x34) then ProcessorUpgrade_SocketBGA1440 else
  if (byte =? 0x35) then ProcessorUpgrade_SocketBGA1515 else
  if (byte =? 0x36) then ProcessorUpgrade_SocketLGA3647 else
  if (byte =? 0x37) then ProcessorUpgrade_SocketSP3 else
  if (byte =? 0x38) then ProcessorUpgrade_SocketSP3r2 else
  if (byte =? 0x39) then ProcessorUpgrade_SocketLGA2066 else
  if (byte =? 0x3a) then ProcessorUpgrade_SocketBGA1392 else
  if (byte =? 0x3b) then ProcessorUpgrade_SocketBGA1510 else
  if (byte =? 0x3c) then ProcessorUpgrade_SocketBGA1528 else
  if (byte =? 0x3d) then ProcessorUpgrade_SocketLGA4189 else
  if (byte =? 0x3e) then ProcessorUpgrade_SocketLGA1200 else
  ProcessorUpgrade_Undefined byte.

(* src/structures/004_processor.rs:1580-1648 `impl fmt::Display for ProcessorUpgrade` *)
Definition ProcessorUpgrade_display (alt : bool) (x : ProcessorUpgrade) : string :=
  match x with
  | ProcessorUpgrade_Other => "Other"
  | ProcessorUpgrade_Unknown => "Unknown"
  | ProcessorUpgrade_DaughterBoard => "Daughter Board"
  | ProcessorUpgrade_ZIFSocket => "ZIF Socket"
  | ProcessorUpgrade_ReplaceablePiggyBack => "Replaceable Piggy Back"
  | ProcessorUpgrade_None => "None"
  | ProcessorUpgrade_LIFSocket => "LIF Socket"
  | ProcessorUpgrade_Slot1 => "Slot 1"
  | ProcessorUpgrade_Slot2 => "Slot 2"
  | ProcessorUpgrade_Socket370 => "370-pin socket"
  | ProcessorUpgrade_SlotA => "Slot A"
  | ProcessorUpgrade_SlotM => "Slot M"
  | ProcessorUpgrade_Socket423 => "Socket 423"
  | ProcessorUpgrade_SocketA => "Socket A (Socket 462)"
  | ProcessorUpgrade_Socket478 => "Socket 478"
  | ProcessorUpgrade_Socket754 => "Socket 754"
  | ProcessorUpgrade_Socket940 => "Socket 940"
  | ProcessorUpgrade_Socket939 => "Socket 939"
  | ProcessorUpgrade_SocketmPGA604 => "Socket mPGA604"
  | ProcessorUpgrade_SocketLGA771 => "Socket LGA771"
  | ProcessorUpgrade_SocketLGA775 => "Socket LGA775"
  | ProcessorUpgrade_SocketS1 => "Socket S1"
  | ProcessorUpgrade_SocketAM2 => "Socket AM2"
  | ProcessorUpgrade_SocketF => "Socket F (1207)"
  | ProcessorUpgrade_SocketLGA1366 => "Socket LGA1366"
  | ProcessorUpgrade_SocketG34 => "Socket G34"
  | ProcessorUpgrade_SocketAM3 => "Socket AM3"
  | ProcessorUpgrade_SocketC32 => "Socket C32"
  | ProcessorUpgrade_SocketLGA1156 => "Socket LGA1156"
  | ProcessorUpgrade_SocketLGA1567 => "Socket LGA1567"
  | ProcessorUpgrade_SocketPGA988A => "Socket PGA988A"
  | ProcessorUpgrade_SocketBGA1288 => "Socket BGA1288"
  | ProcessorUpgrade_SocketrPGA988B => "Socket rPGA988B"
  | ProcessorUpgrade_SocketBGA1023 => "Socket BGA1023"
  | ProcessorUpgrade_SocketBGA1224 => "Socket BGA1224"
  | ProcessorUpgrade_SocketLGA1155 => "Socket LGA1155"
  | ProcessorUpgrade_SocketLGA1356 => "Socket LGA1356"
  | ProcessorUpgrade_SocketLGA2011 => "Socket LGA2011"
  | ProcessorUpgrade_SocketFS1 => "Socket FS1"
  | ProcessorUpgrade_SocketFS2 => "Socket FS2"
  | ProcessorUpgrade_SocketFM1 => "Socket FM1"
  | ProcessorUpgrade_SocketFM2 => "Socket FM2"
  | ProcessorUpgrade_SocketLGA2011Three => "Socket LGA2011-3"
  | ProcessorUpgrade_SocketLGA1356Three => "Socket LGA1356-3"
  | ProcessorUpgrade_SocketLGA1150 => "Socket LGA1150"
  | ProcessorUpgrade_SocketBGA1168 => "Socket BGA1168"
  | ProcessorUpgrade_SocketBGA1234 => "Socket BGA1234"
  | ProcessorUpgrade_SocketBGA1364 => "Socket BGA1364"
  | ProcessorUpgrade_SocketAM4 => "Socket AM4"
  | ProcessorUpgrade_SocketLGA1151 => "Socket LGA1151"
  | ProcessorUpgrade_SocketBGA1356 => "Socket BGA1356"
  | ProcessorUpgrade_SocketBGA1440 => "Socket BGA1440"
  | ProcessorUpgrade_SocketBGA1515 => "Socket BGA1515"
  | ProcessorUpgrade_SocketLGA3647 => "Socket LGA3647-1"
  | ProcessorUpgrade_SocketSP3 => "Socket SP3"
  | ProcessorUpgrade_SocketSP3r2 => "Socket SP3r2"
  | ProcessorUpgrade_SocketLGA2066 => "Socket LGA2066"
  | ProcessorUpgrade_SocketBGA1392 => "Socket BGA1392"
  | ProcessorUpgrade_SocketBGA1510 => "Socket BGA1510"
  | ProcessorUpgrade_SocketBGA1528 => "Socket BGA1528"
  | ProcessorUpgrade_SocketLGA4189 => "Socket LGA4189"
  | ProcessorUpgrade_SocketLGA1200 => "Socket LGA1200"
  | ProcessorUpgrade_Undefined n => "Undefined " ++ show_dec n
  end.

(* src/structures/007_cache.rs:67-76 `enum CacheLevel` *)
Inductive CacheLevel : Type :=
| CacheLevel_L1
| CacheLevel_L2
| CacheLevel_L3
| CacheLevel_L4
| CacheLevel_L5
| CacheLevel_L6
| CacheLevel_L7
| CacheLevel_L8.

(* src/structures/007_cache.rs:305-319 `impl From<u16> for CacheLevel` *)
Definition CacheLevel_from (byte : N) : out CacheLevel :=
  if (byte =? 0) then Val CacheLevel_L1 else
  if (byte =? 1) then Val CacheLevel_L2 else
  if (byte =? 2) then Val CacheLevel_L3 else
  if (byte =? 3) then Val CacheLevel_L4 else
  if (byte =? 4) then Val CacheLevel_L5 else
  if (byte =? 5) then Val CacheLevel_L6 else
  if (byte =? 6) then Val CacheLevel_L7 else
  if (byte =? 7) then Val CacheLevel_L8 else
  Panic.

(* src/structures/007_cache.rs:320-333 `impl fmt::Display for CacheLevel` *)
Definition CacheLevel_display (alt : bool) (x : CacheLevel) : string :=
  match x with
  | CacheLevel_L1 => "L1"
  | CacheLevel_L2 => "L2"
  | CacheLevel_L3 => "L3"
  | CacheLevel_L4 => "L4"
  | CacheLevel_L5 => "L5"
  | CacheLevel_L6 => "L6"
  | CacheLevel_L7 => "L7"
  | CacheLevel_L8 => "L8"
  end.

(* src/structures/007_cache.rs:79-84 `enum CacheLocation` *)
Inductive CacheLocation : Type :=
| CacheLocation_Internal
| CacheLocation_External
| CacheLocation_Reserved
| CacheLocation_Unknown.

(* src/structures/007_cache.rs:335-345 `impl From<u16> for CacheLocation` *)
Definition CacheLocation_from (byte : N) : out CacheLocation :=
  if (byte =? 0) then Val CacheLocation_Internal else
  if (byte =? 1) then Val CacheLocation_External else
  if (byte =? 2) then Val CacheLocation_Reserved else
  if (byte =? 3) then Val CacheLocation_Unknown else
  Panic.

(* src/structures/007_cache.rs:346-355 `impl fmt::Display for CacheLocation` *)
Definition CacheLocation_display (alt : bool) (x : CacheLocation) : string :=
  match x with
  | CacheLocation_Internal => "Internal"
  | CacheLocation_External => "External"
  | CacheLocation_Reserved => "Reserved"
  | CacheLocation_Unknown => "Unknown"
  end.

(* src/structures/007_cache.rs:87-92 `enum CacheOperationalMode` *)
Inductive CacheOperationalMode : Type :=
| CacheOperationalMode_WriteThrough
| CacheOperationalMode_WriteBack
| CacheOperationalMode_ValuesWithMemoryAddress
| CacheOperationalMode_Unknown.

(* src/structures/007_cache.rs:357-367 `impl From<u16> for CacheOperationalMode` *)
Definition CacheOperationalMode_from (byte : N) : out CacheOperationalMode :=
  if (byte =? 0) then Val CacheOperationalMode_WriteThrough else
  if (byte =? 1) then Val CacheOperationalMode_WriteBack else
  if (byte =? 2) then Val CacheOperationalMode_ValuesWithMemoryAddress else
  if (byte =? 3) then Val CacheOperationalMode_Unknown else
  Panic.

(* src/structures/007_cache.rs:368-377 `impl fmt::Display for CacheOperationalMode` *)
Definition CacheOperationalMode_display (alt : bool) (x : CacheOperationalMode) : string :=
  match x with
  | CacheOperationalMode_WriteThrough => "Write Through"
  | CacheOperationalMode_WriteBack => "Write Back"
  | CacheOperationalMode_ValuesWithMemoryAddress => "Values with Memory Address"
  | CacheOperationalMode_Unknown => "Unknown"
  end.

(* src/structures/007_cache.rs:117-125 `enum CacheErrorCorrectionType` *)
Inductive CacheErrorCorrectionType : Type :=
| CacheErrorCorrectionType_Other
| CacheErrorCorrectionType_Unknown
| CacheErrorCorrectionType_None
| CacheErrorCorrectionType_Parity
| CacheErrorCorrectionType_SingleBitEcc
| CacheErrorCorrectionType_MultiBitEcc
| CacheErrorCorrectionType_Undefined (v : N).

(* src/structures/007_cache.rs:379-391 `impl From<u8> for CacheErrorCorrectionType` *)
Definition CacheErrorCorrectionType_from (byte : N) : CacheErrorCorrectionType :=
  if (byte =? 0x01) then CacheErrorCorrectionType_Other else
  if (byte =? 0x02) then CacheErrorCorrectionType_Unknown else
  if (byte =? 0x03) then CacheErrorCorrectionType_None else
  if (byte =? 0x04) then CacheErrorCorrectionType_Parity else
  if (byte =? 0x05) then CacheErrorCorrectionType_SingleBitEcc else
  if (byte =? 0x06) then CacheErrorCorrectionType_MultiBitEcc else
  CacheErrorCorrectionType_Undefined byte.

(* src/structures/007_cache.rs:392-404 `impl fmt::Display for CacheErrorCorrectionType` *)
Definition CacheErrorCorrectionType_display (alt : bool) (x : CacheErrorCorrectionType) : string :=
  match x with
  | CacheErrorCorrectionType_Other => "Other"
  | CacheErrorCorrectionType_Unknown => "Unknown"
  | CacheErrorCorrectionType_None => "None"
  | CacheErrorCorrectionType_Parity => "Parity"
  | CacheErrorCorrectionType_SingleBitEcc => "Single-bit ECC"
  | CacheErrorCorrectionType_MultiBitEcc => "Multi-bit ECC"
  | CacheErrorCorrectionType_Undefined t => "Undefined: " ++ show_dec t
  end.

(* src/structures/007_cache.rs:133-140 `enum SystemCacheType` *)
Inductive SystemCacheType : Type :=
| SystemCacheType_Other
| SystemCacheType_Unknown
| SystemCacheType_Instruction
| SystemCacheType_Data
| SystemCacheType_Unified
| SystemCacheType_Undefined (v : N).

(* src/structures/007_cache.rs:406-417 `impl From<u8> for SystemCacheType` *)
Definition SystemCacheType_from (byte : N) : SystemCacheType :=
  if (byte =? 0x01) then SystemCacheType_Other else
  if (byte =? 0x02) then SystemCacheType_Unknown else
  if (byte =? 0x03) then SystemCacheType_Instruction else
  if (byte =? 0x04) then SystemCacheType_Data else
  if (byte =? 0x05) then SystemCacheType_Unified else
  SystemCacheType_Undefined byte.

(* src/structures/007_cache.rs:418-429 `impl fmt::Display for SystemCacheType` *)
Definition SystemCacheType_display (alt : bool) (x : SystemCacheType) : string :=
  match x with
  | SystemCacheType_Other => "Other"
  | SystemCacheType_Unknown => "Unknown"
  | SystemCacheType_Instruction => "Instruction"
  | SystemCacheType_Data => "Data"
  | SystemCacheType_Unified => "Unified"
  | SystemCacheType_Undefined t => "Undefined: " ++ show_dec t
  end.

(* src/structures/007_cache.rs:144-160 `enum CacheAssociativity` *)
Inductive CacheAssociativity : Type :=
| CacheAssociativity_Other
| CacheAssociativity_Unknown
| CacheAssociativity_DirectMapped
| CacheAssociativity_TwowaySetAssociative
| CacheAssociativity_FourWaySetAssociative
| CacheAssociativity_FullyAssociative
| CacheAssociativity_EightWaySetAssociative
| CacheAssociativity_SixteenWaySetAssociative
| CacheAssociativity_TwelveWaySetAssociative
| CacheAssociativity_TwentyFourWaySetAssociative
| CacheAssociativity_ThirtyTwoWaySetAssociative
| CacheAssociativity_FourtyEightWaySetAssociative
| CacheAssociativity_SixtyFourWaySetAssociative
| CacheAssociativity_TwentyWaySetAssociative
| CacheAssociativity_Undefined (v : N).

(* src/structures/007_cache.rs:431-451 `impl From<u8> for CacheAssociativity` *)
Definition CacheAssociativity_from (byte : N) : CacheAssociativity :=
  if (byte =? 0x01) then CacheAssociativity_Other else
  if (byte =? 0x02) then CacheAssociativity_Unknown else
  if (byte =? 0x03) then CacheAssociativity_DirectMapped else
  if (byte =? 0x04) then CacheAssociativity_TwowaySetAssociative else
  if (byte =? 0x05) then CacheAssociativity_FourWaySetAssociative else
  if (byte =? 0x06) then CacheAssociativity_FullyAssociative else
  if (byte =? 0x07) then CacheAssociativity_EightWaySetAssociative else
  if (byte =? 0x08) then CacheAssociativity_SixteenWaySetAssociative else
  if (byte =? 0x09) then CacheAssociativity_TwelveWaySetAssociative else
  if (byte =? 0x0A) then CacheAssociativity_TwentyFourWaySetAssociative else
  if (byte =? 0x0B) then CacheAssociativity_ThirtyTwoWaySetAssociative else
  if (byte =? 0x0C) then CacheAssociativity_FourtyEightWaySetAssociative else
  if (byte =? 0x0D) then CacheAssociativity_SixtyFourWaySetAssociative else
  if (byte =? 0x0E) then CacheAssociativity_TwentyWaySetAssociative else
  CacheAssociativity_Undefined byte.

(* src/structures/007_cache.rs:452-472 `impl fmt::Display for CacheAssociativity` *)
Definition CacheAssociativity_display (alt : bool) (x : CacheAssociativity) : string :=
  match x with
  | CacheAssociativity_Other => "Other"
  | CacheAssociativity_Unknown => "Unknown"
  | CacheAssociativity_DirectMapped => "Direct Mapped"
  | CacheAssociativity_TwowaySetAssociative => "2-way Set-Associative"
  | CacheAssociativity_FourWaySetAssociative => "4-way Set-Associative"
  | CacheAssociativity_FullyAssociative => "Fully Associative"
  | CacheAssociativity_EightWaySetAssociative => "8-way Set-Associative"
  | CacheAssociativity_SixteenWaySetAssociative => "16-way Set-Associative"
  | CacheAssociativity_TwelveWaySetAssociative => "12-way Set-Associative"
  | CacheAssociativity_TwentyFourWaySetAssociative => "24-way Set-Associative"
  | CacheAssociativity_ThirtyTwoWaySetAssociative => "32-way Set-Associative"
  | CacheAssociativity_FourtyEightWaySetAssociative => "48-way Set-Associative"
  | CacheAssociativity_SixtyFourWaySetAssociative => "64-way Set-Associative"
  | CacheAssociativity_TwentyWaySetAssociative => "20-way Set-Associative"
  | CacheAssociativity_Undefined t => "Undefined: " ++ show_dec t
  end.

(* src/structures/008_port_connector.rs:38-82 `enum ConnectorType` *)
Inductive ConnectorType : Type :=
| ConnectorType_None
| ConnectorType_Centronics
| ConnectorType_MiniCentronics
| ConnectorType_Proprietary
| ConnectorType_Db25PinMale
| ConnectorType_Db25PinFemale
| ConnectorType_Db15PinMale
| ConnectorType_Db15PinFemale
| ConnectorType_Db9PinMale
| ConnectorType_Db9PinFemale
| ConnectorType_Rj11
| ConnectorType_Rj45
| ConnectorType_MiniScsi
| ConnectorType_MiniDin
| ConnectorType_MicroDin
| ConnectorType_Ps2
| ConnectorType_Infrared
| ConnectorType_HpHil
| ConnectorType_AccessBus
| ConnectorType_SsaScsi
| ConnectorType_CircularDin8Male
| ConnectorType_CircularDin8Female
| ConnectorType_OnBoardIde
| ConnectorType_OnBoardFloppy
| ConnectorType_DualInline9
| ConnectorType_DualInline25
| ConnectorType_DualInline50
| ConnectorType_DualInline68
| ConnectorType_OnBoardSoundInputFromCdRom
| ConnectorType_MiniCentronicsType14
| ConnectorType_MiniCentronicsType26
| ConnectorType_MiniJack
| ConnectorType_Bnc
| ConnectorType_Ieee1394
| ConnectorType_SasSataPlugReceptacle
| ConnectorType_UsbTypeCReceptacle
| ConnectorType_Pc98
| ConnectorType_Pc98Hireso
| ConnectorType_PcH98
| ConnectorType_Pc98Note
| ConnectorType_Pc98Full
| ConnectorType_Other
| ConnectorType_Undefined (v : N).

(* src/structures/008_port_connector.rs:152-200 `impl From<u8> for ConnectorType` *)
Definition ConnectorType_from (byte : N) : ConnectorType :=
  if (byte =? 0x00) then ConnectorType_None else
  if (byte =? 0x01) then ConnectorType_Centronics else
  if (byte =? 0x02) then ConnectorType_MiniCentronics else
  if (byte =? 0x03) then ConnectorType_Proprietary else
  if (byte =? 0x04) then ConnectorType_Db25PinMale else
  if (byte =? 0x05) then ConnectorType_Db25PinFemale else
  if (byte =? 0x06) then ConnectorType_Db15PinMale else
  if (byte =? 0x07) then ConnectorType_Db15PinFemale else
  if (byte =? 0x08) then ConnectorType_Db9PinMale else
  if (byte =? 0x09) then ConnectorType_Db9PinFemale else
  if (byte =? 0x0A) then ConnectorType_Rj11 else
  if (byte =? 0x0B) then ConnectorType_Rj45 else
  if (byte =? 0x0C) then ConnectorType_MiniScsi else
  if (byte =? 0x0D) then ConnectorType_MiniDin else
  if (byte =? 0x0E) then ConnectorType_MicroDin else
  if (byte =? 0x0F) then ConnectorType_Ps2 else
  if (byte =? 0x10) then ConnectorType_Infrared else
  if (byte =? 0x11) then ConnectorType_HpHil else
  if (byte =? 0x12) then ConnectorType_AccessBus else
  if (byte =? 0x13) then ConnectorType_SsaScsi else
  if (byte =? 0x14) then ConnectorType_CircularDin8Male else
  if (byte =? 0x15) then ConnectorType_CircularDin8Female else
  if (byte =? 0x16) then ConnectorType_OnBoardIde else
  if (byte =? 0x17) then ConnectorType_OnBoardFloppy else
  if (byte =? 0x18) then ConnectorType_DualInline9 else
  if (byte =? 0x19) then ConnectorType_DualInline25 else
  if (byte =? 0x1A) then ConnectorType_DualInline50 else
  if (byte =? 0x1B) then ConnectorType_DualInline68 else
  if (byte =? 0x1C) then ConnectorType_OnBoardSoundInputFromCdRom else
  if (byte =? 0x1D) then ConnectorType_MiniCentronicsType14 else
  if (byte =? 0x1E) then ConnectorType_MiniCentronicsType26 else
  if (byte =? 0x1F) then ConnectorType_MiniJack else
  if (byte =? 0x20) then ConnectorType_Bnc else
  if (byte =? 0x21) then ConnectorType_Ieee1394 else
  if (byte =? 0x22) then ConnectorType_SasSataPlugReceptacle else
  if (byte =? 0x23) then ConnectorType_UsbTypeCReceptacle else
  if (byte =? 0xA0) then ConnectorType_Pc98 else
  if (byte =? 0xA1) then ConnectorType_Pc98Hireso else
  if (byte =? 0xA2) then ConnectorType_PcH98 else
  if (byte =? 0xA3) then ConnectorType_Pc98Note else
  if (byte =? 0xA4) then ConnectorType_Pc98Full else
  if (byte =? 0xFF) then ConnectorType_Other else
  ConnectorType_Undefined byte.

(* src/structures/008_port_connector.rs:201-249 `impl fmt::Display for ConnectorType` *)
Definition ConnectorType_display (alt : bool) (x : ConnectorType) : string :=
  match x with
  | ConnectorType_None => "None"
  | ConnectorType_Centronics => "Centronics"
  | ConnectorType_MiniCentronics => "Mini Centronics"
  | ConnectorType_Proprietary => "Proprietary"
  | ConnectorType_Db25PinMale => "DB-25 pin male"
  | ConnectorType_Db25PinFemale => "DB-25 pin female"
  | ConnectorType_Db15PinMale => "DB-15 pin male"
  | ConnectorType_Db15PinFemale => "DB-15 pin female"
  | ConnectorType_Db9PinMale => "DB-9 pin male"
  | ConnectorType_Db9PinFemale => "DB-9 pin female"
  | ConnectorType_Rj11 => "RJ-11"
  | ConnectorType_Rj45 => "RJ-45"
  | ConnectorType_MiniScsi => "50-pin MiniSCSI"
  | ConnectorType_MiniDin => "Mini-DIN"
  | ConnectorType_MicroDin => "Micro-DIN"
  | ConnectorType_Ps2 => "PS/2"
  | ConnectorType_Infrared => "Infrared"
  | ConnectorType_HpHil => "HP-HIL"
  | ConnectorType_AccessBus => "Access Bus (USB)"
  | ConnectorType_SsaScsi => "SSA SCSI"
  | ConnectorType_CircularDin8Male => "Circular DIN-8 male"
  | ConnectorType_CircularDin8Female => "Circular DIN-8 female"
  | ConnectorType_OnBoardIde => "On Board IDE"
  | ConnectorType_OnBoardFloppy => "On Board Floppy"
  | ConnectorType_DualInline9 => "9-pin Dual Inline (pin 10 cut)"
  | ConnectorType_DualInline25 => "25-pin Dual Inline (pin 26 cut)"
  | ConnectorType_DualInline50 => "50-pin Dual Inline"
  | ConnectorType_DualInline68 => "68-pin Dual Inline"
  | ConnectorType_OnBoardSoundInputFromCdRom => "On Board Sound Input from CD-ROM"
  | ConnectorType_MiniCentronicsType14 => "Mini-Centronics Type-14"
  | ConnectorType_MiniCentronicsType26 => "Mini-Centronics Type-26"
  | ConnectorType_MiniJack => "Mini-jack (headphones)"
  | ConnectorType_Bnc => "BNC"
  | ConnectorType_Ieee1394 => "1394"
  | ConnectorType_SasSataPlugReceptacle => "SAS/SATA Plug Receptacle"
  | ConnectorType_UsbTypeCReceptacle => "USB Type-C Receptacle"
  | ConnectorType_Pc98 => "PC-98"
  | ConnectorType_Pc98Hireso => "PC-98Hireso"
  | ConnectorType_PcH98 => "PC-H98"
  | ConnectorType_Pc98Note => "PC-98Note"
  | ConnectorType_Pc98Full => "PC-98Full"
  | ConnectorType_Other => "Other – Use Reference Designator Strings to supply information."
  | ConnectorType_Undefined v => "Undefined: " ++ show_dec v
  end.

(* src/structures/008_port_connector.rs:85-126 `enum PortType` *)
Inductive PortType : Type :=
| PortType_None
| PortType_ParallelPortXtAtCompatible
| PortType_ParallelPortPs2
| PortType_ParallelPortEcp
| PortType_ParallelPortEpp
| PortType_ParallelPortEcpEpp
| PortType_SerialPortXtAtCompatible
| PortType_SerialPort16450Compatible
| PortType_SerialPort16550Compatible
| PortType_SerialPort16550ACompatible
| PortType_ScsiPort
| PortType_MidiPort
| PortType_JoyStickPort
| PortType_KeyboardPort
| PortType_MousePort
| PortType_SsaScsi
| PortType_Usb
| PortType_FireWire
| PortType_PcmciaType1
| PortType_PcmciaType2
| PortType_PcmciaType3
| PortType_Cardbus
| PortType_AccessBusPort
| PortType_Scsi2
| PortType_ScsiWide
| PortType_Pc98
| PortType_Pc98Hireso
| PortType_PcH98
| PortType_VideoPort
| PortType_AudioPort
| PortType_ModemPort
| PortType_NetworkPort
| PortType_Sata
| PortType_Sas
| PortType_MultiFunctionDisplayPort
| PortType_Thunderbolt
| PortType_Intel8251Compatible
| PortType_Intel8251FifoCompatible
| PortType_Other
| PortType_Undefined (v : N).

(* src/structures/008_port_connector.rs:251-296 `impl From<u8> for PortType` *)
Definition PortType_from (byte : N) : PortType :=
  if (byte =? 0x00) then PortType_None else
  if (byte =? 0x01) then PortType_ParallelPortXtAtCompatible else
  if (byte =? 0x02) then PortType_ParallelPortPs2 else
  if (byte =? 0x03) then PortType_ParallelPortEcp else
  if (byte =? 0x04) then PortType_ParallelPortEpp else
  if (byte =? 0x05) then PortType_ParallelPortEcpEpp else
  if (byte =? 0x06) then PortType_SerialPortXtAtCompatible else
  if (byte =? 0x07) then PortType_SerialPort16450Compatible else
  if (byte =? 0x08) then PortType_SerialPort16550Compatible else
  if (byte =? 0x09) then PortType_SerialPort16550ACompatible else
  if (byte =? 0x0A) then PortType_ScsiPort else
  if (byte =? 0x0B) then PortType_MidiPort else
  if (byte =? 0x0C) then PortType_JoyStickPort else
  if (byte =? 0x0D) then PortType_KeyboardPort else
  if (byte =? 0x0E) then PortType_MousePort else
  if (byte =? 0x0F) then PortType_SsaScsi else
  if (byte =? 0x10) then PortType_Usb else
  if (byte =? 0x11) then PortType_FireWire else
  if (byte =? 0x12) then PortType_PcmciaType1 else
  if (byte =? 0x13) then PortType_PcmciaType2 else
  if (byte =? 0x14) then PortType_PcmciaType3 else
  if (byte =? 0x15) then PortType_Cardbus else
  if (byte =? 0x16) then PortType_AccessBusPort else
  if (byte =? 0x17) then PortType_Scsi2 else
  if (byte =? 0x18) then PortType_ScsiWide else
  if (byte =? 0x19) then PortType_Pc98 else
  if (byte =? 0x1A) then PortType_Pc98Hireso else
  if (byte =? 0x1B) then PortType_PcH98 else
  if (byte =? 0x1C) then PortType_VideoPort else
  if (byte =? 0x1D) then PortType_AudioPort else
  if (byte =? 0x1E) then PortType_ModemPort else
  if (byte =? 0x1F) then PortType_NetworkPort else
  if (byte =? 0x20) then PortType_Sata else
  if (byte =? 0x21) then PortType_Sas else
  if (byte =? 0x22) then PortType_MultiFunctionDisplayPort else
  if (byte =? 0x23) then PortType_Thunderbolt else
  if (byte =? 0xA0) then PortType_Intel8251Compatible else
  if (byte =? 0xA1) then PortType_Intel8251FifoCompatible else
  if (byte =? 0xFF) then PortType_Other else
  PortType_Undefined byte.

(* src/structures/008_port_connector.rs:297-342 `impl fmt::Display for PortType` *)
Definition PortType_display (alt : bool) (x : PortType) : string :=
  match x with
  | PortType_None => "None"
  | PortType_ParallelPortXtAtCompatible => "Parallel Port XT/AT Compatible"
  | PortType_ParallelPortPs2 => "Parallel Port PS/2"
  | PortType_ParallelPortEcp => "Parallel Port ECP"
  | PortType_ParallelPortEpp => "Parallel Port EPP"
  | PortType_ParallelPortEcpEpp => "Parallel Port ECP/EPP"
  | PortType_SerialPortXtAtCompatible => "Serial Port XT/AT Compatible"
  | PortType_SerialPort16450Compatible => "Serial Port 16450 Compatible"
  | PortType_SerialPort16550Compatible => "Serial Port 16550 Compatible"
  | PortType_SerialPort16550ACompatible => "Serial Port 16550A Compatible"
  | PortType_ScsiPort => "SCSI Port"
  | PortType_MidiPort => "MIDI Port"
  | PortType_JoyStickPort => "Joy Stick Port"
  | PortType_KeyboardPort => "Keyboard Port"
  | PortType_MousePort => "Mouse Port"
  | PortType_SsaScsi => "SSA SCSI"
  | PortType_Usb => "USB"
  | PortType_FireWire => "FireWire (IEEE P1394)"
  | PortType_PcmciaType1 => "PCMCIA Type I2"
  | PortType_PcmciaType2 => "PCMCIA Type II"
  | PortType_PcmciaType3 => "PCMCIA Type III"
  | PortType_Cardbus => "Cardbus"
  | PortType_AccessBusPort => "Access Bus Port"
  | PortType_Scsi2 => "SCSI II"
  | PortType_ScsiWide => "SCSI Wide"
  | PortType_Pc98 => "PC-98"
  | PortType_Pc98Hireso => "PC-98-Hireso"
  | PortType_PcH98 => "PC-H98"
  | PortType_VideoPort => "Video Port"
  | PortType_AudioPort => "Audio Port"
  | PortType_ModemPort => "Modem Port"
  | PortType_NetworkPort => "Network Port"
  | PortType_Sata => "SATA"
  | PortType_Sas => "SAS"
  | PortType_MultiFunctionDisplayPort => "MFDP (Multi-Function Display Port)"
  | PortType_Thunderbolt => "Thunderbolt"
  | PortType_Intel8251Compatible => "8251 Compatible"
  | PortType_Intel8251FifoCompatible => "8251 FIFO Compatible"
  | PortType_Other => "Other"
  | PortType_Undefined v => "Undefined: " ++ show_dec v
  end.

(* src/structures/009_system_slots.rs:73-235 `enum SlotType` *)
Inductive SlotType : Type :=
| SlotType_Other
| SlotType_Unknown
| SlotType_Isa
| SlotType_Mca
| SlotType_Eisa
| SlotType_Pci
| SlotType_PcCard
| SlotType_VlVesa
| SlotType_Proprietary
| SlotType_ProcessorCardSlot
| SlotType_ProprietaryMemoryCardSlot
| SlotType_IoRiserCardSlot
| SlotType_Nubus
| SlotType_Pci66Mhz
| SlotType_Agp
| SlotType_Agp2x
| SlotType_Agp4x
| SlotType_PciX
| SlotType_Agp8x
| SlotType_M2Socket1DP
| SlotType_M2Socket1SD
| SlotType_M2Socket2
| SlotType_M2Socket3
| SlotType_MxmType1
| SlotType_MxmType2
| SlotType_MxmType3
| SlotType_MxmType3He
| SlotType_MxmType4
| SlotType_Mxm3TypeA
| SlotType_Mxm3TypeB
| SlotType_U2PciExpressGen2
| SlotType_U2PciExpressGen3
| SlotType_PciExpressMini52pin1
| SlotType_PciExpressMini52pin2
| SlotType_PciExpressMini76pin
| SlotType_U2PciExpressGen4
| SlotType_U2PciExpressGen5
| SlotType_OcpNic3Small
| SlotType_OcpNic3Large
| SlotType_OcpNicPriorTo3
| SlotType_CxlFlexbus1
| SlotType_Pc98C20
| SlotType_Pc98C24
| SlotType_Pc98E
| SlotType_Pc98LocalBus
| SlotType_Pc98Card
| SlotType_PciExpress
| SlotType_PciExpressX1
| SlotType_PciExpressX2
| SlotType_PciExpressX4
| SlotType_PciExpressX8
| SlotType_PciExpressX16
| SlotType_PciExpressGen2
| SlotType_PciExpressGen2x1
| SlotType_PciExpressGen2x2
| SlotType_PciExpressGen2x4
| SlotType_PciExpressGen2x8
| SlotType_PciExpressGen2x16
| SlotType_PciExpressGen3
| SlotType_PciExpressGen3x1
| SlotType_PciExpressGen3x2
| SlotType_PciExpressGen3x4
| SlotType_PciExpressGen3x8
| SlotType_PciExpressGen3x16
| SlotType_PciExpressGen4
| SlotType_PciExpressGen4x1
| SlotType_PciExpressGen4x2
| SlotType_PciExpressGen4x4
| SlotType_PciExpressGen4x8
| SlotType_PciExpressGen4x16
| SlotType_PciExpressGen5
| SlotType_PciExpressGen5x1
| SlotType_PciExpressGen5x2
| SlotType_PciExpressGen5x4
| SlotType_PciExpressGen5x8
| SlotType_PciExpressGen5x16
| SlotType_PciExpressGen6
| SlotType_E1FormFactorSlot
| SlotType_E3FormFactorSlot
| SlotType_Undefined (v : N).

(* src/structures/009_system_slots.rs:407-492 `impl From<u8> for SlotType` *)
Definition SlotType_from (byte : N) : SlotType :=
  if (byte =? 0x01) then SlotType_Other else
  if (byte =? 0x02) then SlotType_Unknown else
  if (byte =? 0x03) then SlotType_Isa else
  if (byte =? 0x04) then SlotType_Mca else
  if (byte =? 0x05) then SlotType_Eisa else
  if (byte =? 0x06) then SlotType_Pci else
  if (byte =? 0x07) then SlotType_PcCard else
  if (byte =? 0x08) then SlotType_VlVesa else
  if (byte =? 0x09) then SlotType_Proprietary else
  if (byte =? 0x0A) then SlotType_ProcessorCardSlot else
  if (byte =? 0x0B) then SlotType_ProprietaryMemoryCardSlot else
  if (byte =? 0x0C) then SlotType_IoRiserCardSlot else
  if (byte =? 0x0D) then SlotType_Nubus else
  if (byte =? 0x0E) then SlotType_Pci66Mhz else
  if (byte =? 0x0F) then SlotType_Agp else
  if (byte =? 0x10) then SlotType_Agp2x else
  if (byte =? 0x11) then SlotType_Agp4x else
  if (byte =? 0x12) then SlotType_PciX else
  if (byte =? 0x13) then SlotType_Agp8x else
  if (byte =? 0x14) then SlotType_M2Socket1DP else
  if (byte =? 0x15) then SlotType_M2Socket1SD else
  if (byte =? 0x16) then SlotType_M2Socket2 else
  if (byte =? 0x17) then SlotType_M2Socket3 else
  if (byte =? 0x18) then SlotType_MxmType1 else
  if (byte =? 0x19) then SlotType_MxmType2 else
  if (byte =? 0x1A) then SlotType_MxmType3 else
  if (byte =? 0x1B) then SlotType_MxmType3He else
  if (byte =? 0x1C) then SlotType_MxmType4 else
  if (byte =? 0x1D) then SlotType_Mxm3TypeA else
  if (byte =? 0x1E) then SlotType_Mxm3TypeB else
  if (byte =? 0x1F) then SlotType_PciExpressGen2 else
  if (byte =? 0x20) then SlotType_PciExpressGen3 else
  if (byte =? 0x21) then SlotType_PciExpressMini52pin1 else
  if (byte =? 0x22) then SlotType_PciExpressMini52pin2 else
  if (byte =? 0x23) then SlotType_PciExpressMini76pin else
  if (byte =? 0x24) then SlotType_PciExpressGen4 else
  if (byte =? 0x25) then SlotType_PciExpressGen5 else
  if (byte =? 0x26) then SlotType_OcpNic3Small else
  if (byte =? 0x27) then SlotType_OcpNic3Large else
  if (byte =? 0x28) then SlotType_OcpNicPriorTo3 else
  if (byte =? 0x30) then SlotType_CxlFlexbus1 else
  if (byte =? 0xA0) then SlotType_Pc98C20 else
  if (byte =? 0xA1) then SlotType_Pc98C24 else
  if (byte =? 0xA2) then SlotType_Pc98E else
  if (byte =? 0xA3) then SlotType_Pc98LocalBus else
  if (byte =? 0xA4) then SlotType_Pc98Card else
  if (byte =? 0xA5) then SlotType_PciExpress else
  if (byte =? 0xA6) then SlotType_PciExpressX1 else
  if (byte =? 0xA7) then SlotType_PciExpressX2 else
  if (byte =? 0xA8) then SlotType_PciExpressX4 else
  if (byte =? 0xA9) then SlotType_PciExpressX8 else
  if (byte =? 0xAA) then SlotType_PciExpressX16 else
  if (byte =? 0xAB) then SlotType_PciExpressGen2 else
  if (byte =? 0xAC) then SlotType_PciExpressGen2x1 else
  if (byte =? 0xAD) then SlotType_PciExpressGen2x2 else
  if (byte =? 0xAE) then SlotType_PciExpressGen2x4 else
  if (byte =? 0xAF) then SlotType_PciExpressGen2x8 else
  if (byte =? 0xB0) then SlotType_PciExpressGen2x16 else
  if (byte =? 0xB1) then SlotType_PciExpressGen3 else
  if (byte =? 0xB2) then SlotType_PciExpressGen3x1 else
  if (byte =? 0xB3) then SlotType_PciExpressGen3x2 else
  if (byte =? 0xB4) then SlotType_PciExpressGen3x4 else
  if (byte =? 0xB5) then SlotType_PciExpressGen3x8 else
  if (byte =? 0xB6) then SlotType_PciExpressGen3x16 else
  if (byte =? 0xB8) then SlotType_PciExpressGen4 else
  if (byte =? 0xB9) then SlotType_PciExpressGen4x1 else
  if (byte =? 0xBA) then SlotType_PciExpressGen4x2 else
  if (byte =? 0xBB) then SlotType_PciExpressGen4x4 else
  if (byte =? 0xBC) then SlotType_PciExpressGen4x8 else
  if (byte =? 0xBD) then SlotType_PciExpressGen4x16 else
  if (byte =? 0xBE) then SlotType_PciExpressGen5 else
  if (byte =? 0xBF) then SlotType_PciExpressGen5x1 else
  if (byte =? 0xC0) then SlotType_PciExpressGen5x2 else
  if (byte =? 0xC1) then SlotType_PciExpressGen5x4 else
  if (byte =? 0xC2) then SlotType_PciExpressGen5x8 else
  if (byte =? 0xC3) then SlotType_PciExpressGen5x16 else
  if (byte =? 0xC4) then SlotType_PciExpressGen6 else
  if (byte =? 0xC5) then SlotType_E1FormFactorSlot else
  if (byte =? 0xC6) then SlotType_E3FormFactorSlot else
  SlotType_Undefined byte.

(* src/structures/009_system_slots.rs:493-632 `impl fmt::Display for SlotType` *)
Definition SlotType_display (alt : bool) (x : SlotType) : string :=
  match x with
  | SlotType_Other => "Other"
  | SlotType_Unknown => "Unknown"
  | SlotType_Isa => "ISA"
  | SlotType_Mca => "MCA"
  | SlotType_Eisa => "EISA"
  | SlotType_Pci => "PCI"
  | SlotType_PcCard => "PC Card (PCMCIA)"
  | SlotType_VlVesa => "VL-VESA"
  | SlotType_Proprietary => "Proprietary"
  | SlotType_ProcessorCardSlot => "Processor Card Slot"
  | SlotType_ProprietaryMemoryCardSlot => "Proprietary Memory Card Slot"
  | SlotType_IoRiserCardSlot => "I/O Riser Card Slot"
  | SlotType_Nubus => "NuBus"
  | SlotType_Pci66Mhz => "PCI – 66MHz Capable"
  | SlotType_Agp => "AGP"
  | SlotType_Agp2x => "AGP 2X"
  | SlotType_Agp4x => "AGP 4X"
  | SlotType_PciX => "PCI-X"
  | SlotType_Agp8x => "AGP 8X"
  | SlotType_M2Socket1DP => "M.2 Socket 1-DP (Mechanical Key A)"
  | SlotType_M2Socket1SD => "M.2 Socket 1-SD (Mechanical Key E)"
  | SlotType_M2Socket2 => "M.2 Socket 2 (Mechanical Key B)"
  | SlotType_M2Socket3 => "M.2 Socket 3 (Mechanical Key M)"
  | SlotType_MxmType1 => "MXM Type I"
  | SlotType_MxmType2 => "MXM Type II"
  | SlotType_MxmType3 => "MXM Type III (standard connector)"
  | SlotType_MxmType3He => "MXM Type III (HE connector)"
  | SlotType_MxmType4 => "MXM Type IV"
  | SlotType_Mxm3TypeA => "MXM 3.0 Type A"
  | SlotType_Mxm3TypeB => "MXM 3.0 Type B"
  | SlotType_U2PciExpressGen2 => "PCI Express Gen 2 SFF-8639 (U.2)"
  | SlotType_U2PciExpressGen3 => "PCI Express Gen 3 SFF-8639 (U.2)"
  | SlotType_PciExpressMini52pin1 => if alt then "PCI Express Mini 52-pin (CEM spec. 2.0) with bottom-side keep-outs. Use Slot Length field value 03h (short length) for ""half-Mini card"" -only support, 04h (long length) for ""full-Mini card"" or dual support." else "PCI Express Mini 52-pin with bottom-side keep-outs"
  | SlotType_PciExpressMini52pin2 => if alt then "PCI Express Mini 52-pin (CEM spec. 2.0) without bottom-side keep-outs. Use Slot Length field value 03h (short length) for ""half-Mini card"" -only support, 04h (long length) for ""full-Mini card"" or dual support." else "PCI Express Mini 52-pin without bottom-side keep-outs"
  | SlotType_PciExpressMini76pin => if alt then "PCI Express Mini 76-pin (CEM spec. 2.0) Corresponds to Display-Mini card." else "PCI Express Mini 76-pin"
  | SlotType_U2PciExpressGen4 => "PCI Express Gen 4 SFF-8639 (U.2)"
  | SlotType_U2PciExpressGen5 => "PCI Express Gen 5 SFF-8639 (U.2)"
  | SlotType_OcpNic3Small => "OCP NIC 3.0 Small Form Factor (SFF)"
  | SlotType_OcpNic3Large => "OCP NIC 3.0 Large Form Factor (LFF)"
  | SlotType_OcpNicPriorTo3 => "OCP NIC Prior to 3.0"
  | SlotType_CxlFlexbus1 => "CXL Flexbus 1.0 (deprecated)"
  | SlotType_Pc98C20 => "PC-98/C20"
  | SlotType_Pc98C24 => "PC-98/C24"
  | SlotType_Pc98E => "PC-98/E"
  | SlotType_Pc98LocalBus => "PC-98/Local Bus"
  | SlotType_Pc98Card => "PC-98/Card"
  | SlotType_PciExpress => "PCI Express"
  | SlotType_PciExpressX1 => "PCI Express x1"
  | SlotType_PciExpressX2 => "PCI Express x2"
  | SlotType_PciExpressX4 => "PCI Express x4"
  | SlotType_PciExpressX8 => "PCI Express x8"
  | SlotType_PciExpressX16 => "PCI Express x16"
  | SlotType_PciExpressGen2 => "PCI Express Gen 2"
  | SlotType_PciExpressGen2x1 => "PCI Express Gen 2 x1"
  | SlotType_PciExpressGen2x2 => "PCI Express Gen 2 x2"
  | SlotType_PciExpressGen2x4 => "PCI Express Gen 2 x4"
  | SlotType_PciExpressGen2x8 => "PCI Express Gen 2 x8"
  | SlotType_PciExpressGen2x16 => "PCI Express Gen 2 x16"
  | SlotType_PciExpressGen3 => "PCI Express Gen 3"
  | SlotType_PciExpressGen3x1 => "PCI Express Gen 3 x1"
  | SlotType_PciExpressGen3x2 => "PCI Express Gen 3 x2"
  | SlotType_PciExpressGen3x4 => "PCI Express Gen 3 x4"
  | SlotType_PciExpressGen3x8 => "PCI Express Gen 3 x8"
  | SlotType_PciExpressGen3x16 => "PCI Express Gen 3 x16"
  | SlotType_PciExpressGen4 => "PCI Express Gen 4"
  | SlotType_PciExpressGen4x1 => "PCI Express Gen 4 x1"
  | SlotType_PciExpressGen4x2 => "PCI Express Gen 4 x2"
  | SlotType_PciExpressGen4x4 => "PCI Express Gen 4 x4"
  | SlotType_PciExpressGen4x8 => "PCI Express Gen 4 x8"
  | SlotType_PciExpressGen4x16 => "PCI Express Gen 4 x16"
  | SlotType_PciExpressGen5 => "PCI Express Gen 5"
  | SlotType_PciExpressGen5x1 => "PCI Express Gen 5 x1"
  | SlotType_PciExpressGen5x2 => "PCI Express Gen 5 x2"
  | SlotType_PciExpressGen5x4 => "PCI Express Gen 5 x4"
  | SlotType_PciExpressGen5x8 => "PCI Express Gen 5 x8"
  | SlotType_PciExpressGen5x16 => "PCI Express Gen 5 x16"
  | SlotType_PciExpressGen6 => "PCI Express Gen 6 and Beyond"
  | SlotType_E1FormFactorSlot => if alt then "Enterprise and Datacenter 1U E1 Form Factor Slot (EDSFF E1.S, E1.L). See specifications SFF-TA-1006 and SFF-TA-1007 for more details on values for slot length and pitch." else "EDSFF E1"
  | SlotType_E3FormFactorSlot => if alt then "Enterprise and Datacenter 3"" E3 Form Factor Slot (EDSFF E3.S, E3.L). See specification SFF-TA-1008 for details on values for slot length and pitch." else "EDSFF E3"
  | SlotType_Undefined v => "Undefined: " ++ show_dec v
  end.

(* src/structures/009_system_slots.rs:238-266 `enum SlotWidth` *)
Inductive SlotWidth : Type :=
| SlotWidth_Other
| SlotWidth_Unknown
| SlotWidth_Byte
| SlotWidth_Word
| SlotWidth_Dword
| SlotWidth_Qword
| SlotWidth_Dqword
| SlotWidth_X1
| SlotWidth_X2
| SlotWidth_X4
| SlotWidth_X8
| SlotWidth_X12
| SlotWidth_X16
| SlotWidth_X32
| SlotWidth_Undefined (v : N).

(* src/structures/009_system_slots.rs:634-654 `impl From<u8> for SlotWidth` *)
Definition SlotWidth_from (byte : N) : SlotWidth :=
  if (byte =? 0x01) then SlotWidth_Other else
  if (byte =? 0x02) then SlotWidth_Unknown else
  if (byte =? 0x03) then SlotWidth_Byte else
  if (byte =? 0x04) then SlotWidth_Word else
  if (byte =? 0x05) then SlotWidth_Dword else
  if (byte =? 0x06) then SlotWidth_Qword else
  if (byte =? 0x07) then SlotWidth_Dqword else
  if (byte =? 0x08) then SlotWidth_X1 else
  if (byte =? 0x09) then SlotWidth_X2 else
  if (byte =? 0x0A) then SlotWidth_X4 else
  if (byte =? 0x0B) then SlotWidth_X8 else
  if (byte =? 0x0C) then SlotWidth_X12 else
  if (byte =? 0x0D) then SlotWidth_X16 else
  if (byte =? 0x0E) then SlotWidth_X32 else
  SlotWidth_Undefined byte.

(* src/structures/009_system_slots.rs:655-675 `impl fmt::Display for SlotWidth` *)
Definition SlotWidth_display (alt : bool) (x : SlotWidth) : string :=
  match x with
  | SlotWidth_Other => "Other"
  | SlotWidth_Unknown => "Unknown"
  | SlotWidth_Byte => "8 bit"
  | SlotWidth_Word => "16 bit"
  | SlotWidth_Dword => "32 bit"
  | SlotWidth_Qword => "64 bit"
  | SlotWidth_Dqword => "128 bit"
  | SlotWidth_X1 => "1x or x1"
  | SlotWidth_X2 => "2x or x2"
  | SlotWidth_X4 => "4x or x4"
  | SlotWidth_X8 => "8x or x8"
  | SlotWidth_X12 => "12x or x12"
  | SlotWidth_X16 => "16x or x16"
  | SlotWidth_X32 => "32x or x32"
  | SlotWidth_Undefined v => "Undefined: " ++ show_dec v
  end.

(* src/structures/009_system_slots.rs:269-278 `enum CurrentUsage` *)
Inductive CurrentUsage : Type :=
| CurrentUsage_Other
| CurrentUsage_Unknown
| CurrentUsage_Available
| CurrentUsage_InUse
| CurrentUsage_Unavailable
| CurrentUsage_Undefined (v : N).

(* src/structures/009_system_slots.rs:677-688 `impl From<u8> for CurrentUsage` *)
Definition CurrentUsage_from (byte : N) : CurrentUsage :=
  if (byte =? 0x01) then CurrentUsage_Other else
  if (byte =? 0x02) then CurrentUsage_Unknown else
  if (byte =? 0x03) then CurrentUsage_Available else
  if (byte =? 0x04) then CurrentUsage_InUse else
  if (byte =? 0x05) then CurrentUsage_Unavailable else
  CurrentUsage_Undefined byte.

(* src/structures/009_system_slots.rs:689-707 `impl fmt::Display for CurrentUsage` *)
Definition CurrentUsage_display (alt : bool) (x : CurrentUsage) : string :=
  match x with
  | CurrentUsage_Other => "Other"
  | CurrentUsage_Unknown => "Unknown"
  | CurrentUsage_Available => "Available"
  | CurrentUsage_InUse => "In use"
  | CurrentUsage_Unavailable => if alt then "Unavailable (e.g., connected to a processor that is not installed)" else "Unavailable"
  | CurrentUsage_Undefined v => "Undefined: " ++ show_dec v
  end.

(* src/structures/009_system_slots.rs:281-291 `enum SlotLength` *)
Inductive SlotLength : Type :=
| SlotLength_Other
| SlotLength_Unknown
| SlotLength_ShortLength
| SlotLength_LongLength
| SlotLength_DriveFormFactor2_5
| SlotLength_DriveFormFactor3_5
| SlotLength_Undefined (v : N).

(* src/structures/009_system_slots.rs:709-721 `impl From<u8> for SlotLength` *)
Definition SlotLength_from (byte : N) : SlotLength :=
  if (byte =? 0x01) then SlotLength_Other else
  if (byte =? 0x02) then SlotLength_Unknown else
  if (byte =? 0x03) then SlotLength_ShortLength else
  if (byte =? 0x04) then SlotLength_LongLength else
  if (byte =? 0x05) then SlotLength_DriveFormFactor2_5 else
  if (byte =? 0x06) then SlotLength_DriveFormFactor3_5 else
  SlotLength_Undefined byte.

(* src/structures/009_system_slots.rs:722-734 `impl fmt::Display for SlotLength` *)
Definition SlotLength_display (alt : bool) (x : SlotLength) : string :=
  match x with
  | SlotLength_Other => "Other"
  | SlotLength_Unknown => "Unknown"
  | SlotLength_ShortLength => "Short Length"
  | SlotLength_LongLength => "Long Length"
  | SlotLength_DriveFormFactor2_5 => "2.5"" drive form factor"
  | SlotLength_DriveFormFactor3_5 => "3.5"" drive form factor"
  | SlotLength_Undefined v => "Undefined: " ++ show_dec v
  end.

(* src/structures/015_system_event_log/log_record_format.rs:52-108 `enum EventLogType` *)
Inductive EventLogType : Type :=
| EventLogType_Reserved (v : N)
| EventLogType_SingleBitEccMemoryError
| EventLogType_MultiBitEccMemoryError
| EventLogType_ParityMemoryError
| EventLogType_BusTimeOut
| EventLogType_IoChannelCheck
| EventLogType_SoftwareNmi
| EventLogType_PostMemoryResize
| EventLogType_PostError
| EventLogType_PciParityError
| EventLogType_PciSystemError
| EventLogType_CpuFailure
| EventLogType_EisaFailSafeTimerTimeOut
| EventLogType_CorrectableMemoryLogDisabled
| EventLogType_LoggingDisabledForSpecificEventType
| EventLogType_SystemLimitExceeded
| EventLogType_AsynchronousHardwareTimerExpired
| EventLogType_SystemConfigurationInformation
| EventLogType_HardDiskInformation
| EventLogType_SystemReconfigured
| EventLogType_UncorrectableCpuComplexError
| EventLogType_LogAreaReset
| EventLogType_SystemBoot
| EventLogType_Unused (v : N)
| EventLogType_Available (v : N)
| EventLogType_EndOfLog.

(* src/structures/015_system_event_log/log_record_format.rs:220-251 `impl From<u8> for EventLogType` *)
Definition EventLogType_from (byte : N) : EventLogType :=
  if (byte =? 0x00) || (byte =? 0x0F) then EventLogType_Reserved byte else
  if (byte =? 0x01) then EventLogType_SingleBitEccMemoryError else
  if (byte =? 0x02) then EventLogType_MultiBitEccMemoryError else
  if (byte =? 0x03) then EventLogType_ParityMemoryError else
  if (byte =? 0x04) then EventLogType_BusTimeOut else
  if (byte =? 0x05) then EventLogType_IoChannelCheck else
  if (byte =? 0x06) then EventLogType_SoftwareNmi else
  if (byte =? 0x07) then EventLogType_PostMemoryResize else
  if (byte =? 0x08) then EventLogType_PostError else
  if (byte =? 0x09) then EventLogType_PciParityError else
  if (byte =? 0x0A) then EventLogType_PciSystemError else
  if (byte =? 0x0B) then EventLogType_CpuFailure else
  if (byte =? 0x0C) then EventLogType_EisaFailSafeTimerTimeOut else
  if (byte =? 0x0D) then EventLogType_CorrectableMemoryLogDisabled else
  if (byte =? 0x0E) then EventLogType_LoggingDisabledForSpecificEventType else
  if (byte =? 0x10) then EventLogType_SystemLimitExceeded else
  if (byte =? 0x11) then EventLogType_AsynchronousHardwareTimerExpired else
  if (byte =? 0x12) then EventLogType_SystemConfigurationInformation else
  if (byte =? 0x13) then EventLogType_HardDiskInformation else
  if (byte =? 0x14) then EventLogType_SystemReconfigured else
  if (byte =? 0x15) then EventLogType_UncorrectableCpuComplexError else
  if (byte =? 0x16) then EventLogType_LogAreaReset else
  if (byte =? 0x17) then EventLogType_SystemBoot else
  if ((0x18 <=? byte) && (byte <=? 0x7F)) then EventLogType_Unused byte else
  if ((0x80 <=? byte) && (byte <=? 0xFE)) then EventLogType_Available byte else
  EventLogType_EndOfLog (* 0xFF *).

(* src/structures/015_system_event_log/log_record_format.rs:252-283 `impl From<EventLogType> for u8` *)
Definition EventLogType_to (x : EventLogType) : N :=
  match x with
  | EventLogType_Reserved byte => byte
  | EventLogType_SingleBitEccMemoryError => 0x01
  | EventLogType_MultiBitEccMemoryError => 0x02
  | EventLogType_ParityMemoryError => 0x03
  | EventLogType_BusTimeOut => 0x04
  | EventLogType_IoChannelCheck => 0x05
  | EventLogType_SoftwareNmi => 0x06
  | EventLogType_PostMemoryResize => 0x07
  | EventLogType_PostError => 0x08
  | EventLogType_PciParityError => 0x09
  | EventLogType_PciSystemError => 0x0a
  | EventLogType_CpuFailure => 0x0b
  | EventLogType_EisaFailSafeTimerTimeOut => 0x0c
  | EventLogType_CorrectableMemoryLogDisabled => 0x0d
  | EventLogType_LoggingDisabledForSpecificEventType => 0x0e
  | EventLogType_SystemLimitExceeded => 0x10
  | EventLogType_AsynchronousHardwareTimerExpired => 0x11
  | EventLogType_SystemConfigurationInformation => 0x12
  | EventLogType_HardDiskInformation => 0x13
  | EventLogType_SystemReconfigured => 0x14
  | EventLogType_UncorrectableCpuComplexError => 0x15
  | EventLogType_LogAreaReset => 0x16
  | EventLogType_SystemBoot => 0x17
  | EventLogType_Unused v => v
  | EventLogType_Available v => v
  | EventLogType_EndOfLog => 0xFF
  end.

(* src/structures/015_system_event_log/log_record_format.rs:284-338 `impl fmt::Display for EventLogType` *)
Definition EventLogType_display (alt : bool) (x : EventLogType) : string :=
  match alt, x with
  | true, EventLogType_Reserved v => "Reserved: " ++ show_dec v
  | false, EventLogType_Reserved _ => "Reserved"
  | _, EventLogType_SingleBitEccMemoryError => "Single-bit ECC memory error"
  | _, EventLogType_MultiBitEccMemoryError => "Multi-bit ECC memory error"
  | _, EventLogType_ParityMemoryError => "Parity memory error"
  | true, EventLogType_BusTimeOut => "Bus time-out"
  | false, EventLogType_BusTimeOut => "Bus timeout"
  | true, EventLogType_IoChannelCheck => "I/O Channel Check"
  | false, EventLogType_IoChannelCheck => "I/O channel block"
  | _, EventLogType_SoftwareNmi => "Software NMI"
  | true, EventLogType_PostMemoryResize => "POST Memory Resize"
  | false, EventLogType_PostMemoryResize => "POST memory resize"
  | true, EventLogType_PostError => "POST Error"
  | false, EventLogType_PostError => "POST error"
  | true, EventLogType_PciParityError => "PCI Parity Error"
  | false, EventLogType_PciParityError => "PCI parity error"
  | true, EventLogType_PciSystemError => "PCI System Error"
  | false, EventLogType_PciSystemError => "PCI system error"
  | true, EventLogType_CpuFailure => "CPU Failure"
  | false, EventLogType_CpuFailure => "CPU failure"
  | true, EventLogType_EisaFailSafeTimerTimeOut => "EISA FailSafe Timer time-out"
  | false, EventLogType_EisaFailSafeTimerTimeOut => "EISA failsafe timer timeout"
  | _, EventLogType_CorrectableMemoryLogDisabled => "Correctable memory log disabled"
  | true, EventLogType_LoggingDisabledForSpecificEventType => "Logging disabled for a specific Event Type"
  | false, EventLogType_LoggingDisabledForSpecificEventType => "Logging disabled"
  | true, EventLogType_SystemLimitExceeded => "System Limit Exceeded"
  | false, EventLogType_SystemLimitExceeded => "System limit exceeded"
  | true, EventLogType_AsynchronousHardwareTimerExpired => "Asynchronous hardware timer expired and issued a system reset"
  | false, EventLogType_AsynchronousHardwareTimerExpired => "Asynchronous hardware timer expired"
  | _, EventLogType_SystemConfigurationInformation => "System configuration information"
  | true, EventLogType_HardDiskInformation => "Hard-disk information"
  | false, EventLogType_HardDiskInformation => "Hard disk information"
  | _, EventLogType_SystemReconfigured => "System reconfigured"
  | _, EventLogType_UncorrectableCpuComplexError => "Uncorrectable CPU-complex error"
  | true, EventLogType_LogAreaReset => "Log Area Reset/Cleared"
  | false, EventLogType_LogAreaReset => "Log area reset/cleared"
  | _, EventLogType_SystemBoot => "System boot"
  | _, EventLogType_Unused v => "Unused: " ++ show_dec v
  | true, EventLogType_Available v => "Available for system- and OEM-specific assignments: " ++ show_dec v
  | false, EventLogType_Available _ => "OEM-specific"
  | _, EventLogType_EndOfLog => "End of log"
  end.

(* src/structures/015_system_event_log/mod.rs:85-94 `enum LogHeaderFormat` *)
Inductive LogHeaderFormat : Type :=
| LogHeaderFormat_NoHeader
| LogHeaderFormat_LogHeaderType1
| LogHeaderFormat_Available (v : N)
| LogHeaderFormat_OemSpecific (v : N).

(* src/structures/015_system_event_log/mod.rs:334-343 `impl From<u8> for LogHeaderFormat` *)
Definition LogHeaderFormat_from (byte : N) : LogHeaderFormat :=
  if (byte =? 0x00) then LogHeaderFormat_NoHeader else
  if (byte =? 0x01) then LogHeaderFormat_LogHeaderType1 else
  if ((0x80 <=? byte) && (byte <=? 0xFF)) then LogHeaderFormat_OemSpecific byte else
  LogHeaderFormat_Available byte.

(* src/structures/015_system_event_log/mod.rs:344-355 `impl fmt::Display for LogHeaderFormat` *)
Definition LogHeaderFormat_display (alt : bool) (x : LogHeaderFormat) : string :=
  match alt, x with
  | _, LogHeaderFormat_NoHeader => "No Header"
  | true, LogHeaderFormat_LogHeaderType1 => "Type 1 log header"
  | false, LogHeaderFormat_LogHeaderType1 => "Type 1"
  | true, LogHeaderFormat_OemSpecific v => "BIOS vendor or OEM-specific format: " ++ show_dec v
  | false, LogHeaderFormat_OemSpecific _ => "OEM-specific"
  | _, LogHeaderFormat_Available v => "Available: " ++ show_dec v
  end.

(* src/structures/016_physical_memory_array.rs:12-30 `enum MemoryArrayLocation` *)
Inductive MemoryArrayLocation : Type :=
| MemoryArrayLocation_Other
| MemoryArrayLocation_Unknown
| MemoryArrayLocation_SystemBoardOrMotherboard
| MemoryArrayLocation_IsaAddOnCard
| MemoryArrayLocation_EisaAddOnCard
| MemoryArrayLocation_PciAddOnCard
| MemoryArrayLocation_McaAddOnCard
| MemoryArrayLocation_PcmciaAddOnCard
| MemoryArrayLocation_ProprietaryAddOnCard
| MemoryArrayLocation_NuBus
| MemoryArrayLocation_Pc98c20AddOnCard
| MemoryArrayLocation_Pc98c24AddOnCard
| MemoryArrayLocation_Pc98eAddOnCard
| MemoryArrayLocation_Pc98LocalBusAddOnCard
| MemoryArrayLocation_CxlAddOnCard
| MemoryArrayLocation_Undefined (v : N).

(* src/structures/016_physical_memory_array.rs:32-53 `impl From<u8> for MemoryArrayLocation` *)
Definition MemoryArrayLocation_from (byte : N) : MemoryArrayLocation :=
  if (byte =? 1) then MemoryArrayLocation_Other else
  if (byte =? 2) then MemoryArrayLocation_Unknown else
  if (byte =? 3) then MemoryArrayLocation_SystemBoardOrMotherboard else
  if (byte =? 4) then MemoryArrayLocation_IsaAddOnCard else
  if (byte =? 5) then MemoryArrayLocation_EisaAddOnCard else
  if (byte =? 6) then MemoryArrayLocation_PciAddOnCard else
  if (byte =? 7) then MemoryArrayLocation_McaAddOnCard else
  if (byte =? 8) then MemoryArrayLocation_PcmciaAddOnCard else
  if (byte =? 9) then MemoryArrayLocation_ProprietaryAddOnCard else
  if (byte =? 10) then MemoryArrayLocation_NuBus else
  if (byte =? 11) then MemoryArrayLocation_Pc98c20AddOnCard else
  if (byte =? 12) then MemoryArrayLocation_Pc98c24AddOnCard else
  if (byte =? 13) then MemoryArrayLocation_Pc98eAddOnCard else
  if (byte =? 14) then MemoryArrayLocation_Pc98LocalBusAddOnCard else
  if (byte =? 15) then MemoryArrayLocation_CxlAddOnCard else
  MemoryArrayLocation_Undefined byte.

(* src/structures/016_physical_memory_array.rs:55-76 `impl fmt::Display for MemoryArrayLocation` *)
Definition MemoryArrayLocation_display (alt : bool) (x : MemoryArrayLocation) : string :=
  match x with
  | MemoryArrayLocation_Other => "Other"
  | MemoryArrayLocation_Unknown => "Unknown"
  | MemoryArrayLocation_SystemBoardOrMotherboard => "System board or motherboard"
  | MemoryArrayLocation_IsaAddOnCard => "ISA add-on card"
  | MemoryArrayLocation_EisaAddOnCard => "EISA add-on card"
  | MemoryArrayLocation_PciAddOnCard => "PCI add-on card"
  | MemoryArrayLocation_McaAddOnCard => "MCA add-on card"
  | MemoryArrayLocation_PcmciaAddOnCard => "PCMCIA add-on card"
  | MemoryArrayLocation_ProprietaryAddOnCard => "Proprietary add-on card"
  | MemoryArrayLocation_NuBus => "NuBus"
  | MemoryArrayLocation_Pc98c20AddOnCard => "PC-98/C20 add-on card"
  | MemoryArrayLocation_Pc98c24AddOnCard => "PC-98/C24 add-on card"
  | MemoryArrayLocation_Pc98eAddOnCard => "PC-98/E add-on card"
  | MemoryArrayLocation_Pc98LocalBusAddOnCard => "PC-98/Local bus add-on card"
  | MemoryArrayLocation_CxlAddOnCard => "CXL add-on card"
  | MemoryArrayLocation_Undefined t => "Undefined: " ++ show_dec t
  end.

(* src/structures/016_physical_memory_array.rs:79-89 `enum MemoryArrayUse` *)
Inductive MemoryArrayUse : Type :=
| MemoryArrayUse_Other
| MemoryArrayUse_Unknown
| MemoryArrayUse_SystemMemory
| MemoryArrayUse_VideoMemory
| MemoryArrayUse_FlashMemory
| MemoryArrayUse_NonVolatileRam
| MemoryArrayUse_CacheMemory
| MemoryArrayUse_Undefined (v : N).

(* src/structures/016_physical_memory_array.rs:91-104 `impl From<u8> for MemoryArrayUse` *)
Definition MemoryArrayUse_from (byte : N) : MemoryArrayUse :=
  if (byte =? 1) then MemoryArrayUse_Other else
  if (byte =? 2) then MemoryArrayUse_Unknown else
  if (byte =? 3) then MemoryArrayUse_SystemMemory else
  if (byte =? 4) then MemoryArrayUse_VideoMemory else
  if (byte =? 5) then MemoryArrayUse_FlashMemory else
  if (byte =? 6) then MemoryArrayUse_NonVolatileRam else
  if (byte =? 7) then MemoryArrayUse_CacheMemory else
  MemoryArrayUse_Undefined byte.

(* src/structures/016_physical_memory_array.rs:106-119 `impl fmt::Display for MemoryArrayUse` *)
Definition MemoryArrayUse_display (alt : bool) (x : MemoryArrayUse) : string :=
  match x with
  | MemoryArrayUse_Other => "Other"
  | MemoryArrayUse_Unknown => "Unknown"
  | MemoryArrayUse_SystemMemory => "System memory"
  | MemoryArrayUse_VideoMemory => "Video memory"
  | MemoryArrayUse_FlashMemory => "Flash memory"
  | MemoryArrayUse_NonVolatileRam => "Non-volatile RAM"
  | MemoryArrayUse_CacheMemory => "Cache memory"
  | MemoryArrayUse_Undefined t => "Undefined: " ++ show_dec t
  end.

(* src/structures/016_physical_memory_array.rs:122-132 `enum MemoryArrayErrorCorrectionTypes` *)
Inductive MemoryArrayErrorCorrectionTypes : Type :=
| MemoryArrayErrorCorrectionTypes_Other
| MemoryArrayErrorCorrectionTypes_Unknown
| MemoryArrayErrorCorrectionTypes_None
| MemoryArrayErrorCorrectionTypes_Parity
| MemoryArrayErrorCorrectionTypes_SingleBitEcc
| MemoryArrayErrorCorrectionTypes_MultiBitEcc
| MemoryArrayErrorCorrectionTypes_CRC
| MemoryArrayErrorCorrectionTypes_Undefined (v : N).

(* src/structures/016_physical_memory_array.rs:134-147 `impl From<u8> for MemoryArrayErrorCorrectionTypes` *)
Definition MemoryArrayErrorCorrectionTypes_from (byte : N) : MemoryArrayErrorCorrectionTypes :=
  if (byte =? 1) then MemoryArrayErrorCorrectionTypes_Other else
  if (byte =? 2) then MemoryArrayErrorCorrectionTypes_Unknown else
  if (byte =? 3) then MemoryArrayErrorCorrectionTypes_None else
  if (byte =? 4) then MemoryArrayErrorCorrectionTypes_Parity else
  if (byte =? 5) then MemoryArrayErrorCorrectionTypes_SingleBitEcc else
  if (byte =? 6) then MemoryArrayErrorCorrectionTypes_MultiBitEcc else
  if (byte =? 7) then MemoryArrayErrorCorrectionTypes_CRC else
  MemoryArrayErrorCorrectionTypes_Undefined byte.

(* src/structures/016_physical_memory_array.rs:149-162 `impl fmt::Display for MemoryArrayErrorCorrectionTypes` *)
Definition MemoryArrayErrorCorrectionTypes_display (alt : bool) (x : MemoryArrayErrorCorrectionTypes) : string :=
  match x with
  | MemoryArrayErrorCorrectionTypes_Other => "Other"
  | MemoryArrayErrorCorrectionTypes_Unknown => "Unknown"
  | MemoryArrayErrorCorrectionTypes_None => "None"
  | MemoryArrayErrorCorrectionTypes_Parity => "Parity"
  | MemoryArrayErrorCorrectionTypes_SingleBitEcc => "Single-bit ECC"
  | MemoryArrayErrorCorrectionTypes_MultiBitEcc => "Multi-bit ECC"
  | MemoryArrayErrorCorrectionTypes_CRC => "CRC"
  | MemoryArrayErrorCorrectionTypes_Undefined t => "Undefined: " ++ show_dec t
  end.

(* src/structures/017_memory_device.rs:17-23 `enum ErrorGranularity` *)
Inductive MDErrorGranularity : Type :=
| MDErrorGranularity_Other
| MDErrorGranularity_Unknown
| MDErrorGranularity_DeviceLevel
| MDErrorGranularity_MemoryLevel
| MDErrorGranularity_Undefined (v : N).

(* src/structures/017_memory_device.rs:25-35 `impl From<u8> for ErrorGranularity` *)
Definition MDErrorGranularity_from (byte : N) : MDErrorGranularity :=
  if (byte =? 1) then MDErrorGranularity_Other else
  if (byte =? 2) then MDErrorGranularity_Unknown else
  if (byte =? 3) then MDErrorGranularity_DeviceLevel else
  if (byte =? 4) then MDErrorGranularity_MemoryLevel else
  MDErrorGranularity_Undefined byte.

(* src/structures/017_memory_device.rs:38-45 `enum ErrorOperation` *)
Inductive MDErrorOperation : Type :=
| MDErrorOperation_Other
| MDErrorOperation_Unknown
| MDErrorOperation_Read
| MDErrorOperation_Write
| MDErrorOperation_PartialWrite
| MDErrorOperation_Undefined (v : N).

(* src/structures/017_memory_device.rs:47-58 `impl From<u8> for ErrorOperation` *)
Definition MDErrorOperation_from (byte : N) : MDErrorOperation :=
  if (byte =? 1) then MDErrorOperation_Other else
  if (byte =? 2) then MDErrorOperation_Unknown else
  if (byte =? 3) then MDErrorOperation_Read else
  if (byte =? 4) then MDErrorOperation_Write else
  if (byte =? 5) then MDErrorOperation_PartialWrite else
  MDErrorOperation_Undefined byte.

(* src/structures/017_memory_device.rs:61-77 `enum ErrorType` *)
Inductive MDErrorType : Type :=
| MDErrorType_Other
| MDErrorType_Unknown
| MDErrorType_Ok
| MDErrorType_BadRead
| MDErrorType_Parity
| MDErrorType_SingleBit
| MDErrorType_DoubleBit
| MDErrorType_MultiBit
| MDErrorType_Nibble
| MDErrorType_Checksum
| MDErrorType_Crc
| MDErrorType_CorrectedSingleBit
| MDErrorType_Corrected
| MDErrorType_Uncorrectable
| MDErrorType_Undefined (v : N).

(* src/structures/017_memory_device.rs:79-99 `impl From<u8> for ErrorType` *)
Definition MDErrorType_from (byte : N) : MDErrorType :=
  if (byte =? 1) then MDErrorType_Other else
  if (byte =? 2) then MDErrorType_Unknown else
  if (byte =? 3) then MDErrorType_Ok else
  if (byte =? 4) then MDErrorType_BadRead else
  if (byte =? 5) then MDErrorType_Parity else
  if (byte =? 6) then MDErrorType_SingleBit else
  if (byte =? 7) then MDErrorType_DoubleBit else
  if (byte =? 8) then MDErrorType_MultiBit else
  if (byte =? 9) then MDErrorType_Nibble else
  if (byte =? 10) then MDErrorType_Checksum else
  if (byte =? 11) then MDErrorType_Crc else
  if (byte =? 12) then MDErrorType_CorrectedSingleBit else
  if (byte =? 13) then MDErrorType_Corrected else
  if (byte =? 14) then MDErrorType_Uncorrectable else
  MDErrorType_Undefined byte.

(* src/structures/017_memory_device.rs:102-120 `enum FormFactor` *)
Inductive FormFactor : Type :=
| FormFactor_Other
| FormFactor_Unknown
| FormFactor_Simm
| FormFactor_Sip
| FormFactor_Chip
| FormFactor_Dip
| FormFactor_Zip
| FormFactor_ProprietaryCard
| FormFactor_Dimm
| FormFactor_Tsop
| FormFactor_RowOfChips
| FormFactor_Rimm
| FormFactor_SoDimm
| FormFactor_Srimm
| FormFactor_FbDimm
| FormFactor_Undefined (v : N).

(* src/structures/017_memory_device.rs:122-144 `impl From<u8> for FormFactor` *)
Definition FormFactor_from (byte : N) : FormFactor :=
  if (byte =? 0) then FormFactor_Other else
  if (byte =? 1) then FormFactor_Unknown else
  if (byte =? 2) then FormFactor_Simm else
  if (byte =? 3) then FormFactor_Sip else
  if (byte =? 4) then FormFactor_Chip else
  if (byte =? 5) then FormFactor_Dip else
  if (byte =? 6) then FormFactor_Zip else
  if (byte =? 7) then FormFactor_ProprietaryCard else
  if (byte =? 8) then FormFactor_Dimm else
  if (byte =? 9) then FormFactor_Dimm else
  if (byte =? 10) then FormFactor_Tsop else
  if (byte =? 11) then FormFactor_RowOfChips else
  if (byte =? 12) then FormFactor_Rimm else
  if (byte =? 13) then FormFactor_SoDimm else
  if (byte =? 14) then FormFactor_Srimm else
  if (byte =? 15) then FormFactor_FbDimm else
  FormFactor_Undefined byte.

(* src/structures/017_memory_device.rs:147-157 `enum MemoryTechnology` *)
Inductive MemoryTechnology : Type :=
| MemoryTechnology_Other
| MemoryTechnology_Unknown
| MemoryTechnology_Dram
| MemoryTechnology_NvDimmN
| MemoryTechnology_NvDimmF
| MemoryTechnology_NvDimmP
| MemoryTechnology_IntelOptane
| MemoryTechnology_Undefined (v : N).

(* src/structures/017_memory_device.rs:159-172 `impl From<u8> for MemoryTechnology` *)
Definition MemoryTechnology_from (byte : N) : MemoryTechnology :=
  if (byte =? 1) then MemoryTechnology_Other else
  if (byte =? 2) then MemoryTechnology_Unknown else
  if (byte =? 3) then MemoryTechnology_Dram else
  if (byte =? 4) then MemoryTechnology_NvDimmN else
  if (byte =? 5) then MemoryTechnology_NvDimmF else
  if (byte =? 6) then MemoryTechnology_NvDimmP else
  if (byte =? 7) then MemoryTechnology_IntelOptane else
  MemoryTechnology_Undefined byte.

(* src/structures/017_memory_device.rs:175-211 `enum Type` *)
Inductive MemoryType : Type :=
| MemoryType_Other
| MemoryType_Unknown
| MemoryType_Dram
| MemoryType_Edram
| MemoryType_Vram
| MemoryType_Sram
| MemoryType_Ram
| MemoryType_Rom
| MemoryType_Flash
| MemoryType_Eeprom
| MemoryType_Feprom
| MemoryType_Eprom
| MemoryType_Cdram
| MemoryType_ThreeDram
| MemoryType_Sdram
| MemoryType_Sgram
| MemoryType_Rdram
| MemoryType_Ddr
| MemoryType_Ddr2
| MemoryType_Ddr2FbDimm
| MemoryType_Reserved
| MemoryType_Ddr3
| MemoryType_Fbd2
| MemoryType_Ddr4
| MemoryType_Ddr5
| MemoryType_LpDdr
| MemoryType_LpDdr2
| MemoryType_LpDdr3
| MemoryType_LpDdr4
| MemoryType_LpDdr5
| MemoryType_LogicalNonVolatileDevice
| MemoryType_Hbm
| MemoryType_Hbm2
| MemoryType_Undefined (v : N).

(* src/structures/017_memory_device.rs:213-254 `impl From<u8> for Type` *)
Definition MemoryType_from (byte : N) : MemoryType :=
  if (byte =? 1) then MemoryType_Other else
  if (byte =? 2) then MemoryType_Unknown else
  if (byte =? 3) then MemoryType_Dram else
  if (byte =? 4) then MemoryType_Edram else
  if (byte =? 5) then MemoryType_Vram else
  if (byte =? 6) then MemoryType_Sram else
  if (byte =? 7) then MemoryType_Ram else
  if (byte =? 8) then MemoryType_Rom else
  if (byte =? 9) then MemoryType_Flash else
  if (byte =? 10) then MemoryType_Eeprom else
  if (byte =? 11) then MemoryType_Feprom else
  if (byte =? 12) then MemoryType_Eprom else
  if (byte =? 13) then MemoryType_Cdram else
  if (byte =? 14) then MemoryType_ThreeDram else
  if (byte =? 15) then MemoryType_Sdram else
  if (byte =? 16) then MemoryType_Sgram else
  if (byte =? 17) then MemoryType_Rdram else
  if (byte =? 18) then MemoryType_Ddr else
  if (byte =? 19) then MemoryType_Ddr2 else
  if (byte =? 20) then MemoryType_Ddr2FbDimm else
  if (byte =? 21) then MemoryType_Reserved else
  if (byte =? 22) then MemoryType_Reserved else
  if (byte =? 23) then MemoryType_Reserved else
  if (byte =? 24) then MemoryType_Ddr3 else
  if (byte =? 25) then MemoryType_Fbd2 else
  if (byte =? 26) then MemoryType_Ddr4 else
  if (byte =? 27) then MemoryType_LpDdr else
  if (byte =? 28) then MemoryType_LpDdr2 else
  if (byte =? 29) then MemoryType_LpDdr3 else
  if (byte =? 30) then MemoryType_LpDdr4 else
  if (byte =? 31) then MemoryType_LogicalNonVolatileDevice else
  if (byte =? 32) then MemoryType_Hbm else
  if (byte =? 33) then MemoryType_Hbm2 else
  if (byte =? 34) then MemoryType_Ddr5 else
  if (byte =? 35) then MemoryType_LpDdr5 else
  MemoryType_Undefined byte.

(* src/structures/018_memory_error_32.rs:40-56 `enum ErrorType` *)
Inductive MEErrorType : Type :=
| MEErrorType_Other
| MEErrorType_Unknown
| MEErrorType_Ok
| MEErrorType_BadRead
| MEErrorType_ParityError
| MEErrorType_SingleBitError
| MEErrorType_DoubleBitError
| MEErrorType_MultiBitError
| MEErrorType_NibbleError
| MEErrorType_ChecksumError
| MEErrorType_CrcError
| MEErrorType_CorrectedSingleBitError
| MEErrorType_CorrectedError
| MEErrorType_UncorrectableError
| MEErrorType_Undefined (v : N).

(* src/structures/018_memory_error_32.rs:102-122 `impl From<u8> for ErrorType` *)
Definition MEErrorType_from (byte : N) : MEErrorType :=
  if (byte =? 0x01) then MEErrorType_Other else
  if (byte =? 0x02) then MEErrorType_Unknown else
  if (byte =? 0x03) then MEErrorType_Ok else
  if (byte =? 0x04) then MEErrorType_BadRead else
  if (byte =? 0x05) then MEErrorType_ParityError else
  if (byte =? 0x06) then MEErrorType_SingleBitError else
  if (byte =? 0x07) then MEErrorType_DoubleBitError else
  if (byte =? 0x08) then MEErrorType_MultiBitError else
  if (byte =? 0x09) then MEErrorType_NibbleError else
  if (byte =? 0x0a) then MEErrorType_ChecksumError else
  if (byte =? 0x0b) then MEErrorType_CrcError else
  if (byte =? 0x0c) then MEErrorType_CorrectedSingleBitError else
  if (byte =? 0x0d) then MEErrorType_CorrectedError else
  if (byte =? 0x0e) then MEErrorType_UncorrectableError else
  MEErrorType_Undefined byte.

(* src/structures/018_memory_error_32.rs:123-143 `impl fmt::Display for ErrorType` *)
Definition MEErrorType_display (alt : bool) (x : MEErrorType) : string :=
  match x with
  | MEErrorType_Other => "Other"
  | MEErrorType_Unknown => "Unknown"
  | MEErrorType_Ok => "OK"
  | MEErrorType_BadRead => "Bad read"
  | MEErrorType_ParityError => "Parity error"
  | MEErrorType_SingleBitError => "Single-bit error"
  | MEErrorType_DoubleBitError => "Double-bit error"
  | MEErrorType_MultiBitError => "Multi-bit error"
  | MEErrorType_NibbleError => "Nibble error"
  | MEErrorType_ChecksumError => "Checksum error"
  | MEErrorType_CrcError => "CRC error"
  | MEErrorType_CorrectedSingleBitError => "Corrected single-bit error"
  | MEErrorType_CorrectedError => "Corrected error"
  | MEErrorType_UncorrectableError => "Uncorrectable error"
  | MEErrorType_Undefined v => "Undefined: " ++ show_dec v
  end.

(* src/structures/018_memory_error_32.rs:60-68 `enum ErrorGranularity` *)
Inductive MEErrorGranularity : Type :=
| MEErrorGranularity_Other
| MEErrorGranularity_Unknown
| MEErrorGranularity_DeviceLevel
| MEErrorGranularity_MemoryPartitionLevel
| MEErrorGranularity_Undefined (v : N).

(* src/structures/018_memory_error_32.rs:145-155 `impl From<u8> for ErrorGranularity` *)
Definition MEErrorGranularity_from (byte : N) : MEErrorGranularity :=
  if (byte =? 0x01) then MEErrorGranularity_Other else
  if (byte =? 0x02) then MEErrorGranularity_Unknown else
  if (byte =? 0x03) then MEErrorGranularity_DeviceLevel else
  if (byte =? 0x04) then MEErrorGranularity_MemoryPartitionLevel else
  MEErrorGranularity_Undefined byte.

(* src/structures/018_memory_error_32.rs:156-166 `impl fmt::Display for ErrorGranularity` *)
Definition MEErrorGranularity_display (alt : bool) (x : MEErrorGranularity) : string :=
  match x with
  | MEErrorGranularity_Other => "Other"
  | MEErrorGranularity_Unknown => "Unknown"
  | MEErrorGranularity_DeviceLevel => "Device level"
  | MEErrorGranularity_MemoryPartitionLevel => "Memory partition level"
  | MEErrorGranularity_Undefined v => "Undefined: " ++ show_dec v
  end.

(* src/structures/018_memory_error_32.rs:72-80 `enum ErrorOperation` *)
Inductive MEErrorOperation : Type :=
| MEErrorOperation_Other
| MEErrorOperation_Unknown
| MEErrorOperation_Read
| MEErrorOperation_Write
| MEErrorOperation_PartialWrite
| MEErrorOperation_Undefined (v : N).

(* src/structures/018_memory_error_32.rs:168-179 `impl From<u8> for ErrorOperation` *)
Definition MEErrorOperation_from (byte : N) : MEErrorOperation :=
  if (byte =? 0x01) then MEErrorOperation_Other else
  if (byte =? 0x02) then MEErrorOperation_Unknown else
  if (byte =? 0x03) then MEErrorOperation_Read else
  if (byte =? 0x04) then MEErrorOperation_Write else
  if (byte =? 0x05) then MEErrorOperation_PartialWrite else
  MEErrorOperation_Undefined byte.

(* src/structures/018_memory_error_32.rs:180-191 `impl fmt::Display for ErrorOperation` *)
Definition MEErrorOperation_display (alt : bool) (x : MEErrorOperation) : string :=
  match x with
  | MEErrorOperation_Other => "Other"
  | MEErrorOperation_Unknown => "Unknown"
  | MEErrorOperation_Read => "Read"
  | MEErrorOperation_Write => "Write"
  | MEErrorOperation_PartialWrite => "Partial write"
  | MEErrorOperation_Undefined v => "Undefined: " ++ show_dec v
  end.

(* src/structures/021_built_in_pointing_device.rs:29-40 `enum Type` *)
Inductive PointingDeviceType : Type :=
| PointingDeviceType_Other
| PointingDeviceType_Unknown
| PointingDeviceType_Mouse
| PointingDeviceType_TrackBall
| PointingDeviceType_TrackPoint
| PointingDeviceType_GlidePoint
| PointingDeviceType_TouchPad
| PointingDeviceType_TouchScreen
| PointingDeviceType_OpticalSensor
| PointingDeviceType_Undefined (v : N).

(* src/structures/021_built_in_pointing_device.rs:85-100 `impl From<u8> for Type` *)
Definition PointingDeviceType_from (byte : N) : PointingDeviceType :=
  if (byte =? 0x01) then PointingDeviceType_Other else
  if (byte =? 0x02) then PointingDeviceType_Unknown else
  if (byte =? 0x03) then PointingDeviceType_Mouse else
  if (byte =? 0x04) then PointingDeviceType_TrackBall else
  if (byte =? 0x05) then PointingDeviceType_TrackPoint else
  if (byte =? 0x06) then PointingDeviceType_GlidePoint else
  if (byte =? 0x07) then PointingDeviceType_TouchPad else
  if (byte =? 0x08) then PointingDeviceType_TouchScreen else
  if (byte =? 0x09) then PointingDeviceType_OpticalSensor else
  PointingDeviceType_Undefined byte.

(* src/structures/021_built_in_pointing_device.rs:101-116 `impl fmt::Display for Type` *)
Definition PointingDeviceType_display (alt : bool) (x : PointingDeviceType) : string :=
  match x with
  | PointingDeviceType_Other => "Other"
  | PointingDeviceType_Unknown => "Unknown"
  | PointingDeviceType_Mouse => "Mouse"
  | PointingDeviceType_TrackBall => "Track Ball"
  | PointingDeviceType_TrackPoint => "Track Point"
  | PointingDeviceType_GlidePoint => "Glide Point"
  | PointingDeviceType_TouchPad => "Touch Pad"
  | PointingDeviceType_TouchScreen => "Touch Screen"
  | PointingDeviceType_OpticalSensor => "Optical Sensor"
  | PointingDeviceType_Undefined v => "Undefined: " ++ show_dec v
  end.

(* src/structures/021_built_in_pointing_device.rs:43-63 `enum Interface` *)
Inductive PointingDeviceInterface : Type :=
| PointingDeviceInterface_Other
| PointingDeviceInterface_Unknown
| PointingDeviceInterface_Serial
| PointingDeviceInterface_Ps2
| PointingDeviceInterface_Infrared
| PointingDeviceInterface_HpHil
| PointingDeviceInterface_BusMouse
| PointingDeviceInterface_Adb
| PointingDeviceInterface_BusMouseDb9
| PointingDeviceInterface_BusMouseMicroDin
| PointingDeviceInterface_Usb
| PointingDeviceInterface_Undefined (v : N).

(* src/structures/021_built_in_pointing_device.rs:118-135 `impl From<u8> for Interface` *)
Definition PointingDeviceInterface_from (byte : N) : PointingDeviceInterface :=
  if (byte =? 0x01) then PointingDeviceInterface_Other else
  if (byte =? 0x02) then PointingDeviceInterface_Unknown else
  if (byte =? 0x03) then PointingDeviceInterface_Serial else
  if (byte =? 0x04) then PointingDeviceInterface_Ps2 else
  if (byte =? 0x05) then PointingDeviceInterface_Infrared else
  if (byte =? 0x06) then PointingDeviceInterface_HpHil else
  if (byte =? 0x07) then PointingDeviceInterface_BusMouse else
  if (byte =? 0x08) then PointingDeviceInterface_Adb else
  if (byte =? 0xA0) then PointingDeviceInterface_BusMouseDb9 else
  if (byte =? 0xA1) then PointingDeviceInterface_BusMouseMicroDin else
  if (byte =? 0xA2) then PointingDeviceInterface_Usb else
  PointingDeviceInterface_Undefined byte.

(* src/structures/021_built_in_pointing_device.rs:136-153 `impl fmt::Display for Interface` *)
Definition PointingDeviceInterface_display (alt : bool) (x : PointingDeviceInterface) : string :=
  match x with
  | PointingDeviceInterface_Other => "Other"
  | PointingDeviceInterface_Unknown => "Unknown"
  | PointingDeviceInterface_Serial => "Serial"
  | PointingDeviceInterface_Ps2 => "PS/2"
  | PointingDeviceInterface_Infrared => "Infrared"
  | PointingDeviceInterface_HpHil => "HP-HIL"
  | PointingDeviceInterface_BusMouse => "Bus mouse"
  | PointingDeviceInterface_Adb => "ADB (Apple Desktop Bus)"
  | PointingDeviceInterface_BusMouseDb9 => "Bus mouse DB-9"
  | PointingDeviceInterface_BusMouseMicroDin => "Bus mouse micro-DIN"
  | PointingDeviceInterface_Usb => "USB"
  | PointingDeviceInterface_Undefined v => "Undefined: " ++ show_dec v
  end.

