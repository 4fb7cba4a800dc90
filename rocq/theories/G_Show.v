(* Generated by tools/gen_show.py from /repo/src; do not edit by hand.
   For every type with a derived `Debug`: what it tells the formatter, the names of the type
   or variant and of its fields, and the fields, in the order of the declaration. *)
From Coq Require Import String.
From Verif Require Import Base G_Enums M_Raw M_Entry M_Bios M_System M_BaseBoard M_Enclosure M_Processor M_Cache
  M_PortConnector M_SystemSlots M_Strings M_GroupAssociations M_SystemEventLog M_PhysicalMemoryArray M_MemoryDevice
  M_Memory M_PortableBattery M_Iter M_Flags M_Eq G_Eq M_Show.
Local Open Scope string_scope.
Local Open Scope N_scope.

(* src/lib.rs:688-713 `enum InfoType` *)
Definition InfoType_name (x : InfoType) : string :=
  match x with
  | InfoType_Bios => "Bios"
  | InfoType_System => "System"
  | InfoType_BaseBoard => "BaseBoard"
  | InfoType_Enclosure => "Enclosure"
  | InfoType_Processor => "Processor"
  | InfoType_Cache => "Cache"
  | InfoType_PortConnector => "PortConnector"
  | InfoType_SystemSlots => "SystemSlots"
  | InfoType_OemStrings => "OemStrings"
  | InfoType_SystemConfigurationOptions => "SystemConfigurationOptions"
  | InfoType_GroupAssociations => "GroupAssociations"
  | InfoType_SystemEventLog => "SystemEventLog"
  | InfoType_BiosLanguage => "BiosLanguage"
  | InfoType_PhysicalMemoryArray => "PhysicalMemoryArray"
  | InfoType_MemoryDevice => "MemoryDevice"
  | InfoType_MemoryError32 => "MemoryError32"
  | InfoType_MemoryArrayMappedAddress => "MemoryArrayMappedAddress"
  | InfoType_MemoryDeviceMappedAddress => "MemoryDeviceMappedAddress"
  | InfoType_BuiltInPointingDevice => "BuiltInPointingDevice"
  | InfoType_PortableBattery => "PortableBattery"
  | InfoType_SystemBoot => "SystemBoot"
  | InfoType_Oem _ => "Oem"
  | InfoType_End => "End"
  end.
Definition InfoType_tree (x : InfoType) : tree := show_variant (InfoType_name x) (InfoType_value x).

(* src/structures/001_system.rs:12-24 `enum WakeupType` *)
Definition WakeupType_name (x : WakeupType) : string :=
  match x with
  | WakeupType_Reserved => "Reserved"
  | WakeupType_Other => "Other"
  | WakeupType_Unknown => "Unknown"
  | WakeupType_APM_Timer => "APM_Timer"
  | WakeupType_Modem_Ring => "Modem_Ring"
  | WakeupType_LAN_Remote => "LAN_Remote"
  | WakeupType_Power_Switch => "Power_Switch"
  | WakeupType_PCI_PME => "PCI_PME"
  | WakeupType_AC_Power_Restored => "AC_Power_Restored"
  | WakeupType_Undefined _ => "Undefined"
  end.
Definition WakeupType_tree (x : WakeupType) : tree := show_variant (WakeupType_name x) (WakeupType_value x).

(* src/structures/002_baseboard.rs:13-29 `enum BoardType` *)
Definition BoardType_name (x : BoardType) : string :=
  match x with
  | BoardType_Unknown => "Unknown"
  | BoardType_Other => "Other"
  | BoardType_ServerBlade => "ServerBlade"
  | BoardType_ConnectivitySwitch => "ConnectivitySwitch"
  | BoardType_SystemManagementModule => "SystemManagementModule"
  | BoardType_ProcessorModule => "ProcessorModule"
  | BoardType_IoModule => "IoModule"
  | BoardType_MemoryModule => "MemoryModule"
  | BoardType_DaughterBoard => "DaughterBoard"
  | BoardType_MotherBoard => "MotherBoard"
  | BoardType_ProcessorMemoryModule => "ProcessorMemoryModule"
  | BoardType_ProcessorIoModule => "ProcessorIoModule"
  | BoardType_InterconnectBoard => "InterconnectBoard"
  | BoardType_Undefined _ => "Undefined"
  end.
Definition BoardType_tree (x : BoardType) : tree := show_variant (BoardType_name x) (BoardType_value x).

(* src/structures/003_enclosure.rs:56-108 `enum EnclosureType` *)
Definition EnclosureType_name (x : EnclosureType) : string :=
  match x with
  | EnclosureType_Other => "Other"
  | EnclosureType_Unknown => "Unknown"
  | EnclosureType_Desktop => "Desktop"
  | EnclosureType_LowProfileDesktop => "LowProfileDesktop"
  | EnclosureType_PizzaBox => "PizzaBox"
  | EnclosureType_MiniTower => "MiniTower"
  | EnclosureType_Tower => "Tower"
  | EnclosureType_Portable => "Portable"
  | EnclosureType_Laptop => "Laptop"
  | EnclosureType_Notebook => "Notebook"
  | EnclosureType_HandHeld => "HandHeld"
  | EnclosureType_DockingStation => "DockingStation"
  | EnclosureType_AllInOne => "AllInOne"
  | EnclosureType_SubNotebook => "SubNotebook"
  | EnclosureType_SpaceSaving => "SpaceSaving"
  | EnclosureType_LunchBox => "LunchBox"
  | EnclosureType_MainServerChassis => "MainServerChassis"
  | EnclosureType_ExpansionChassis => "ExpansionChassis"
  | EnclosureType_SubChassis => "SubChassis"
  | EnclosureType_BusExpansionChassis => "BusExpansionChassis"
  | EnclosureType_PeripheralChassis => "PeripheralChassis"
  | EnclosureType_RaidChassis => "RaidChassis"
  | EnclosureType_RackMountChassis => "RackMountChassis"
  | EnclosureType_SealedCasePc => "SealedCasePc"
  | EnclosureType_MultiSystemChassis => "MultiSystemChassis"
  | EnclosureType_CompactPci => "CompactPci"
  | EnclosureType_AdvancedTca => "AdvancedTca"
  | EnclosureType_Blade => "Blade"
  | EnclosureType_BladeEnclosure => "BladeEnclosure"
  | EnclosureType_Tablet => "Tablet"
  | EnclosureType_Convertible => "Convertible"
  | EnclosureType_Detachable => "Detachable"
  | EnclosureType_IotGateway => "IotGateway"
  | EnclosureType_EmbeddedPc => "EmbeddedPc"
  | EnclosureType_MiniPc => "MiniPc"
  | EnclosureType_StickPc => "StickPc"
  | EnclosureType_Undefined _ => "Undefined"
  end.
Definition EnclosureType_tree (x : EnclosureType) : tree := show_variant (EnclosureType_name x) (EnclosureType_value x).

(* src/structures/003_enclosure.rs:111-120 `enum State` *)
Definition State_name (x : State) : string :=
  match x with
  | State_Other => "Other"
  | State_Unknown => "Unknown"
  | State_Safe => "Safe"
  | State_Warning => "Warning"
  | State_Critical => "Critical"
  | State_NonRecoverable => "NonRecoverable"
  | State_Undefined _ => "Undefined"
  end.
Definition State_tree (x : State) : tree := show_variant (State_name x) (State_value x).

(* src/structures/003_enclosure.rs:123-131 `enum SecurityStatus` *)
Definition SecurityStatus_name (x : SecurityStatus) : string :=
  match x with
  | SecurityStatus_Other => "Other"
  | SecurityStatus_Unknown => "Unknown"
  | SecurityStatus_None => "None"
  | SecurityStatus_ExternalInterfaceLockedOut => "ExternalInterfaceLockedOut"
  | SecurityStatus_ExternalInterfaceEnabled => "ExternalInterfaceEnabled"
  | SecurityStatus_Undefined _ => "Undefined"
  end.
Definition SecurityStatus_tree (x : SecurityStatus) : tree := show_variant (SecurityStatus_name x) (SecurityStatus_value x).

(* src/structures/004_processor.rs:17-26 `enum ProcessorType` *)
Definition ProcessorType_name (x : ProcessorType) : string :=
  match x with
  | ProcessorType_Other => "Other"
  | ProcessorType_Unknown => "Unknown"
  | ProcessorType_CentralProcessor => "CentralProcessor"
  | ProcessorType_MathProcessor => "MathProcessor"
  | ProcessorType_DspProcessor => "DspProcessor"
  | ProcessorType_VideoProcessor => "VideoProcessor"
  | ProcessorType_Undefined _ => "Undefined"
  end.
Definition ProcessorType_tree (x : ProcessorType) : tree := show_variant (ProcessorType_name x) (ProcessorType_value x).

(* src/structures/004_processor.rs:135-379 `enum ProcessorFamily` *)
Definition ProcessorFamily_name (x : ProcessorFamily) : string :=
  match x with
  | ProcessorFamily_Other => "Other"
  | ProcessorFamily_Unknown => "Unknown"
  | ProcessorFamily_Intel8086 => "Intel8086"
  | ProcessorFamily_Intel80286 => "Intel80286"
  | ProcessorFamily_Intel386Processor => "Intel386Processor"
  | ProcessorFamily_Intel486Processor => "Intel486Processor"
  | ProcessorFamily_Intel8087 => "Intel8087"
  | ProcessorFamily_Intel80287 => "Intel80287"
  | ProcessorFamily_Intel80387 => "Intel80387"
  | ProcessorFamily_Intel80487 => "Intel80487"
  | ProcessorFamily_IntelPentiumProcessor => "IntelPentiumProcessor"
  | ProcessorFamily_PentiumProProcessor => "PentiumProProcessor"
  | ProcessorFamily_PentiumIIProcessor => "PentiumIIProcessor"
  | ProcessorFamily_PentiumProcessorWithMMXTechnology => "PentiumProcessorWithMMXTechnology"
  | ProcessorFamily_IntelCeleronProcessor => "IntelCeleronProcessor"
  | ProcessorFamily_PentiumIIXeonProcessor => "PentiumIIXeonProcessor"
  | ProcessorFamily_PentiumIIIProcessor => "PentiumIIIProcessor"
  | ProcessorFamily_M1Family => "M1Family"
  | ProcessorFamily_M2Family => "M2Family"
  | ProcessorFamily_IntelCeleronMProcessor => "IntelCeleronMProcessor"
  | ProcessorFamily_IntelPentium4HTProcessor => "IntelPentium4HTProcessor"
  | ProcessorFamily_AMDDuronProcessorFamily => "AMDDuronProcessorFamily"
  | ProcessorFamily_K5Family => "K5Family"
  | ProcessorFamily_K6Family => "K6Family"
  | ProcessorFamily_K62 => "K62"
  | ProcessorFamily_K63 => "K63"
  | ProcessorFamily_AMDAthlonProcessorFamily => "AMDAthlonProcessorFamily"
  | ProcessorFamily_AMD29000Family => "AMD29000Family"
  | ProcessorFamily_K62Plus => "K62Plus"
  | ProcessorFamily_PowerPCFamily => "PowerPCFamily"
  | ProcessorFamily_PowerPC601 => "PowerPC601"
  | ProcessorFamily_PowerPC603 => "PowerPC603"
  | ProcessorFamily_PowerPC603Plus => "PowerPC603Plus"
  | ProcessorFamily_PowerPC604 => "PowerPC604"
  | ProcessorFamily_PowerPC620 => "PowerPC620"
  | ProcessorFamily_PowerPCX704 => "PowerPCX704"
  | ProcessorFamily_PowerPC750 => "PowerPC750"
  | ProcessorFamily_IntelCoreDuoProcessor => "IntelCoreDuoProcessor"
  | ProcessorFamily_IntelCoreDuoMobileProcessor => "IntelCoreDuoMobileProcessor"
  | ProcessorFamily_IntelCoreSoloMobileProcessor => "IntelCoreSoloMobileProcessor"
  | ProcessorFamily_IntelAtomProcessor => "IntelAtomProcessor"
  | ProcessorFamily_IntelCoreMProcessor => "IntelCoreMProcessor"
  | ProcessorFamily_IntelCoreM3Processor => "IntelCoreM3Processor"
  | ProcessorFamily_IntelCoreM5Processor => "IntelCoreM5Processor"
  | ProcessorFamily_IntelCoreM7Processor => "IntelCoreM7Processor"
  | ProcessorFamily_AlphaFamily => "AlphaFamily"
  | ProcessorFamily_Alpha21064 => "Alpha21064"
  | ProcessorFamily_Alpha21066 => "Alpha21066"
  | ProcessorFamily_Alpha21164 => "Alpha21164"
  | ProcessorFamily_Alpha21164PC => "Alpha21164PC"
  | ProcessorFamily_Alpha21164a => "Alpha21164a"
  | ProcessorFamily_Alpha21264 => "Alpha21264"
  | ProcessorFamily_Alpha21364 => "Alpha21364"
  | ProcessorFamily_AMDTurionIIUltraDualCoreMobileMProcessorFamily => "AMDTurionIIUltraDualCoreMobileMProcessorFamily"
  | ProcessorFamily_AMDTurionIIDualCoreMobileMProcessorFamily => "AMDTurionIIDualCoreMobileMProcessorFamily"
  | ProcessorFamily_AMDAthlonIIDualCoreMProcessorFamily => "AMDAthlonIIDualCoreMProcessorFamily"
  | ProcessorFamily_AMDOpteron6100SeriesProcessor => "AMDOpteron6100SeriesProcessor"
  | ProcessorFamily_AMDOpteron4100SeriesProcessor => "AMDOpteron4100SeriesProcessor"
  | ProcessorFamily_AMDOpteron6200SeriesProcessor => "AMDOpteron6200SeriesProcessor"
  | ProcessorFamily_AMDOpteron4200SeriesProcessor => "AMDOpteron4200SeriesProcessor"
  | ProcessorFamily_AMDFXSeriesProcessor => "AMDFXSeriesProcessor"
  | ProcessorFamily_MIPSFamily => "MIPSFamily"
  | ProcessorFamily_MIPSR4000 => "MIPSR4000"
  | ProcessorFamily_MIPSR4200 => "MIPSR4200"
  | ProcessorFamily_MIPSR4400 => "MIPSR4400"
  | ProcessorFamily_MIPSR4600 => "MIPSR4600"
  | ProcessorFamily_MIPSR10000 => "MIPSR10000"
  | ProcessorFamily_AMDCSeriesProcessor => "AMDCSeriesProcessor"
  | ProcessorFamily_AMDESeriesProcessor => "AMDESeriesProcessor"
  | ProcessorFamily_AMDASeriesProcessor => "AMDASeriesProcessor"
  | ProcessorFamily_AMDGSeriesProcessor => "AMDGSeriesProcessor"
  | ProcessorFamily_AMDZSeriesProcessor => "AMDZSeriesProcessor"
  | ProcessorFamily_AMDRSeriesProcessor => "AMDRSeriesProcessor"
  | ProcessorFamily_AMDOpteron4300SeriesProcessor => "AMDOpteron4300SeriesProcessor"
  | ProcessorFamily_AMDOpteron6300SeriesProcessor => "AMDOpteron6300SeriesProcessor"
  | ProcessorFamily_AMDOpteron3300SeriesProcessor => "AMDOpteron3300SeriesProcessor"
  | ProcessorFamily_AMDFireProSeriesProcessor => "AMDFireProSeriesProcessor"
  | ProcessorFamily_SPARCFamily => "SPARCFamily"
  | ProcessorFamily_SuperSPARC => "SuperSPARC"
  | ProcessorFamily_MicroSPARCII => "MicroSPARCII"
  | ProcessorFamily_MicroSPARCIIep => "MicroSPARCIIep"
  | ProcessorFamily_UltraSPARC => "UltraSPARC"
  | ProcessorFamily_UltraSPARCII => "UltraSPARCII"
  | ProcessorFamily_UltraSPARCIii => "UltraSPARCIii"
  | ProcessorFamily_UltraSPARCIII => "UltraSPARCIII"
  | ProcessorFamily_UltraSPARCIIIi => "UltraSPARCIIIi"
  | ProcessorFamily_Motorola68040Family => "Motorola68040Family"
  | ProcessorFamily_Motorola68xxx => "Motorola68xxx"
  | ProcessorFamily_Motorola68000 => "Motorola68000"
  | ProcessorFamily_Motorola68010 => "Motorola68010"
  | ProcessorFamily_Motorola68020 => "Motorola68020"
  | ProcessorFamily_Motorola68030 => "Motorola68030"
  | ProcessorFamily_AMDAthlonX4QuadCoreProcessorFamily => "AMDAthlonX4QuadCoreProcessorFamily"
  | ProcessorFamily_AMDOpteronX1000SeriesProcessor => "AMDOpteronX1000SeriesProcessor"
  | ProcessorFamily_AMDOpteronX2000SeriesAPU => "AMDOpteronX2000SeriesAPU"
  | ProcessorFamily_AMDOpteronASeriesProcessor => "AMDOpteronASeriesProcessor"
  | ProcessorFamily_AMDOpteronX3000SeriesAPU => "AMDOpteronX3000SeriesAPU"
  | ProcessorFamily_AMDZenProcessorFamily => "AMDZenProcessorFamily"
  | ProcessorFamily_HobbitFamily => "HobbitFamily"
  | ProcessorFamily_CrusoeTM5000Family => "CrusoeTM5000Family"
  | ProcessorFamily_CrusoeTM3000Family => "CrusoeTM3000Family"
  | ProcessorFamily_EfficeonTM8000Family => "EfficeonTM8000Family"
  | ProcessorFamily_Weitek => "Weitek"
  | ProcessorFamily_AvailableForAssignment => "AvailableForAssignment"
  | ProcessorFamily_ItaniumProcessor => "ItaniumProcessor"
  | ProcessorFamily_AMDAthlon64ProcessorFamily => "AMDAthlon64ProcessorFamily"
  | ProcessorFamily_AMDOpteronProcessorFamily => "AMDOpteronProcessorFamily"
  | ProcessorFamily_AMDSempronProcessorFamily => "AMDSempronProcessorFamily"
  | ProcessorFamily_AMDTurion64MobileTechnology => "AMDTurion64MobileTechnology"
  | ProcessorFamily_DualCoreAMDOpteronProcessorFamily => "DualCoreAMDOpteronProcessorFamily"
  | ProcessorFamily_AMDAthlon64X2DualCoreProcessorFamily => "AMDAthlon64X2DualCoreProcessorFamily"
  | ProcessorFamily_AMDTurion64X2MobileTechnology => "AMDTurion64X2MobileTechnology"
  | ProcessorFamily_QuadCoreAMDOpteronProcessorFamily => "QuadCoreAMDOpteronProcessorFamily"
  | ProcessorFamily_ThirdGenerationAMDOpteronProcessorFamily => "ThirdGenerationAMDOpteronProcessorFamily"
  | ProcessorFamily_AMDPhenomFXQuadCoreProcessorFamily => "AMDPhenomFXQuadCoreProcessorFamily"
  | ProcessorFamily_AMDPhenomX4QuadCoreProcessorFamily => "AMDPhenomX4QuadCoreProcessorFamily"
  | ProcessorFamily_AMDPhenomX2DualCoreProcessorFamily => "AMDPhenomX2DualCoreProcessorFamily"
  | ProcessorFamily_AMDAthlonX2DualCoreProcessorFamily => "AMDAthlonX2DualCoreProcessorFamily"
  | ProcessorFamily_PARISCFamily => "PARISCFamily"
  | ProcessorFamily_PARISC8500 => "PARISC8500"
  | ProcessorFamily_PARISC8000 => "PARISC8000"
  | ProcessorFamily_PARISC7300LC => "PARISC7300LC"
  | ProcessorFamily_PARISC7200 => "PARISC7200"
  | ProcessorFamily_PARISC7100LC => "PARISC7100LC"
  | ProcessorFamily_PARISC7100 => "PARISC7100"
  | ProcessorFamily_V30Family => "V30Family"
  | ProcessorFamily_QuadCoreIntelXeonProcessor3200Series => "QuadCoreIntelXeonProcessor3200Series"
  | ProcessorFamily_DualCoreIntelXeonProcessor3000Series => "DualCoreIntelXeonProcessor3000Series"
  | ProcessorFamily_QuadCoreIntelXeonProcessor5300Series => "QuadCoreIntelXeonProcessor5300Series"
  | ProcessorFamily_DualCoreIntelXeonProcessor5100Series => "DualCoreIntelXeonProcessor5100Series"
  | ProcessorFamily_DualCoreIntelXeonProcessor5000Series => "DualCoreIntelXeonProcessor5000Series"
  | ProcessorFamily_DualCoreIntelXeonProcessorLV => "DualCoreIntelXeonProcessorLV"
  | ProcessorFamily_DualCoreIntelXeonProcessorULV => "DualCoreIntelXeonProcessorULV"
  | ProcessorFamily_DualCoreIntelXeonProcessor7100Series => "DualCoreIntelXeonProcessor7100Series"
  | ProcessorFamily_QuadCoreIntelXeonProcessor5400Series => "QuadCoreIntelXeonProcessor5400Series"
  | ProcessorFamily_QuadCoreIntelXeonProcessor => "QuadCoreIntelXeonProcessor"
  | ProcessorFamily_DualCoreIntelXeonProcessor5200Series => "DualCoreIntelXeonProcessor5200Series"
  | ProcessorFamily_DualCoreIntelXeonProcessor7200Series => "DualCoreIntelXeonProcessor7200Series"
  | ProcessorFamily_QuadCoreIntelXeonProcessor7300Series => "QuadCoreIntelXeonProcessor7300Series"
  | ProcessorFamily_QuadCoreIntelXeonProcessor7400Series => "QuadCoreIntelXeonProcessor7400Series"
  | ProcessorFamily_MultiCoreIntelXeonProcessor7400Series => "MultiCoreIntelXeonProcessor7400Series"
  | ProcessorFamily_PentiumIIIXeonProcessor => "PentiumIIIXeonProcessor"
  | ProcessorFamily_PentiumIIIProcessorWithIntelSpeedStepTechnology => "PentiumIIIProcessorWithIntelSpeedStepTechnology"
  | ProcessorFamily_Pentium4Processor => "Pentium4Processor"
  | ProcessorFamily_IntelXeonProcessor => "IntelXeonProcessor"
  | ProcessorFamily_AS400Family => "AS400Family"
  | ProcessorFamily_IntelXeonProcessorMP => "IntelXeonProcessorMP"
  | ProcessorFamily_AMDAthlonXPProcessorFamily => "AMDAthlonXPProcessorFamily"
  | ProcessorFamily_AMDAthlonMPProcessorFamily => "AMDAthlonMPProcessorFamily"
  | ProcessorFamily_IntelItanium2Processor => "IntelItanium2Processor"
  | ProcessorFamily_IntelPentiumMProcessor => "IntelPentiumMProcessor"
  | ProcessorFamily_IntelCeleronDProcessor => "IntelCeleronDProcessor"
  | ProcessorFamily_IntelPentiumDProcessor => "IntelPentiumDProcessor"
  | ProcessorFamily_IntelPentiumProcessorExtremeEdition => "IntelPentiumProcessorExtremeEdition"
  | ProcessorFamily_IntelCoreSoloProcessor => "IntelCoreSoloProcessor"
  | ProcessorFamily_Ambiguous => "Ambiguous"
  | ProcessorFamily_IntelCore2DuoProcessor => "IntelCore2DuoProcessor"
  | ProcessorFamily_IntelCore2SoloProcessor => "IntelCore2SoloProcessor"
  | ProcessorFamily_IntelCore2ExtremeProcessor => "IntelCore2ExtremeProcessor"
  | ProcessorFamily_IntelCore2QuadProcessor => "IntelCore2QuadProcessor"
  | ProcessorFamily_IntelCore2ExtremeMobileProcessor => "IntelCore2ExtremeMobileProcessor"
  | ProcessorFamily_IntelCore2DuoMobileProcessor => "IntelCore2DuoMobileProcessor"
  | ProcessorFamily_IntelCore2SoloMobileProcessor => "IntelCore2SoloMobileProcessor"
  | ProcessorFamily_IntelCoreI7Processor => "IntelCoreI7Processor"
  | ProcessorFamily_DualCoreIntelCeleronProcessor => "DualCoreIntelCeleronProcessor"
  | ProcessorFamily_IBM390Family => "IBM390Family"
  | ProcessorFamily_G4 => "G4"
  | ProcessorFamily_G5 => "G5"
  | ProcessorFamily_ESA390G6 => "ESA390G6"
  | ProcessorFamily_ZArchitectureBase => "ZArchitectureBase"
  | ProcessorFamily_IntelCoreI5Processor => "IntelCoreI5Processor"
  | ProcessorFamily_IntelCoreI3Processor => "IntelCoreI3Processor"
  | ProcessorFamily_IntelCoreI9Processor => "IntelCoreI9Processor"
  | ProcessorFamily_VIAC7MProcessorFamily => "VIAC7MProcessorFamily"
  | ProcessorFamily_VIAC7DProcessorFamily => "VIAC7DProcessorFamily"
  | ProcessorFamily_VIAC7ProcessorFamily => "VIAC7ProcessorFamily"
  | ProcessorFamily_VIAEdenProcessorFamily => "VIAEdenProcessorFamily"
  | ProcessorFamily_MultiCoreIntelXeonProcessor => "MultiCoreIntelXeonProcessor"
  | ProcessorFamily_DualCoreIntelXeonProcessor3xxxSeries => "DualCoreIntelXeonProcessor3xxxSeries"
  | ProcessorFamily_QuadCoreIntelXeonProcessor3xxxSeries => "QuadCoreIntelXeonProcessor3xxxSeries"
  | ProcessorFamily_VIANanoProcessorFamily => "VIANanoProcessorFamily"
  | ProcessorFamily_DualCoreIntelXeonProcessor5xxxSeries => "DualCoreIntelXeonProcessor5xxxSeries"
  | ProcessorFamily_QuadCoreIntelXeonProcessor5xxxSeries => "QuadCoreIntelXeonProcessor5xxxSeries"
  | ProcessorFamily_DualCoreIntelXeonProcessor7xxxSeries => "DualCoreIntelXeonProcessor7xxxSeries"
  | ProcessorFamily_QuadCoreIntelXeonProcessor7xxxSeries => "QuadCoreIntelXeonProcessor7xxxSeries"
  | ProcessorFamily_MultiCoreIntelXeonProcessor7xxxSeries => "MultiCoreIntelXeonProcessor7xxxSeries"
  | ProcessorFamily_MultiCoreIntelXeonProcessor3400Series => "MultiCoreIntelXeonProcessor3400Series"
  | ProcessorFamily_AMDOpteron3000SeriesProcessor => "AMDOpteron3000SeriesProcessor"
  | ProcessorFamily_AMDSempronIIProcessor => "AMDSempronIIProcessor"
  | ProcessorFamily_EmbeddedAMDOpteronQuadCoreProcessorFamily => "EmbeddedAMDOpteronQuadCoreProcessorFamily"
  | ProcessorFamily_AMDPhenomTripleCoreProcessorFamily => "AMDPhenomTripleCoreProcessorFamily"
  | ProcessorFamily_AMDTurionUltraDualCoreMobileProcessorFamily => "AMDTurionUltraDualCoreMobileProcessorFamily"
  | ProcessorFamily_AMDTurionDualCoreMobileProcessorFamily => "AMDTurionDualCoreMobileProcessorFamily"
  | ProcessorFamily_AMDAthlonDualCoreProcessorFamily => "AMDAthlonDualCoreProcessorFamily"
  | ProcessorFamily_AMDSempronSIProcessorFamily => "AMDSempronSIProcessorFamily"
  | ProcessorFamily_AMDPhenomIIProcessorFamily => "AMDPhenomIIProcessorFamily"
  | ProcessorFamily_AMDAthlonIIProcessorFamily => "AMDAthlonIIProcessorFamily"
  | ProcessorFamily_SixCoreAMDOpteronProcessorFamily => "SixCoreAMDOpteronProcessorFamily"
  | ProcessorFamily_AMDSempronMProcessorFamily => "AMDSempronMProcessorFamily"
  | ProcessorFamily_I860 => "I860"
  | ProcessorFamily_I960 => "I960"
  | ProcessorFamily_ARMv7 => "ARMv7"
  | ProcessorFamily_ARMv8 => "ARMv8"
  | ProcessorFamily_ARMv9 => "ARMv9"
  | ProcessorFamily_SH3 => "SH3"
  | ProcessorFamily_SH4 => "SH4"
  | ProcessorFamily_ARM => "ARM"
  | ProcessorFamily_StrongARM => "StrongARM"
  | ProcessorFamily_Cyrix6x86 => "Cyrix6x86"
  | ProcessorFamily_MediaGX => "MediaGX"
  | ProcessorFamily_MII => "MII"
  | ProcessorFamily_WinChip => "WinChip"
  | ProcessorFamily_DSP => "DSP"
  | ProcessorFamily_VideoProcessor => "VideoProcessor"
  | ProcessorFamily_RISCVRV32 => "RISCVRV32"
  | ProcessorFamily_RISCVRV64 => "RISCVRV64"
  | ProcessorFamily_RISCVRV128 => "RISCVRV128"
  | ProcessorFamily_Available _ => "Available"
  | ProcessorFamily_NotUsed _ => "NotUsed"
  | ProcessorFamily_ForFutureUse => "ForFutureUse"
  | ProcessorFamily_ProcessorFamily2 => "ProcessorFamily2"
  | ProcessorFamily_OutOfSpec => "OutOfSpec"
  end.
Definition ProcessorFamily_tree (x : ProcessorFamily) : tree := show_variant (ProcessorFamily_name x) (ProcessorFamily_value x).

(* src/structures/004_processor.rs:403-468 `enum ProcessorUpgrade` *)
Definition ProcessorUpgrade_name (x : ProcessorUpgrade) : string :=
  match x with
  | ProcessorUpgrade_Other => "Other"
  | ProcessorUpgrade_Unknown => "Unknown"
  | ProcessorUpgrade_DaughterBoard => "DaughterBoard"
  | ProcessorUpgrade_ZIFSocket => "ZIFSocket"
  | ProcessorUpgrade_ReplaceablePiggyBack => "ReplaceablePiggyBack"
  | ProcessorUpgrade_None => "None"
  | ProcessorUpgrade_LIFSocket => "LIFSocket"
  | ProcessorUpgrade_Slot1 => "Slot1"
  | ProcessorUpgrade_Slot2 => "Slot2"
  | ProcessorUpgrade_Socket370 => "Socket370"
  | ProcessorUpgrade_SlotA => "SlotA"
  | ProcessorUpgrade_SlotM => "SlotM"
  | ProcessorUpgrade_Socket423 => "Socket423"
  | ProcessorUpgrade_SocketA => "SocketA"
  | ProcessorUpgrade_Socket478 => "Socket478"
  | ProcessorUpgrade_Socket754 => "Socket754"
  | ProcessorUpgrade_Socket940 => "Socket940"
  | ProcessorUpgrade_Socket939 => "Socket939"
  | ProcessorUpgrade_SocketmPGA604 => "SocketmPGA604"
  | ProcessorUpgrade_SocketLGA771 => "SocketLGA771"
  | ProcessorUpgrade_SocketLGA775 => "SocketLGA775"
  | ProcessorUpgrade_SocketS1 => "SocketS1"
  | ProcessorUpgrade_SocketAM2 => "SocketAM2"
  | ProcessorUpgrade_SocketF => "SocketF"
  | ProcessorUpgrade_SocketLGA1366 => "SocketLGA1366"
  | ProcessorUpgrade_SocketG34 => "SocketG34"
  | ProcessorUpgrade_SocketAM3 => "SocketAM3"
  | ProcessorUpgrade_SocketC32 => "SocketC32"
  | ProcessorUpgrade_SocketLGA1156 => "SocketLGA1156"
  | ProcessorUpgrade_SocketLGA1567 => "SocketLGA1567"
  | ProcessorUpgrade_SocketPGA988A => "SocketPGA988A"
  | ProcessorUpgrade_SocketBGA1288 => "SocketBGA1288"
  | ProcessorUpgrade_SocketrPGA988B => "SocketrPGA988B"
  | ProcessorUpgrade_SocketBGA1023 => "SocketBGA1023"
  | ProcessorUpgrade_SocketBGA1224 => "SocketBGA1224"
  | ProcessorUpgrade_SocketLGA1155 => "SocketLGA1155"
  | ProcessorUpgrade_SocketLGA1356 => "SocketLGA1356"
  | ProcessorUpgrade_SocketLGA2011 => "SocketLGA2011"
  | ProcessorUpgrade_SocketFS1 => "SocketFS1"
  | ProcessorUpgrade_SocketFS2 => "SocketFS2"
  | ProcessorUpgrade_SocketFM1 => "SocketFM1"
  | ProcessorUpgrade_SocketFM2 => "SocketFM2"
  | ProcessorUpgrade_SocketLGA2011Three => "SocketLGA2011Three"
  | ProcessorUpgrade_SocketLGA1356Three => "SocketLGA1356Three"
  | ProcessorUpgrade_SocketLGA1150 => "SocketLGA1150"
  | ProcessorUpgrade_SocketBGA1168 => "SocketBGA1168"
  | ProcessorUpgrade_SocketBGA1234 => "SocketBGA1234"
  | ProcessorUpgrade_SocketBGA1364 => "SocketBGA1364"
  | ProcessorUpgrade_SocketAM4 => "SocketAM4"
  | ProcessorUpgrade_SocketLGA1151 => "SocketLGA1151"
  | ProcessorUpgrade_SocketBGA1356 => "SocketBGA1356"
  | ProcessorUpgrade_SocketBGA1440 => "SocketBGA1440"
  | ProcessorUpgrade_SocketBGA1515 => "SocketBGA1515"
  | ProcessorUpgrade_SocketLGA3647 => "SocketLGA3647"
  | ProcessorUpgrade_SocketSP3 => "SocketSP3"
  | ProcessorUpgrade_SocketSP3r2 => "SocketSP3r2"
  | ProcessorUpgrade_SocketLGA2066 => "SocketLGA2066"
  | ProcessorUpgrade_SocketBGA1392 => "SocketBGA1392"
  | ProcessorUpgrade_SocketBGA1510 => "SocketBGA1510"
  | ProcessorUpgrade_SocketBGA1528 => "SocketBGA1528"
  | ProcessorUpgrade_SocketLGA4189 => "SocketLGA4189"
  | ProcessorUpgrade_SocketLGA1200 => "SocketLGA1200"
  | ProcessorUpgrade_Undefined _ => "Undefined"
  end.
Definition ProcessorUpgrade_tree (x : ProcessorUpgrade) : tree := show_variant (ProcessorUpgrade_name x) (ProcessorUpgrade_value x).

(* src/structures/007_cache.rs:66-76 `enum CacheLevel` *)
Definition CacheLevel_name (x : CacheLevel) : string :=
  match x with
  | CacheLevel_L1 => "L1"
  | CacheLevel_L2 => "L2"
  | CacheLevel_L3 => "L3"
  | CacheLevel_L4 => "L4"
  | CacheLevel_L5 => "L5"
  | CacheLevel_L6 => "L6"
  | CacheLevel_L7 => "L7"
  | CacheLevel_L8 => "L8"
  end.
Definition CacheLevel_tree (x : CacheLevel) : tree := show_variant (CacheLevel_name x) (CacheLevel_value x).

(* src/structures/007_cache.rs:78-84 `enum CacheLocation` *)
Definition CacheLocation_name (x : CacheLocation) : string :=
  match x with
  | CacheLocation_Internal => "Internal"
  | CacheLocation_External => "External"
  | CacheLocation_Reserved => "Reserved"
  | CacheLocation_Unknown => "Unknown"
  end.
Definition CacheLocation_tree (x : CacheLocation) : tree := show_variant (CacheLocation_name x) (CacheLocation_value x).

(* src/structures/007_cache.rs:86-92 `enum CacheOperationalMode` *)
Definition CacheOperationalMode_name (x : CacheOperationalMode) : string :=
  match x with
  | CacheOperationalMode_WriteThrough => "WriteThrough"
  | CacheOperationalMode_WriteBack => "WriteBack"
  | CacheOperationalMode_ValuesWithMemoryAddress => "ValuesWithMemoryAddress"
  | CacheOperationalMode_Unknown => "Unknown"
  end.
Definition CacheOperationalMode_tree (x : CacheOperationalMode) : tree := show_variant (CacheOperationalMode_name x) (CacheOperationalMode_value x).

(* src/structures/007_cache.rs:116-125 `enum CacheErrorCorrectionType` *)
Definition CacheErrorCorrectionType_name (x : CacheErrorCorrectionType) : string :=
  match x with
  | CacheErrorCorrectionType_Other => "Other"
  | CacheErrorCorrectionType_Unknown => "Unknown"
  | CacheErrorCorrectionType_None => "None"
  | CacheErrorCorrectionType_Parity => "Parity"
  | CacheErrorCorrectionType_SingleBitEcc => "SingleBitEcc"
  | CacheErrorCorrectionType_MultiBitEcc => "MultiBitEcc"
  | CacheErrorCorrectionType_Undefined _ => "Undefined"
  end.
Definition CacheErrorCorrectionType_tree (x : CacheErrorCorrectionType) : tree := show_variant (CacheErrorCorrectionType_name x) (CacheErrorCorrectionType_value x).

(* src/structures/007_cache.rs:132-140 `enum SystemCacheType` *)
Definition SystemCacheType_name (x : SystemCacheType) : string :=
  match x with
  | SystemCacheType_Other => "Other"
  | SystemCacheType_Unknown => "Unknown"
  | SystemCacheType_Instruction => "Instruction"
  | SystemCacheType_Data => "Data"
  | SystemCacheType_Unified => "Unified"
  | SystemCacheType_Undefined _ => "Undefined"
  end.
Definition SystemCacheType_tree (x : SystemCacheType) : tree := show_variant (SystemCacheType_name x) (SystemCacheType_value x).

(* src/structures/007_cache.rs:143-160 `enum CacheAssociativity` *)
Definition CacheAssociativity_name (x : CacheAssociativity) : string :=
  match x with
  | CacheAssociativity_Other => "Other"
  | CacheAssociativity_Unknown => "Unknown"
  | CacheAssociativity_DirectMapped => "DirectMapped"
  | CacheAssociativity_TwowaySetAssociative => "TwowaySetAssociative"
  | CacheAssociativity_FourWaySetAssociative => "FourWaySetAssociative"
  | CacheAssociativity_FullyAssociative => "FullyAssociative"
  | CacheAssociativity_EightWaySetAssociative => "EightWaySetAssociative"
  | CacheAssociativity_SixteenWaySetAssociative => "SixteenWaySetAssociative"
  | CacheAssociativity_TwelveWaySetAssociative => "TwelveWaySetAssociative"
  | CacheAssociativity_TwentyFourWaySetAssociative => "TwentyFourWaySetAssociative"
  | CacheAssociativity_ThirtyTwoWaySetAssociative => "ThirtyTwoWaySetAssociative"
  | CacheAssociativity_FourtyEightWaySetAssociative => "FourtyEightWaySetAssociative"
  | CacheAssociativity_SixtyFourWaySetAssociative => "SixtyFourWaySetAssociative"
  | CacheAssociativity_TwentyWaySetAssociative => "TwentyWaySetAssociative"
  | CacheAssociativity_Undefined _ => "Undefined"
  end.
Definition CacheAssociativity_tree (x : CacheAssociativity) : tree := show_variant (CacheAssociativity_name x) (CacheAssociativity_value x).

(* src/structures/008_port_connector.rs:37-82 `enum ConnectorType` *)
Definition ConnectorType_name (x : ConnectorType) : string :=
  match x with
  | ConnectorType_None => "None"
  | ConnectorType_Centronics => "Centronics"
  | ConnectorType_MiniCentronics => "MiniCentronics"
  | ConnectorType_Proprietary => "Proprietary"
  | ConnectorType_Db25PinMale => "Db25PinMale"
  | ConnectorType_Db25PinFemale => "Db25PinFemale"
  | ConnectorType_Db15PinMale => "Db15PinMale"
  | ConnectorType_Db15PinFemale => "Db15PinFemale"
  | ConnectorType_Db9PinMale => "Db9PinMale"
  | ConnectorType_Db9PinFemale => "Db9PinFemale"
  | ConnectorType_Rj11 => "Rj11"
  | ConnectorType_Rj45 => "Rj45"
  | ConnectorType_MiniScsi => "MiniScsi"
  | ConnectorType_MiniDin => "MiniDin"
  | ConnectorType_MicroDin => "MicroDin"
  | ConnectorType_Ps2 => "Ps2"
  | ConnectorType_Infrared => "Infrared"
  | ConnectorType_HpHil => "HpHil"
  | ConnectorType_AccessBus => "AccessBus"
  | ConnectorType_SsaScsi => "SsaScsi"
  | ConnectorType_CircularDin8Male => "CircularDin8Male"
  | ConnectorType_CircularDin8Female => "CircularDin8Female"
  | ConnectorType_OnBoardIde => "OnBoardIde"
  | ConnectorType_OnBoardFloppy => "OnBoardFloppy"
  | ConnectorType_DualInline9 => "DualInline9"
  | ConnectorType_DualInline25 => "DualInline25"
  | ConnectorType_DualInline50 => "DualInline50"
  | ConnectorType_DualInline68 => "DualInline68"
  | ConnectorType_OnBoardSoundInputFromCdRom => "OnBoardSoundInputFromCdRom"
  | ConnectorType_MiniCentronicsType14 => "MiniCentronicsType14"
  | ConnectorType_MiniCentronicsType26 => "MiniCentronicsType26"
  | ConnectorType_MiniJack => "MiniJack"
  | ConnectorType_Bnc => "Bnc"
  | ConnectorType_Ieee1394 => "Ieee1394"
  | ConnectorType_SasSataPlugReceptacle => "SasSataPlugReceptacle"
  | ConnectorType_UsbTypeCReceptacle => "UsbTypeCReceptacle"
  | ConnectorType_Pc98 => "Pc98"
  | ConnectorType_Pc98Hireso => "Pc98Hireso"
  | ConnectorType_PcH98 => "PcH98"
  | ConnectorType_Pc98Note => "Pc98Note"
  | ConnectorType_Pc98Full => "Pc98Full"
  | ConnectorType_Other => "Other"
  | ConnectorType_Undefined _ => "Undefined"
  end.
Definition ConnectorType_tree (x : ConnectorType) : tree := show_variant (ConnectorType_name x) (ConnectorType_value x).

(* src/structures/008_port_connector.rs:84-126 `enum PortType` *)
Definition PortType_name (x : PortType) : string :=
  match x with
  | PortType_None => "None"
  | PortType_ParallelPortXtAtCompatible => "ParallelPortXtAtCompatible"
  | PortType_ParallelPortPs2 => "ParallelPortPs2"
  | PortType_ParallelPortEcp => "ParallelPortEcp"
  | PortType_ParallelPortEpp => "ParallelPortEpp"
  | PortType_ParallelPortEcpEpp => "ParallelPortEcpEpp"
  | PortType_SerialPortXtAtCompatible => "SerialPortXtAtCompatible"
  | PortType_SerialPort16450Compatible => "SerialPort16450Compatible"
  | PortType_SerialPort16550Compatible => "SerialPort16550Compatible"
  | PortType_SerialPort16550ACompatible => "SerialPort16550ACompatible"
  | PortType_ScsiPort => "ScsiPort"
  | PortType_MidiPort => "MidiPort"
  | PortType_JoyStickPort => "JoyStickPort"
  | PortType_KeyboardPort => "KeyboardPort"
  | PortType_MousePort => "MousePort"
  | PortType_SsaScsi => "SsaScsi"
  | PortType_Usb => "Usb"
  | PortType_FireWire => "FireWire"
  | PortType_PcmciaType1 => "PcmciaType1"
  | PortType_PcmciaType2 => "PcmciaType2"
  | PortType_PcmciaType3 => "PcmciaType3"
  | PortType_Cardbus => "Cardbus"
  | PortType_AccessBusPort => "AccessBusPort"
  | PortType_Scsi2 => "Scsi2"
  | PortType_ScsiWide => "ScsiWide"
  | PortType_Pc98 => "Pc98"
  | PortType_Pc98Hireso => "Pc98Hireso"
  | PortType_PcH98 => "PcH98"
  | PortType_VideoPort => "VideoPort"
  | PortType_AudioPort => "AudioPort"
  | PortType_ModemPort => "ModemPort"
  | PortType_NetworkPort => "NetworkPort"
  | PortType_Sata => "Sata"
  | PortType_Sas => "Sas"
  | PortType_MultiFunctionDisplayPort => "MultiFunctionDisplayPort"
  | PortType_Thunderbolt => "Thunderbolt"
  | PortType_Intel8251Compatible => "Intel8251Compatible"
  | PortType_Intel8251FifoCompatible => "Intel8251FifoCompatible"
  | PortType_Other => "Other"
  | PortType_Undefined _ => "Undefined"
  end.
Definition PortType_tree (x : PortType) : tree := show_variant (PortType_name x) (PortType_value x).

(* src/structures/009_system_slots.rs:72-235 `enum SlotType` *)
Definition SlotType_name (x : SlotType) : string :=
  match x with
  | SlotType_Other => "Other"
  | SlotType_Unknown => "Unknown"
  | SlotType_Isa => "Isa"
  | SlotType_Mca => "Mca"
  | SlotType_Eisa => "Eisa"
  | SlotType_Pci => "Pci"
  | SlotType_PcCard => "PcCard"
  | SlotType_VlVesa => "VlVesa"
  | SlotType_Proprietary => "Proprietary"
  | SlotType_ProcessorCardSlot => "ProcessorCardSlot"
  | SlotType_ProprietaryMemoryCardSlot => "ProprietaryMemoryCardSlot"
  | SlotType_IoRiserCardSlot => "IoRiserCardSlot"
  | SlotType_Nubus => "Nubus"
  | SlotType_Pci66Mhz => "Pci66Mhz"
  | SlotType_Agp => "Agp"
  | SlotType_Agp2x => "Agp2x"
  | SlotType_Agp4x => "Agp4x"
  | SlotType_PciX => "PciX"
  | SlotType_Agp8x => "Agp8x"
  | SlotType_M2Socket1DP => "M2Socket1DP"
  | SlotType_M2Socket1SD => "M2Socket1SD"
  | SlotType_M2Socket2 => "M2Socket2"
  | SlotType_M2Socket3 => "M2Socket3"
  | SlotType_MxmType1 => "MxmType1"
  | SlotType_MxmType2 => "MxmType2"
  | SlotType_MxmType3 => "MxmType3"
  | SlotType_MxmType3He => "MxmType3He"
  | SlotType_MxmType4 => "MxmType4"
  | SlotType_Mxm3TypeA => "Mxm3TypeA"
  | SlotType_Mxm3TypeB => "Mxm3TypeB"
  | SlotType_U2PciExpressGen2 => "U2PciExpressGen2"
  | SlotType_U2PciExpressGen3 => "U2PciExpressGen3"
  | SlotType_PciExpressMini52pin1 => "PciExpressMini52pin1"
  | SlotType_PciExpressMini52pin2 => "PciExpressMini52pin2"
  | SlotType_PciExpressMini76pin => "PciExpressMini76pin"
  | SlotType_U2PciExpressGen4 => "U2PciExpressGen4"
  | SlotType_U2PciExpressGen5 => "U2PciExpressGen5"
  | SlotType_OcpNic3Small => "OcpNic3Small"
  | SlotType_OcpNic3Large => "OcpNic3Large"
  | SlotType_OcpNicPriorTo3 => "OcpNicPriorTo3"
  | SlotType_CxlFlexbus1 => "CxlFlexbus1"
  | SlotType_Pc98C20 => "Pc98C20"
  | SlotType_Pc98C24 => "Pc98C24"
  | SlotType_Pc98E => "Pc98E"
  | SlotType_Pc98LocalBus => "Pc98LocalBus"
  | SlotType_Pc98Card => "Pc98Card"
  | SlotType_PciExpress => "PciExpress"
  | SlotType_PciExpressX1 => "PciExpressX1"
  | SlotType_PciExpressX2 => "PciExpressX2"
  | SlotType_PciExpressX4 => "PciExpressX4"
  | SlotType_PciExpressX8 => "PciExpressX8"
  | SlotType_PciExpressX16 => "PciExpressX16"
  | SlotType_PciExpressGen2 => "PciExpressGen2"
  | SlotType_PciExpressGen2x1 => "PciExpressGen2x1"
  | SlotType_PciExpressGen2x2 => "PciExpressGen2x2"
  | SlotType_PciExpressGen2x4 => "PciExpressGen2x4"
  | SlotType_PciExpressGen2x8 => "PciExpressGen2x8"
  | SlotType_PciExpressGen2x16 => "PciExpressGen2x16"
  | SlotType_PciExpressGen3 => "PciExpressGen3"
  | SlotType_PciExpressGen3x1 => "PciExpressGen3x1"
  | SlotType_PciExpressGen3x2 => "PciExpressGen3x2"
  | SlotType_PciExpressGen3x4 => "PciExpressGen3x4"
  | SlotType_PciExpressGen3x8 => "PciExpressGen3x8"
  | SlotType_PciExpressGen3x16 => "PciExpressGen3x16"
  | SlotType_PciExpressGen4 => "PciExpressGen4"
  | SlotType_PciExpressGen4x1 => "PciExpressGen4x1"
  | SlotType_PciExpressGen4x2 => "PciExpressGen4x2"
  | SlotType_PciExpressGen4x4 => "PciExpressGen4x4"
  | SlotType_PciExpressGen4x8 => "PciExpressGen4x8"
  | SlotType_PciExpressGen4x16 => "PciExpressGen4x16"
  | SlotType_PciExpressGen5 => "PciExpressGen5"
  | SlotType_PciExpressGen5x1 => "PciExpressGen5x1"
  | SlotType_PciExpressGen5x2 => "PciExpressGen5x2"
  | SlotType_PciExpressGen5x4 => "PciExpressGen5x4"
  | SlotType_PciExpressGen5x8 => "PciExpressGen5x8"
  | SlotType_PciExpressGen5x16 => "PciExpressGen5x16"
  | SlotType_PciExpressGen6 => "PciExpressGen6"
  | SlotType_E1FormFactorSlot => "E1FormFactorSlot"
  | SlotType_E3FormFactorSlot => "E3FormFactorSlot"
  | SlotType_Undefined _ => "Undefined"
  end.
Definition SlotType_tree (x : SlotType) : tree := show_variant (SlotType_name x) (SlotType_value x).

(* src/structures/009_system_slots.rs:237-266 `enum SlotWidth` *)
Definition SlotWidth_name (x : SlotWidth) : string :=
  match x with
  | SlotWidth_Other => "Other"
  | SlotWidth_Unknown => "Unknown"
  | SlotWidth_Byte => "Byte"
  | SlotWidth_Word => "Word"
  | SlotWidth_Dword => "Dword"
  | SlotWidth_Qword => "Qword"
  | SlotWidth_Dqword => "Dqword"
  | SlotWidth_X1 => "X1"
  | SlotWidth_X2 => "X2"
  | SlotWidth_X4 => "X4"
  | SlotWidth_X8 => "X8"
  | SlotWidth_X12 => "X12"
  | SlotWidth_X16 => "X16"
  | SlotWidth_X32 => "X32"
  | SlotWidth_Undefined _ => "Undefined"
  end.
Definition SlotWidth_tree (x : SlotWidth) : tree := show_variant (SlotWidth_name x) (SlotWidth_value x).

(* src/structures/009_system_slots.rs:268-278 `enum CurrentUsage` *)
Definition CurrentUsage_name (x : CurrentUsage) : string :=
  match x with
  | CurrentUsage_Other => "Other"
  | CurrentUsage_Unknown => "Unknown"
  | CurrentUsage_Available => "Available"
  | CurrentUsage_InUse => "InUse"
  | CurrentUsage_Unavailable => "Unavailable"
  | CurrentUsage_Undefined _ => "Undefined"
  end.
Definition CurrentUsage_tree (x : CurrentUsage) : tree := show_variant (CurrentUsage_name x) (CurrentUsage_value x).

(* src/structures/009_system_slots.rs:280-291 `enum SlotLength` *)
Definition SlotLength_name (x : SlotLength) : string :=
  match x with
  | SlotLength_Other => "Other"
  | SlotLength_Unknown => "Unknown"
  | SlotLength_ShortLength => "ShortLength"
  | SlotLength_LongLength => "LongLength"
  | SlotLength_DriveFormFactor2_5 => "DriveFormFactor2_5"
  | SlotLength_DriveFormFactor3_5 => "DriveFormFactor3_5"
  | SlotLength_Undefined _ => "Undefined"
  end.
Definition SlotLength_tree (x : SlotLength) : tree := show_variant (SlotLength_name x) (SlotLength_value x).

(* src/structures/015_system_event_log/log_record_format.rs:51-108 `enum EventLogType` *)
Definition EventLogType_name (x : EventLogType) : string :=
  match x with
  | EventLogType_Reserved _ => "Reserved"
  | EventLogType_SingleBitEccMemoryError => "SingleBitEccMemoryError"
  | EventLogType_MultiBitEccMemoryError => "MultiBitEccMemoryError"
  | EventLogType_ParityMemoryError => "ParityMemoryError"
  | EventLogType_BusTimeOut => "BusTimeOut"
  | EventLogType_IoChannelCheck => "IoChannelCheck"
  | EventLogType_SoftwareNmi => "SoftwareNmi"
  | EventLogType_PostMemoryResize => "PostMemoryResize"
  | EventLogType_PostError => "PostError"
  | EventLogType_PciParityError => "PciParityError"
  | EventLogType_PciSystemError => "PciSystemError"
  | EventLogType_CpuFailure => "CpuFailure"
  | EventLogType_EisaFailSafeTimerTimeOut => "EisaFailSafeTimerTimeOut"
  | EventLogType_CorrectableMemoryLogDisabled => "CorrectableMemoryLogDisabled"
  | EventLogType_LoggingDisabledForSpecificEventType => "LoggingDisabledForSpecificEventType"
  | EventLogType_SystemLimitExceeded => "SystemLimitExceeded"
  | EventLogType_AsynchronousHardwareTimerExpired => "AsynchronousHardwareTimerExpired"
  | EventLogType_SystemConfigurationInformation => "SystemConfigurationInformation"
  | EventLogType_HardDiskInformation => "HardDiskInformation"
  | EventLogType_SystemReconfigured => "SystemReconfigured"
  | EventLogType_UncorrectableCpuComplexError => "UncorrectableCpuComplexError"
  | EventLogType_LogAreaReset => "LogAreaReset"
  | EventLogType_SystemBoot => "SystemBoot"
  | EventLogType_Unused _ => "Unused"
  | EventLogType_Available _ => "Available"
  | EventLogType_EndOfLog => "EndOfLog"
  end.
Definition EventLogType_tree (x : EventLogType) : tree := show_variant (EventLogType_name x) (EventLogType_value x).

(* src/structures/015_system_event_log/mod.rs:84-94 `enum LogHeaderFormat` *)
Definition LogHeaderFormat_name (x : LogHeaderFormat) : string :=
  match x with
  | LogHeaderFormat_NoHeader => "NoHeader"
  | LogHeaderFormat_LogHeaderType1 => "LogHeaderType1"
  | LogHeaderFormat_Available _ => "Available"
  | LogHeaderFormat_OemSpecific _ => "OemSpecific"
  end.
Definition LogHeaderFormat_tree (x : LogHeaderFormat) : tree := show_variant (LogHeaderFormat_name x) (LogHeaderFormat_value x).

(* src/structures/016_physical_memory_array.rs:11-30 `enum MemoryArrayLocation` *)
Definition MemoryArrayLocation_name (x : MemoryArrayLocation) : string :=
  match x with
  | MemoryArrayLocation_Other => "Other"
  | MemoryArrayLocation_Unknown => "Unknown"
  | MemoryArrayLocation_SystemBoardOrMotherboard => "SystemBoardOrMotherboard"
  | MemoryArrayLocation_IsaAddOnCard => "IsaAddOnCard"
  | MemoryArrayLocation_EisaAddOnCard => "EisaAddOnCard"
  | MemoryArrayLocation_PciAddOnCard => "PciAddOnCard"
  | MemoryArrayLocation_McaAddOnCard => "McaAddOnCard"
  | MemoryArrayLocation_PcmciaAddOnCard => "PcmciaAddOnCard"
  | MemoryArrayLocation_ProprietaryAddOnCard => "ProprietaryAddOnCard"
  | MemoryArrayLocation_NuBus => "NuBus"
  | MemoryArrayLocation_Pc98c20AddOnCard => "Pc98c20AddOnCard"
  | MemoryArrayLocation_Pc98c24AddOnCard => "Pc98c24AddOnCard"
  | MemoryArrayLocation_Pc98eAddOnCard => "Pc98eAddOnCard"
  | MemoryArrayLocation_Pc98LocalBusAddOnCard => "Pc98LocalBusAddOnCard"
  | MemoryArrayLocation_CxlAddOnCard => "CxlAddOnCard"
  | MemoryArrayLocation_Undefined _ => "Undefined"
  end.
Definition MemoryArrayLocation_tree (x : MemoryArrayLocation) : tree := show_variant (MemoryArrayLocation_name x) (MemoryArrayLocation_value x).

(* src/structures/016_physical_memory_array.rs:78-89 `enum MemoryArrayUse` *)
Definition MemoryArrayUse_name (x : MemoryArrayUse) : string :=
  match x with
  | MemoryArrayUse_Other => "Other"
  | MemoryArrayUse_Unknown => "Unknown"
  | MemoryArrayUse_SystemMemory => "SystemMemory"
  | MemoryArrayUse_VideoMemory => "VideoMemory"
  | MemoryArrayUse_FlashMemory => "FlashMemory"
  | MemoryArrayUse_NonVolatileRam => "NonVolatileRam"
  | MemoryArrayUse_CacheMemory => "CacheMemory"
  | MemoryArrayUse_Undefined _ => "Undefined"
  end.
Definition MemoryArrayUse_tree (x : MemoryArrayUse) : tree := show_variant (MemoryArrayUse_name x) (MemoryArrayUse_value x).

(* src/structures/016_physical_memory_array.rs:121-132 `enum MemoryArrayErrorCorrectionTypes` *)
Definition MemoryArrayErrorCorrectionTypes_name (x : MemoryArrayErrorCorrectionTypes) : string :=
  match x with
  | MemoryArrayErrorCorrectionTypes_Other => "Other"
  | MemoryArrayErrorCorrectionTypes_Unknown => "Unknown"
  | MemoryArrayErrorCorrectionTypes_None => "None"
  | MemoryArrayErrorCorrectionTypes_Parity => "Parity"
  | MemoryArrayErrorCorrectionTypes_SingleBitEcc => "SingleBitEcc"
  | MemoryArrayErrorCorrectionTypes_MultiBitEcc => "MultiBitEcc"
  | MemoryArrayErrorCorrectionTypes_CRC => "CRC"
  | MemoryArrayErrorCorrectionTypes_Undefined _ => "Undefined"
  end.
Definition MemoryArrayErrorCorrectionTypes_tree (x : MemoryArrayErrorCorrectionTypes) : tree := show_variant (MemoryArrayErrorCorrectionTypes_name x) (MemoryArrayErrorCorrectionTypes_value x).

(* src/structures/017_memory_device.rs:16-23 `enum ErrorGranularity` *)
Definition MDErrorGranularity_name (x : MDErrorGranularity) : string :=
  match x with
  | MDErrorGranularity_Other => "Other"
  | MDErrorGranularity_Unknown => "Unknown"
  | MDErrorGranularity_DeviceLevel => "DeviceLevel"
  | MDErrorGranularity_MemoryLevel => "MemoryLevel"
  | MDErrorGranularity_Undefined _ => "Undefined"
  end.
Definition MDErrorGranularity_tree (x : MDErrorGranularity) : tree := show_variant (MDErrorGranularity_name x) (MDErrorGranularity_value x).

(* src/structures/017_memory_device.rs:37-45 `enum ErrorOperation` *)
Definition MDErrorOperation_name (x : MDErrorOperation) : string :=
  match x with
  | MDErrorOperation_Other => "Other"
  | MDErrorOperation_Unknown => "Unknown"
  | MDErrorOperation_Read => "Read"
  | MDErrorOperation_Write => "Write"
  | MDErrorOperation_PartialWrite => "PartialWrite"
  | MDErrorOperation_Undefined _ => "Undefined"
  end.
Definition MDErrorOperation_tree (x : MDErrorOperation) : tree := show_variant (MDErrorOperation_name x) (MDErrorOperation_value x).

(* src/structures/017_memory_device.rs:60-77 `enum ErrorType` *)
Definition MDErrorType_name (x : MDErrorType) : string :=
  match x with
  | MDErrorType_Other => "Other"
  | MDErrorType_Unknown => "Unknown"
  | MDErrorType_Ok => "Ok"
  | MDErrorType_BadRead => "BadRead"
  | MDErrorType_Parity => "Parity"
  | MDErrorType_SingleBit => "SingleBit"
  | MDErrorType_DoubleBit => "DoubleBit"
  | MDErrorType_MultiBit => "MultiBit"
  | MDErrorType_Nibble => "Nibble"
  | MDErrorType_Checksum => "Checksum"
  | MDErrorType_Crc => "Crc"
  | MDErrorType_CorrectedSingleBit => "CorrectedSingleBit"
  | MDErrorType_Corrected => "Corrected"
  | MDErrorType_Uncorrectable => "Uncorrectable"
  | MDErrorType_Undefined _ => "Undefined"
  end.
Definition MDErrorType_tree (x : MDErrorType) : tree := show_variant (MDErrorType_name x) (MDErrorType_value x).

(* src/structures/017_memory_device.rs:101-120 `enum FormFactor` *)
Definition FormFactor_name (x : FormFactor) : string :=
  match x with
  | FormFactor_Other => "Other"
  | FormFactor_Unknown => "Unknown"
  | FormFactor_Simm => "Simm"
  | FormFactor_Sip => "Sip"
  | FormFactor_Chip => "Chip"
  | FormFactor_Dip => "Dip"
  | FormFactor_Zip => "Zip"
  | FormFactor_ProprietaryCard => "ProprietaryCard"
  | FormFactor_Dimm => "Dimm"
  | FormFactor_Tsop => "Tsop"
  | FormFactor_RowOfChips => "RowOfChips"
  | FormFactor_Rimm => "Rimm"
  | FormFactor_SoDimm => "SoDimm"
  | FormFactor_Srimm => "Srimm"
  | FormFactor_FbDimm => "FbDimm"
  | FormFactor_Undefined _ => "Undefined"
  end.
Definition FormFactor_tree (x : FormFactor) : tree := show_variant (FormFactor_name x) (FormFactor_value x).

(* src/structures/017_memory_device.rs:146-157 `enum MemoryTechnology` *)
Definition MemoryTechnology_name (x : MemoryTechnology) : string :=
  match x with
  | MemoryTechnology_Other => "Other"
  | MemoryTechnology_Unknown => "Unknown"
  | MemoryTechnology_Dram => "Dram"
  | MemoryTechnology_NvDimmN => "NvDimmN"
  | MemoryTechnology_NvDimmF => "NvDimmF"
  | MemoryTechnology_NvDimmP => "NvDimmP"
  | MemoryTechnology_IntelOptane => "IntelOptane"
  | MemoryTechnology_Undefined _ => "Undefined"
  end.
Definition MemoryTechnology_tree (x : MemoryTechnology) : tree := show_variant (MemoryTechnology_name x) (MemoryTechnology_value x).

(* src/structures/017_memory_device.rs:174-211 `enum Type` *)
Definition MemoryType_name (x : MemoryType) : string :=
  match x with
  | MemoryType_Other => "Other"
  | MemoryType_Unknown => "Unknown"
  | MemoryType_Dram => "Dram"
  | MemoryType_Edram => "Edram"
  | MemoryType_Vram => "Vram"
  | MemoryType_Sram => "Sram"
  | MemoryType_Ram => "Ram"
  | MemoryType_Rom => "Rom"
  | MemoryType_Flash => "Flash"
  | MemoryType_Eeprom => "Eeprom"
  | MemoryType_Feprom => "Feprom"
  | MemoryType_Eprom => "Eprom"
  | MemoryType_Cdram => "Cdram"
  | MemoryType_ThreeDram => "ThreeDram"
  | MemoryType_Sdram => "Sdram"
  | MemoryType_Sgram => "Sgram"
  | MemoryType_Rdram => "Rdram"
  | MemoryType_Ddr => "Ddr"
  | MemoryType_Ddr2 => "Ddr2"
  | MemoryType_Ddr2FbDimm => "Ddr2FbDimm"
  | MemoryType_Reserved => "Reserved"
  | MemoryType_Ddr3 => "Ddr3"
  | MemoryType_Fbd2 => "Fbd2"
  | MemoryType_Ddr4 => "Ddr4"
  | MemoryType_Ddr5 => "Ddr5"
  | MemoryType_LpDdr => "LpDdr"
  | MemoryType_LpDdr2 => "LpDdr2"
  | MemoryType_LpDdr3 => "LpDdr3"
  | MemoryType_LpDdr4 => "LpDdr4"
  | MemoryType_LpDdr5 => "LpDdr5"
  | MemoryType_LogicalNonVolatileDevice => "LogicalNonVolatileDevice"
  | MemoryType_Hbm => "Hbm"
  | MemoryType_Hbm2 => "Hbm2"
  | MemoryType_Undefined _ => "Undefined"
  end.
Definition MemoryType_tree (x : MemoryType) : tree := show_variant (MemoryType_name x) (MemoryType_value x).

(* src/structures/018_memory_error_32.rs:39-56 `enum ErrorType` *)
Definition MEErrorType_name (x : MEErrorType) : string :=
  match x with
  | MEErrorType_Other => "Other"
  | MEErrorType_Unknown => "Unknown"
  | MEErrorType_Ok => "Ok"
  | MEErrorType_BadRead => "BadRead"
  | MEErrorType_ParityError => "ParityError"
  | MEErrorType_SingleBitError => "SingleBitError"
  | MEErrorType_DoubleBitError => "DoubleBitError"
  | MEErrorType_MultiBitError => "MultiBitError"
  | MEErrorType_NibbleError => "NibbleError"
  | MEErrorType_ChecksumError => "ChecksumError"
  | MEErrorType_CrcError => "CrcError"
  | MEErrorType_CorrectedSingleBitError => "CorrectedSingleBitError"
  | MEErrorType_CorrectedError => "CorrectedError"
  | MEErrorType_UncorrectableError => "UncorrectableError"
  | MEErrorType_Undefined _ => "Undefined"
  end.
Definition MEErrorType_tree (x : MEErrorType) : tree := show_variant (MEErrorType_name x) (MEErrorType_value x).

(* src/structures/018_memory_error_32.rs:59-68 `enum ErrorGranularity` *)
Definition MEErrorGranularity_name (x : MEErrorGranularity) : string :=
  match x with
  | MEErrorGranularity_Other => "Other"
  | MEErrorGranularity_Unknown => "Unknown"
  | MEErrorGranularity_DeviceLevel => "DeviceLevel"
  | MEErrorGranularity_MemoryPartitionLevel => "MemoryPartitionLevel"
  | MEErrorGranularity_Undefined _ => "Undefined"
  end.
Definition MEErrorGranularity_tree (x : MEErrorGranularity) : tree := show_variant (MEErrorGranularity_name x) (MEErrorGranularity_value x).

(* src/structures/018_memory_error_32.rs:71-80 `enum ErrorOperation` *)
Definition MEErrorOperation_name (x : MEErrorOperation) : string :=
  match x with
  | MEErrorOperation_Other => "Other"
  | MEErrorOperation_Unknown => "Unknown"
  | MEErrorOperation_Read => "Read"
  | MEErrorOperation_Write => "Write"
  | MEErrorOperation_PartialWrite => "PartialWrite"
  | MEErrorOperation_Undefined _ => "Undefined"
  end.
Definition MEErrorOperation_tree (x : MEErrorOperation) : tree := show_variant (MEErrorOperation_name x) (MEErrorOperation_value x).

(* src/structures/021_built_in_pointing_device.rs:28-40 `enum Type` *)
Definition PointingDeviceType_name (x : PointingDeviceType) : string :=
  match x with
  | PointingDeviceType_Other => "Other"
  | PointingDeviceType_Unknown => "Unknown"
  | PointingDeviceType_Mouse => "Mouse"
  | PointingDeviceType_TrackBall => "TrackBall"
  | PointingDeviceType_TrackPoint => "TrackPoint"
  | PointingDeviceType_GlidePoint => "GlidePoint"
  | PointingDeviceType_TouchPad => "TouchPad"
  | PointingDeviceType_TouchScreen => "TouchScreen"
  | PointingDeviceType_OpticalSensor => "OpticalSensor"
  | PointingDeviceType_Undefined _ => "Undefined"
  end.
Definition PointingDeviceType_tree (x : PointingDeviceType) : tree := show_variant (PointingDeviceType_name x) (PointingDeviceType_value x).

(* src/structures/021_built_in_pointing_device.rs:42-63 `enum Interface` *)
Definition PointingDeviceInterface_name (x : PointingDeviceInterface) : string :=
  match x with
  | PointingDeviceInterface_Other => "Other"
  | PointingDeviceInterface_Unknown => "Unknown"
  | PointingDeviceInterface_Serial => "Serial"
  | PointingDeviceInterface_Ps2 => "Ps2"
  | PointingDeviceInterface_Infrared => "Infrared"
  | PointingDeviceInterface_HpHil => "HpHil"
  | PointingDeviceInterface_BusMouse => "BusMouse"
  | PointingDeviceInterface_Adb => "Adb"
  | PointingDeviceInterface_BusMouseDb9 => "BusMouseDb9"
  | PointingDeviceInterface_BusMouseMicroDin => "BusMouseMicroDin"
  | PointingDeviceInterface_Usb => "Usb"
  | PointingDeviceInterface_Undefined _ => "Undefined"
  end.
Definition PointingDeviceInterface_tree (x : PointingDeviceInterface) : tree := show_variant (PointingDeviceInterface_name x) (PointingDeviceInterface_value x).

(* src/lib.rs:290-294 `struct SmbiosVersion` *)
Definition SmbiosVersion_tree (x : SmbiosVersion) : tree :=
  Fields "SmbiosVersion"
    [("major", show_int (major x));
     ("minor", show_int (minor x))].

(* src/lib.rs:570-578 `struct RawStructure` *)
Definition RawStructure_tree (x : RawStructure) : tree :=
  Fields "RawStructure"
    [("version", SmbiosVersion_tree (version x));
     ("info", InfoType_tree (info x));
     ("length", show_int (length_ x));
     ("handle", show_int (handle x));
     ("data", show_bytes (data x));
     ("strings", show_bytes (strings x))].

(* src/lib.rs:661-665 `struct StructureStrings` *)
Definition StructureStrings_tree (x : StructureStrings) : tree :=
  Fields "StructureStrings"
    [("bytes", show_bytes (bytes x));
     ("start", show_int (start x))].

(* src/structures/000_bios.rs:56-60 `struct BiosRevision` *)
Definition BiosRevision_tree (x : Revision) : tree :=
  Fields "BiosRevision"
    [("major", show_int (rev_major x));
     ("minor", show_int (rev_minor x))].

(* src/structures/000_bios.rs:64-68 `struct FirmwareRevision` *)
Definition FirmwareRevision_tree (x : Revision) : tree :=
  Fields "FirmwareRevision"
    [("major", show_int (rev_major x));
     ("minor", show_int (rev_minor x))].

(* src/structures/000_bios.rs:71-78 `struct RomSize` *)
Definition RomSize_tree (x : RomSize) : tree :=
  Fields "RomSize"
    [("basic", show_int (basic x));
     ("extended", (show_option show_int) (extended x))].

(* src/structures/000_bios.rs:11-39 `struct Bios` *)
Definition Bios_tree (x : Bios) : tree :=
  Fields "Bios"
    [("handle", show_int (bios_handle x));
     ("vendor", Quoted (bios_vendor x));
     ("bios_version", Quoted (bios_bios_version x));
     ("bios_starting_address_segment", show_int (bios_starting_address_segment x));
     ("bios_release_date", Quoted (bios_release_date x));
     ("rom_size", RomSize_tree (bios_rom_size x));
     ("bios_characteristics", (show_wrapped "Characteristics") (bios_characteristics x));
     ("bios_characteristics_exttension_1", (show_option (show_wrapped "CharacteristicsExtension1")) (bios_characteristics_extension_1 x));
     ("bios_characteristics_exttension_2", (show_option (show_wrapped "CharacteristicsExtension2")) (bios_characteristics_extension_2 x));
     ("bios_revision", (show_option BiosRevision_tree) (bios_revision x));
     ("firmware_revision", (show_option FirmwareRevision_tree) (bios_firmware_revision x))].

(* src/structures/001_system.rs:47-58 `struct System` *)
Definition System_tree (x : System) : tree :=
  Fields "System"
    [("handle", show_int (system_handle x));
     ("manufacturer", Quoted (system_manufacturer x));
     ("product", Quoted (system_product x));
     ("version", Quoted (system_version x));
     ("serial", Quoted (system_serial x));
     ("uuid", (show_option show_uuid) (system_uuid x));
     ("wakeup", (show_option WakeupType_tree) (system_wakeup x));
     ("sku", (show_option Quoted) (system_sku x));
     ("family", (show_option Quoted) (system_family x))].

(* src/structures/002_baseboard.rs:90-102 `struct BaseBoard` *)
Definition BaseBoard_tree (x : BaseBoard) : tree :=
  Fields "BaseBoard"
    [("handle", show_int (baseboard_handle x));
     ("manufacturer", Quoted (baseboard_manufacturer x));
     ("product", Quoted (baseboard_product x));
     ("version", Quoted (baseboard_version x));
     ("serial", Quoted (baseboard_serial x));
     ("asset", (show_option Quoted) (baseboard_asset x));
     ("feature_flags", (show_option (show_flags "BaseBoardFlags" BaseBoardFlags_constants)) (baseboard_feature_flags x));
     ("location_in_chassis", (show_option Quoted) (baseboard_location_in_chassis x));
     ("chassis_handle", (show_option show_int) (baseboard_chassis_handle x));
     ("board_type", (show_option BoardType_tree) (baseboard_board_type x))].

(* src/structures/003_enclosure.rs:158-162 `enum ContainedElementType` *)
Definition ContainedElementType_tree (x : ContainedElementType) : tree :=
  match x with
  | CE_BoardType b => Call "BoardType" [BoardType_tree b]
  | CE_InfoType i => Call "InfoType" [InfoType_tree i]
  end.

(* src/structures/003_enclosure.rs:143-154 `struct ContainedElement` *)
Definition ContainedElement_tree (x : ContainedElement) : tree :=
  Fields "ContainedElement"
    [("type_", ContainedElementType_tree (cel_type x));
     ("minimum", show_int (cel_minimum x));
     ("maximum", show_int (cel_maximum x))].

(* src/structures/003_enclosure.rs:15-53 `struct Enclosure` *)
Definition Enclosure_tree (c : cfg) (x : Enclosure) : tree :=
  Fields "Enclosure"
    [("handle", show_int (enclosure_handle x));
     ("manufacturer", Quoted (enclosure_manufacturer x));
     ("chassis_lock", show_bool (enclosure_chassis_lock x));
     ("enclosure_type", EnclosureType_tree (enclosure_enclosure_type x));
     ("version", Quoted (enclosure_version x));
     ("serial_number", Quoted (enclosure_serial_number x));
     ("asset_tag_number", Quoted (enclosure_asset_tag_number x));
     ("boot_up_state", (show_option State_tree) (enclosure_boot_up_state x));
     ("power_supply_state", (show_option State_tree) (enclosure_power_supply_state x));
     ("thermal_state", (show_option State_tree) (enclosure_thermal_state x));
     ("security_status", (show_option SecurityStatus_tree) (enclosure_security_status x));
     ("oem_defined", (show_option show_int) (enclosure_oem_defined x));
     ("height", (show_option show_int) (enclosure_height x));
     ("power_cords_number", (show_option show_int) (enclosure_power_cords_number x));
     ("contained_elements", (show_option (ContainedElements_tree c)) (enclosure_contained_elements x));
     ("sku_number", (show_option Quoted) (enclosure_sku_number x))].

(* src/structures/004_processor.rs:386-391 `enum Voltage` *)
Definition Voltage_tree (x : Voltage) : tree :=
  match x with
  | Voltage_Legacy bits => Call "Legacy" [(show_flags "VoltageLegacy" VoltageLegacy_constants) bits]
  | Voltage_Current v => Call "Current" [show_int v]
  | Voltage_Undefined v => Call "Undefined" [show_int v]
  end.

(* src/structures/004_processor.rs:75-126 `struct Processor` *)
Definition Processor_tree (x : Processor) : tree :=
  Fields "Processor"
    [("handle", show_int (processor_handle x));
     ("socket_designation", Quoted (processor_socket_designation x));
     ("processor_type", ProcessorType_tree (processor_processor_type x));
     ("processor_family", ProcessorFamily_tree (processor_processor_family x));
     ("processor_manufacturer", Quoted (processor_processor_manufacturer x));
     ("processor_id", show_int (processor_processor_id x));
     ("processor_version", Quoted (processor_processor_version x));
     ("voltage", Voltage_tree (processor_voltage x));
     ("external_clock", show_int (processor_external_clock x));
     ("max_speed", show_int (processor_max_speed x));
     ("current_speed", show_int (processor_current_speed x));
     ("status", (show_flags "ProcessorStatus" ProcessorStatus_constants) (processor_status x));
     ("processor_upgrade", ProcessorUpgrade_tree (processor_processor_upgrade x));
     ("l1_cache_handle", (show_option show_int) (processor_l1_cache_handle x));
     ("l2_cache_handle", (show_option show_int) (processor_l2_cache_handle x));
     ("l3_cache_handle", (show_option show_int) (processor_l3_cache_handle x));
     ("serial_number", (show_option Quoted) (processor_serial_number x));
     ("asset_tag", (show_option Quoted) (processor_asset_tag x));
     ("part_number", (show_option Quoted) (processor_part_number x));
     ("core_count", (show_option show_int) (processor_core_count x));
     ("core_enabled", (show_option show_int) (processor_core_enabled x));
     ("thread_count", (show_option show_int) (processor_thread_count x));
     ("processor_characteristics", (show_option (show_flags "ProcessorCharacteristics" ProcessorCharacteristics_constants)) (processor_processor_characteristics x))].

(* src/structures/007_cache.rs:52-64 `struct CacheConfiguration` *)
Definition CacheConfiguration_tree (x : CacheConfiguration) : tree :=
  Fields "CacheConfiguration"
    [("level", CacheLevel_tree (level x));
     ("socketed", show_bool (socketed x));
     ("location", CacheLocation_tree (location x));
     ("enabled_at_boot_time", show_bool (enabled_at_boot_time x));
     ("operational_mode", CacheOperationalMode_tree (operational_mode x))].

(* src/structures/007_cache.rs:95-99 `enum CacheSize` *)
Definition CacheSize_tree (x : CacheSize) : tree :=
  match x with
  | Granularity1K v => Call "Granularity1K" [show_int v]
  | Granularity64K v => Call "Granularity64K" [show_int v]
  end.

(* src/structures/007_cache.rs:163-167 `enum CacheSize2` *)
Definition CacheSize2_tree (x : CacheSize2) : tree :=
  match x with
  | Granularity1K_2 v => Call "Granularity1K" [show_int v]
  | Granularity64K_2 v => Call "Granularity64K" [show_int v]
  end.

(* src/structures/007_cache.rs:18-50 `struct Cache` *)
Definition Cache_tree (x : Cache) : tree :=
  Fields "Cache"
    [("handle", show_int (cache_handle x));
     ("socket_designation", Quoted (cache_socket_designation x));
     ("cache_configuration", CacheConfiguration_tree (cache_cache_configuration x));
     ("maximum_cache_size", CacheSize_tree (cache_maximum_cache_size x));
     ("installed_size", CacheSize_tree (cache_installed_size x));
     ("supported_sram_type", (show_flags "CacheSramType" CacheSramType_constants) (cache_supported_sram_type x));
     ("current_sram_type", (show_flags "CacheSramType" CacheSramType_constants) (cache_current_sram_type x));
     ("cache_speed", (show_option show_int) (cache_cache_speed x));
     ("error_correction_type", (show_option CacheErrorCorrectionType_tree) (cache_error_correction_type x));
     ("system_cache_type", (show_option SystemCacheType_tree) (cache_system_cache_type x));
     ("associativity", (show_option CacheAssociativity_tree) (cache_associativity x));
     ("maximum_cache_size_2", (show_option CacheSize2_tree) (cache_maximum_cache_size_2 x));
     ("installed_size_2", (show_option CacheSize2_tree) (cache_installed_size_2 x))].

(* src/structures/008_port_connector.rs:18-34 `struct PortConnector` *)
Definition PortConnector_tree (x : PortConnector) : tree :=
  Fields "PortConnector"
    [("handle", show_int (port_handle x));
     ("internal_reference_designator", Quoted (port_internal_reference_designator x));
     ("internal_connector_type", ConnectorType_tree (port_internal_connector_type x));
     ("external_reference_designator", Quoted (port_external_reference_designator x));
     ("external_connector_type", ConnectorType_tree (port_external_connector_type x));
     ("port_type", PortType_tree (port_port_type x))].

(* src/structures/009_system_slots.rs:313-314 `struct DeviceAndFunctionNumber` *)
Definition DeviceAndFunctionNumber_tree (x : DeviceAndFunctionNumber) : tree :=
  Call "DeviceAndFunctionNumber" [show_int (dev x); show_int (fun_ x)].

(* src/structures/009_system_slots.rs:299-311 `struct Device` *)
Definition Device_tree (x : Device) : tree :=
  Fields "Device"
    [("segment_group_number", show_int (device_segment_group_number x));
     ("bus_number", show_int (device_bus_number x));
     ("device_and_function_number", DeviceAndFunctionNumber_tree (device_device_and_function_number x));
     ("data_bus_width", show_int (device_data_bus_width x))].

(* src/structures/009_system_slots.rs:21-70 `struct SystemSlots` *)
Definition SystemSlots_tree (x : SystemSlots) : tree :=
  Fields "SystemSlots"
    [("handle", show_int (slots_handle x));
     ("slot_designation", Quoted (slots_slot_designation x));
     ("slot_type", SlotType_tree (slots_slot_type x));
     ("slot_data_bus_width", SlotWidth_tree (slots_slot_data_bus_width x));
     ("current_usage", CurrentUsage_tree (slots_current_usage x));
     ("slot_length", SlotLength_tree (slots_slot_length x));
     ("slot_id", show_int (slots_slot_id x));
     ("slot_characteristics_1", (show_wrapped "SlotCharacteristics1") (slots_slot_characteristics_1 x));
     ("slot_characteristics_2", (show_option (show_wrapped "SlotCharacteristics2")) (slots_slot_characteristics_2 x));
     ("segment_group_number", (show_option show_int) (slots_segment_group_number x));
     ("bus_number", (show_option show_int) (slots_bus_number x));
     ("device_and_function_number", (show_option DeviceAndFunctionNumber_tree) (slots_device_and_function_number x));
     ("data_bus_width", (show_option show_int) (slots_data_bus_width x));
     ("peer_devices", (show_option PeerDevices_tree) (slots_peer_devices x));
     ("slot_information", (show_option show_int) (slots_slot_information x));
     ("slot_physical_width", (show_option SlotWidth_tree) (slots_slot_physical_width x));
     ("slot_pitch", (show_option (show_wrapped "SlotPitch")) (slots_slot_pitch x))].

(* src/structures/011_oem_strings.rs:9-15 `struct OemStrings` *)
Definition OemStrings_tree (x : OemStrings) : tree :=
  Fields "OemStrings"
    [("handle", show_int (oem_handle x));
     ("strings", StructureStrings_tree (oem_strings x))].

(* src/structures/012_system_configuration_options.rs:13-19 `struct SystemConfigurationOptions` *)
Definition SystemConfigurationOptions_tree (x : SystemConfigurationOptions) : tree :=
  Fields "SystemConfigurationOptions"
    [("handle", show_int (options_handle x));
     ("strings", StructureStrings_tree (options_strings x))].

(* src/structures/013_bios_language.rs:22-26 `struct InstallableLanguages` *)
Definition InstallableLanguages_tree (x : InstallableLanguages) : tree :=
  Fields "InstallableLanguages"
    [("structure", RawStructure_tree (il_structure x));
     ("index", show_int (il_index x))].

(* src/structures/013_bios_language.rs:9-19 `struct BiosLanguage` *)
Definition BiosLanguage_tree (x : BiosLanguage) : tree :=
  Fields "BiosLanguage"
    [("handle", show_int (language_handle x));
     ("installable_languages", InstallableLanguages_tree (language_installable_languages x));
     ("flags", (show_option (show_wrapped "LanguageFlags")) (language_flags x));
     ("current_language", show_int (language_current_language x))].

(* src/structures/014_group_associations.rs:26-30 `struct GroupItems` *)
Definition GroupItems_tree (x : GroupItems) : tree :=
  Fields "GroupItems"
    [("data", show_bytes (gi_data x));
     ("index", show_int (gi_index x))].

(* src/structures/014_group_associations.rs:33-39 `struct GroupItem` *)
Definition GroupItem_tree (x : GroupItem) : tree :=
  Fields "GroupItem"
    [("type_", show_int (gi_type x));
     ("handle", show_int (gi_handle x))].

(* src/structures/014_group_associations.rs:15-23 `struct GroupAssociations` *)
Definition GroupAssociations_tree (x : GroupAssociations) : tree :=
  Fields "GroupAssociations"
    [("handle", show_int (group_handle x));
     ("group_name", Quoted (group_group_name x));
     ("items", GroupItems_tree (group_items x))].

(* src/structures/015_system_event_log/log_record_format.rs:177-218 `enum SystemManagementType` *)
Definition SystemManagementType_tree (x : SystemManagementType) : tree :=
  match x with
  | SMT_OutOfRangeVoltagePlus2_5Num1 => show_unit "OutOfRangeVoltagePlus2_5Num1"
  | SMT_OutOfRangeVoltagePlus2_5Num2 => show_unit "OutOfRangeVoltagePlus2_5Num2"
  | SMT_OutOfRangeVoltagePlus3_3 => show_unit "OutOfRangeVoltagePlus3_3"
  | SMT_OutOfRangeVoltagePlus5 => show_unit "OutOfRangeVoltagePlus5"
  | SMT_OutOfRangeVoltageMinus5 => show_unit "OutOfRangeVoltageMinus5"
  | SMT_OutOfRangeVoltagePlus12 => show_unit "OutOfRangeVoltagePlus12"
  | SMT_OutOfRangeVoltageMinus12 => show_unit "OutOfRangeVoltageMinus12"
  | SMT_OutOfRangeVoltageReserved v => Call "OutOfRangeVoltageReserved" [show_int v]
  | SMT_OutOfRangeTemperatureSystemBoard => show_unit "OutOfRangeTemperatureSystemBoard"
  | SMT_OutOfRangeTemperatureProcessor1 => show_unit "OutOfRangeTemperatureProcessor1"
  | SMT_OutOfRangeTemperatureProcessor2 => show_unit "OutOfRangeTemperatureProcessor2"
  | SMT_OutOfRangeTemperatureProcessor3 => show_unit "OutOfRangeTemperatureProcessor3"
  | SMT_OutOfRangeTemperatureProcessor4 => show_unit "OutOfRangeTemperatureProcessor4"
  | SMT_OutOfRangeTemperatureReserved v => Call "OutOfRangeTemperatureReserved" [show_int v]
  | SMT_OutOfRangeFan v => Call "OutOfRangeFan" [show_int v]
  | SMT_Reserved v => Call "Reserved" [show_int v]
  | SMT_ChassisSecureSwitchActivated => show_unit "ChassisSecureSwitchActivated"
  | SMT_OutOfRangeSystemManagementProbe v => Call "OutOfRangeSystemManagementProbe" [show_int v]
  | SMT_OemAssigned v => Call "OemAssigned" [show_int v]
  end.

(* src/structures/015_system_event_log/log_record_format.rs:116-142 `enum VariableDataFormatType` *)
Definition VariableDataFormatType_tree (x : VariableDataFormatType) : tree :=
  match x with
  | VDF_None => show_unit "None"
  | VDF_Handle handle => Fields "Handle" [("handle", show_int handle)]
  | VDF_MultipleEvent counter => Fields "MultipleEvent" [("counter", show_int counter)]
  | VDF_MultipleEventHandle handle counter => Fields "MultipleEventHandle" [("handle", show_int handle); ("counter", show_int counter)]
  | VDF_PostResults v => Call "PostResults" [(show_wrapped "PostResults") v]
  | VDF_SystemManagementType t => Call "SystemManagementType" [SystemManagementType_tree t]
  | VDF_MultipleEventSystemManagementType t counter => Fields "MultipleEventSystemManagementType" [("system_management_type", SystemManagementType_tree t); ("counter", show_int counter)]
  | VDF_Unused v => Call "Unused" [show_int v]
  | VDF_OemAssigned v => Call "OemAssigned" [show_int v]
  end.

(* src/structures/015_system_event_log/mod.rs:148-152 `struct EventLogTypeDescriptor` *)
Definition EventLogTypeDescriptor_tree (x : EventLogTypeDescriptor) : tree :=
  Fields "EventLogTypeDescriptor"
    [("log_type", EventLogType_tree (log_type x));
     ("variable_data_format_type", VariableDataFormatType_tree (variable_data_format_type x))].

(* src/structures/015_system_event_log/mod.rs:58-74 `enum AccessMethod` *)
Definition AccessMethod_tree (x : AccessMethod) : tree :=
  match x with
  | AM_IndexedIoOne8bitIndexOne8bitData index data => Fields "IndexedIoOne8bitIndexOne8bitData" [("index", show_int index); ("data", show_int data)]
  | AM_IndexedIoTwo8bitIndexOne8bitData index0 index1 data => Fields "IndexedIoTwo8bitIndexOne8bitData" [("index", show_bytes [index0; index1]); ("data", show_int data)]
  | AM_IndexedIoOne16bitIndexOne8bitData index data => Fields "IndexedIoOne16bitIndexOne8bitData" [("index", show_int index); ("data", show_int data)]
  | AM_MemoryMappedPhysicaAddress physical_address => Fields "MemoryMappedPhysicaAddress" [("physical_address", show_int physical_address)]
  | AM_GeneralPurposeNonVolatileData gpnv_handle => Fields "GeneralPurposeNonVolatileData" [("gpnv_handle", show_int gpnv_handle)]
  | AM_Available method address => Fields "Available" [("method", show_int method); ("address", show_int address)]
  | AM_OemSpecific method address => Fields "OemSpecific" [("method", show_int method); ("address", show_int address)]
  end.

(* src/structures/015_system_event_log/mod.rs:29-53 `struct SystemEventLog` *)
Definition SystemEventLog_tree (x : SystemEventLog) : tree :=
  Fields "SystemEventLog"
    [("handle", show_int (log_handle x));
     ("log_area_length", show_int (log_log_area_length x));
     ("log_header_start_offset", show_int (log_log_header_start_offset x));
     ("log_data_start_offset", show_int (log_log_data_start_offset x));
     ("access_method", AccessMethod_tree (log_access_method x));
     ("log_status", (show_wrapped "LogStatus") (log_log_status x));
     ("log_change_token", show_int (log_log_change_token x));
     ("log_header_format", (show_option LogHeaderFormat_tree) (log_log_header_format x));
     ("supported_event_log_type_descriptors", (show_option EventLogTypeDescriptors_tree) (log_descriptors x))].

(* src/structures/016_physical_memory_array.rs:168-195 `struct PhysicalMemoryArray` *)
Definition PhysicalMemoryArray_tree (x : PhysicalMemoryArray) : tree :=
  Fields "PhysicalMemoryArray"
    [("handle", show_int (array_handle x));
     ("location", MemoryArrayLocation_tree (array_location x));
     ("use", MemoryArrayUse_tree (array_use x));
     ("memory_error_correction", MemoryArrayErrorCorrectionTypes_tree (array_memory_error_correction x));
     ("maximum_capacity", (show_option show_int) (array_maximum_capacity x));
     ("memory_error_information_handle", (show_option show_int) (array_memory_error_information_handle x));
     ("number_of_memory_devices", show_int (array_number_of_memory_devices x));
     ("extended_maximum_capacity", (show_option show_int) (array_extended_maximum_capacity x))].

(* src/structures/017_memory_device.rs:301-378 `struct MemoryDevice` *)
Definition MemoryDevice_tree (x : MemoryDevice) : tree :=
  Fields "MemoryDevice"
    [("handle", show_int (memdev_handle x));
     ("physical_memory_handle", show_int (memdev_physical_memory_handle x));
     ("memory_error_handle", (show_option show_int) (memdev_memory_error_handle x));
     ("total_width", (show_option show_int) (memdev_total_width x));
     ("data_width", (show_option show_int) (memdev_data_width x));
     ("size", (show_option show_int) (memdev_size x));
     ("form_factor", FormFactor_tree (memdev_form_factor x));
     ("device_set", (show_option show_int) (memdev_device_set x));
     ("device_locator", Quoted (memdev_device_locator x));
     ("bank_locator", Quoted (memdev_bank_locator x));
     ("memory_type", MemoryType_tree (memdev_memory_type x));
     ("type_detail", (show_flags "Detail" Detail_constants) (memdev_type_detail x));
     ("speed", (show_option show_int) (memdev_speed x));
     ("manufacturer", Quoted (memdev_manufacturer x));
     ("serial", Quoted (memdev_serial x));
     ("asset_tag", Quoted (memdev_asset_tag x));
     ("part_number", Quoted (memdev_part_number x));
     ("attributes", show_int (memdev_attributes x));
     ("extended_size", show_int (memdev_extended_size x));
     ("configured_memory_speed", (show_option show_int) (memdev_configured_memory_speed x));
     ("minimum_voltage", (show_option show_int) (memdev_minimum_voltage x));
     ("maximum_voltage", (show_option show_int) (memdev_maximum_voltage x));
     ("configured_voltage", (show_option show_int) (memdev_configured_voltage x));
     ("memory_technology", (show_option MemoryTechnology_tree) (memdev_memory_technology x));
     ("operating_mode_capability", (show_option (show_flags "OperatingModes" OperatingModes_constants)) (memdev_operating_mode_capability x));
     ("firmware_version", (show_option Quoted) (memdev_firmware_version x));
     ("module_manufacturer", (show_option show_int) (memdev_module_manufacturer x));
     ("module_product_id", (show_option show_int) (memdev_module_product_id x));
     ("memory_subsystem_controller_manufacturer_id", (show_option show_int) (memdev_memory_subsystem_controller_manufacturer_id x));
     ("memory_subsystem_controller_product_id", (show_option show_int) (memdev_memory_subsystem_controller_product_id x));
     ("non_volatile_size", (show_option show_int) (memdev_non_volatile_size x));
     ("volatile_size", (show_option show_int) (memdev_volatile_size x));
     ("cache_size", (show_option show_int) (memdev_cache_size x));
     ("logical_size", (show_option show_int) (memdev_logical_size x));
     ("extended_speed", (show_option show_int) (memdev_extended_speed x));
     ("extended_configured_memory_speed", (show_option show_int) (memdev_extended_configured_memory_speed x))].

(* src/structures/018_memory_error_32.rs:14-35 `struct MemoryError32` *)
Definition MemoryError32_tree (x : MemoryError32) : tree :=
  Fields "MemoryError32"
    [("handle", show_int (me_handle x));
     ("error_type", MEErrorType_tree (me_error_type x));
     ("error_granularity", MEErrorGranularity_tree (me_error_granularity x));
     ("error_operation", MEErrorOperation_tree (me_error_operation x));
     ("vendor_syndrome", show_int (me_vendor_syndrome x));
     ("memory_array_error_address", show_int (me_memory_array_error_address x));
     ("device_error_address", show_int (me_device_error_address x));
     ("error_resolution", show_int (me_error_resolution x))].

(* src/structures/019_memory_array_mapped_address.rs:13-50 `struct MemoryArrayMappedAddress` *)
Definition MemoryArrayMappedAddress_tree (x : MemoryArrayMappedAddress) : tree :=
  Fields "MemoryArrayMappedAddress"
    [("handle", show_int (ama_handle x));
     ("starting_address", show_int (ama_starting_address x));
     ("ending_address", show_int (ama_ending_address x));
     ("memory_array_handle", show_int (ama_memory_array_handle x));
     ("partition_width", show_int (ama_partition_width x));
     ("extended_starting_address", (show_option show_int) (ama_extended_starting_address x));
     ("extended_ending_address", (show_option show_int) (ama_extended_ending_address x))].

(* src/structures/020_memory_device_mapped_address.rs:13-63 `struct MemoryDeviceMappedAddress` *)
Definition MemoryDeviceMappedAddress_tree (x : MemoryDeviceMappedAddress) : tree :=
  Fields "MemoryDeviceMappedAddress"
    [("handle", show_int (dma_handle x));
     ("starting_address", show_int (dma_starting_address x));
     ("ending_address", show_int (dma_ending_address x));
     ("memory_device_handle", show_int (dma_memory_device_handle x));
     ("memory_array_mapped_address_handle", show_int (dma_memory_array_mapped_address_handle x));
     ("partition_row_position", show_int (dma_partition_row_position x));
     ("interleave_position", show_int (dma_interleave_position x));
     ("interleaved_data_depth", show_int (dma_interleaved_data_depth x));
     ("extended_starting_address", (show_option show_int) (dma_extended_starting_address x));
     ("extended_ending_address", (show_option show_int) (dma_extended_ending_address x))].

(* src/structures/021_built_in_pointing_device.rs:16-25 `struct BuiltInPointingDevice` *)
Definition BuiltInPointingDevice_tree (x : BuiltInPointingDevice) : tree :=
  Fields "BuiltInPointingDevice"
    [("handle", show_int (pd_handle x));
     ("type_", PointingDeviceType_tree (pd_type x));
     ("interface", PointingDeviceInterface_tree (pd_interface x));
     ("number_of_buttons", show_int (pd_number_of_buttons x))].

(* src/structures/022_portable_battery.rs:46-51 `enum ManufactureDate` *)
Definition ManufactureDate_tree (x : ManufactureDate) : tree :=
  match x with
  | MD_None => show_unit "None"
  | MD_Basic s => Call "Basic" [Quoted s]
  | MD_SmartBatteryDataSpecification year month date => Fields "SmartBatteryDataSpecification" [("year", show_int year); ("month", show_int month); ("date", show_int date)]
  end.

(* src/structures/022_portable_battery.rs:54-59 `enum SerialNumber` *)
Definition SerialNumber_tree (x : SerialNumber) : tree :=
  match x with
  | SN_None => show_unit "None"
  | SN_Basic s => Call "Basic" [Quoted s]
  | SN_SmartBatteryDataSpecification word => Call "SmartBatteryDataSpecification" [show_int word]
  end.

(* src/structures/022_portable_battery.rs:62-66 `enum DesignCapacity` *)
Definition DesignCapacity_tree (x : DesignCapacity) : tree :=
  match x with
  | DC_Unknown => show_unit "Unknown"
  | DC_Data value multiplier => Fields "Data" [("value", show_int value); ("multiplier", show_int multiplier)]
  end.

(* src/structures/022_portable_battery.rs:70-89 `enum DeviceChemistry` *)
Definition DeviceChemistry_tree (x : DeviceChemistry) : tree :=
  match x with
  | Chem_Other => show_unit "Other"
  | Chem_Unknown => show_unit "Unknown"
  | Chem_LeadAcid => show_unit "LeadAcid"
  | Chem_NickelCadmium => show_unit "NickelCadmium"
  | Chem_NickelMetalHydride => show_unit "NickelMetalHydride"
  | Chem_LithiumIon => show_unit "LithiumIon"
  | Chem_ZincAir => show_unit "ZincAir"
  | Chem_LithiumPolymer => show_unit "LithiumPolymer"
  | Chem_Undefined v => Call "Undefined" [show_int v]
  | Chem_SmartBatteryDataSpecification s => Call "SmartBatteryDataSpecification" [Quoted s]
  end.

(* src/structures/022_portable_battery.rs:16-43 `struct PortableBattery` *)
Definition PortableBattery_tree (x : PortableBattery) : tree :=
  Fields "PortableBattery"
    [("handle", show_int (battery_handle x));
     ("location", Quoted (battery_location x));
     ("manufacturer", Quoted (battery_manufacturer x));
     ("manufacture_date", ManufactureDate_tree (battery_manufacture_date x));
     ("serial_number", SerialNumber_tree (battery_serial_number x));
     ("device_name", Quoted (battery_device_name x));
     ("device_chemistry", DeviceChemistry_tree (battery_device_chemistry x));
     ("design_capacity", DesignCapacity_tree (battery_design_capacity x));
     ("design_voltage", show_int (battery_design_voltage x));
     ("sbds_version_number", Quoted (battery_sbds_version_number x));
     ("maximum_error_in_battery_data", show_int (battery_maximum_error_in_battery_data x));
     ("oem_specific", (show_option show_int) (battery_oem_specific x))].

(* src/lib.rs:365-388 `enum Structure` *)
Definition Structure_tree (c : cfg) (x : Structure) : tree :=
  match x with
  | SBios s => Call "Bios" [Bios_tree s]
  | SSystem s => Call "System" [System_tree s]
  | SBaseBoard s => Call "BaseBoard" [BaseBoard_tree s]
  | SEnclosure s => Call "Enclosure" [(Enclosure_tree c) s]
  | SProcessor s => Call "Processor" [Processor_tree s]
  | SCache s => Call "Cache" [Cache_tree s]
  | SPortConnector s => Call "PortConnector" [PortConnector_tree s]
  | SSystemSlots s => Call "SystemSlots" [SystemSlots_tree s]
  | SOemStrings s => Call "OemStrings" [OemStrings_tree s]
  | SSystemConfigurationOptions s => Call "SystemConfigurationOptions" [SystemConfigurationOptions_tree s]
  | SBiosLanguage s => Call "BiosLanguage" [BiosLanguage_tree s]
  | SGroupAssociations s => Call "GroupAssociations" [GroupAssociations_tree s]
  | SSystemEventLog s => Call "SystemEventLog" [SystemEventLog_tree s]
  | SMemoryDevice s => Call "MemoryDevice" [MemoryDevice_tree s]
  | SMemoryError32 s => Call "MemoryError32" [MemoryError32_tree s]
  | SMemoryArrayMappedAddress s => Call "MemoryArrayMappedAddress" [MemoryArrayMappedAddress_tree s]
  | SMemoryDeviceMappedAddress s => Call "MemoryDeviceMappedAddress" [MemoryDeviceMappedAddress_tree s]
  | SBuiltInPointingDevice s => Call "BuiltInPointingDevice" [BuiltInPointingDevice_tree s]
  | SPortableBattery s => Call "PortableBattery" [PortableBattery_tree s]
  | SPhysicalMemoryArray s => Call "PhysicalMemoryArray" [PhysicalMemoryArray_tree s]
  | SOther s => Call "Other" [RawStructure_tree s]
  end.

(* src/lib.rs:356-362 `struct Structures` *)
Definition Structures_tree (x : Structures) : tree :=
  Fields "Structures"
    [("smbios_version", SmbiosVersion_tree (smbios_version x));
     ("smbios_len", show_int (smbios_len_ x));
     ("idx", show_int (idx x));
     ("buffer", show_bytes (buffer x))].

(* src/lib.rs:252-268 `struct EntryPointV2` *)
Definition EntryPointV2_tree (x : EntryPointV2) : tree :=
  Fields "EntryPointV2"
    [("signature", show_int (v2_signature x));
     ("checksum", show_int (v2_checksum x));
     ("len", show_int (v2_len x));
     ("major", show_int (v2_major x));
     ("minor", show_int (v2_minor x));
     ("struct_max", show_int (v2_struct_max x));
     ("revision", show_int (v2_revision x));
     ("formatted", show_bytes (v2_formatted x));
     ("dmi_signature", show_bytes (v2_dmi_signature x));
     ("dmi_checksum", show_int (v2_dmi_checksum x));
     ("smbios_len", show_int (v2_smbios_len x));
     ("smbios_address", show_int (v2_smbios_address x));
     ("smbios_count", show_int (v2_smbios_count x));
     ("bcd_revision", show_int (v2_bcd_revision x))].

(* src/lib.rs:275-287 `struct EntryPointV3` *)
Definition EntryPointV3_tree (x : EntryPointV3) : tree :=
  Fields "EntryPointV3"
    [("signature", show_bytes (v3_signature x));
     ("checksum", show_int (v3_checksum x));
     ("len", show_int (v3_len x));
     ("major", show_int (v3_major x));
     ("minor", show_int (v3_minor x));
     ("docrev", show_int (v3_docrev x));
     ("revision", show_int (v3_revision x));
     ("_reserved", show_int (v3_reserved x));
     ("smbios_len_max", show_int (v3_smbios_len_max x));
     ("smbios_address", show_int (v3_smbios_address x))].

(* src/lib.rs:99-103 `enum EntryPoint` *)
Definition EntryPoint_tree (x : EntryPoint) : tree :=
  match x with
  | V2 p => Call "V2" [EntryPointV2_tree p]
  | V3 p => Call "V3" [EntryPointV3_tree p]
  end.

(* `{:?}` and, with [alt], `{:#?}` of the types a caller gets from the library *)
Definition RawStructure_debug_text (u : characters) (alt : bool) (x : RawStructure) : string := print u alt 0 (RawStructure_tree x).
Definition InfoType_debug_text (u : characters) (alt : bool) (x : InfoType) : string := print u alt 0 (InfoType_tree x).
Definition SmbiosVersion_debug_text (u : characters) (alt : bool) (x : SmbiosVersion) : string := print u alt 0 (SmbiosVersion_tree x).
Definition EntryPoint_debug_text (u : characters) (alt : bool) (x : EntryPoint) : string := print u alt 0 (EntryPoint_tree x).
Definition Structures_debug_text (u : characters) (alt : bool) (x : Structures) : string := print u alt 0 (Structures_tree x).
Definition StructureStrings_debug_text (u : characters) (alt : bool) (x : StructureStrings) : string := print u alt 0 (StructureStrings_tree x).
Definition ContainedElement_debug_text (u : characters) (alt : bool) (x : ContainedElement) : string := print u alt 0 (ContainedElement_tree x).
Definition Device_debug_text (u : characters) (alt : bool) (x : Device) : string := print u alt 0 (Device_tree x).
Definition GroupItem_debug_text (u : characters) (alt : bool) (x : GroupItem) : string := print u alt 0 (GroupItem_tree x).
Definition EventLogTypeDescriptor_debug_text (u : characters) (alt : bool) (x : EventLogTypeDescriptor) : string := print u alt 0 (EventLogTypeDescriptor_tree x).
Definition Structure_debug_text (u : characters) (c : cfg) (alt : bool) (x : Structure) : string := print u alt 0 (Structure_tree c x).
