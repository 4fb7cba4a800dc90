(* Generated by tools/gen_show.py; do not edit by hand.  What a value tells the formatter
   determines the parts that == compares. *)
From Coq Require Import String.
From Verif Require Import Base G_Enums M_Raw M_Entry M_Bios M_System M_BaseBoard M_Enclosure M_Processor M_Cache
  M_PortConnector M_SystemSlots M_Strings M_GroupAssociations M_SystemEventLog M_PhysicalMemoryArray M_MemoryDevice
  M_Memory M_PortableBattery M_Iter M_Flags M_Eq G_Eq M_Show G_Show S_Show L_Show.
Local Open Scope string_scope.
Local Open Scope N_scope.

Definition InfoType_names : list string := ["Bios"; "System"; "BaseBoard"; "Enclosure"; "Processor"; "Cache"; "PortConnector"; "SystemSlots"; "OemStrings"; "SystemConfigurationOptions"; "GroupAssociations"; "SystemEventLog"; "BiosLanguage"; "PhysicalMemoryArray"; "MemoryDevice"; "MemoryError32"; "MemoryArrayMappedAddress"; "MemoryDeviceMappedAddress"; "BuiltInPointingDevice"; "PortableBattery"; "SystemBoot"; "Oem"; "End"].
Lemma InfoType_sound : sound InfoType_tree InfoType_parts.
Proof. apply (variant_sound U8 InfoType_name InfoType_tag InfoType_value InfoType_names); [intros []; reflexivity|reflexivity]. Qed.

Definition WakeupType_names : list string := ["Reserved"; "Other"; "Unknown"; "APM_Timer"; "Modem_Ring"; "LAN_Remote"; "Power_Switch"; "PCI_PME"; "AC_Power_Restored"; "Undefined"].
Lemma WakeupType_sound : sound WakeupType_tree WakeupType_parts.
Proof. apply (variant_sound U8 WakeupType_name WakeupType_tag WakeupType_value WakeupType_names); [intros []; reflexivity|reflexivity]. Qed.

Definition BoardType_names : list string := ["Unknown"; "Other"; "ServerBlade"; "ConnectivitySwitch"; "SystemManagementModule"; "ProcessorModule"; "IoModule"; "MemoryModule"; "DaughterBoard"; "MotherBoard"; "ProcessorMemoryModule"; "ProcessorIoModule"; "InterconnectBoard"; "Undefined"].
Lemma BoardType_sound : sound BoardType_tree BoardType_parts.
Proof. apply (variant_sound U8 BoardType_name BoardType_tag BoardType_value BoardType_names); [intros []; reflexivity|reflexivity]. Qed.

Definition EnclosureType_names : list string := ["Other"; "Unknown"; "Desktop"; "LowProfileDesktop"; "PizzaBox"; "MiniTower"; "Tower"; "Portable"; "Laptop"; "Notebook"; "HandHeld"; "DockingStation"; "AllInOne"; "SubNotebook"; "SpaceSaving"; "LunchBox"; "MainServerChassis"; "ExpansionChassis"; "SubChassis"; "BusExpansionChassis"; "PeripheralChassis"; "RaidChassis"; "RackMountChassis"; "SealedCasePc"; "MultiSystemChassis"; "CompactPci"; "AdvancedTca"; "Blade"; "BladeEnclosure"; "Tablet"; "Convertible"; "Detachable"; "IotGateway"; "EmbeddedPc"; "MiniPc"; "StickPc"; "Undefined"].
Lemma EnclosureType_sound : sound EnclosureType_tree EnclosureType_parts.
Proof. apply (variant_sound U8 EnclosureType_name EnclosureType_tag EnclosureType_value EnclosureType_names); [intros []; reflexivity|reflexivity]. Qed.

Definition State_names : list string := ["Other"; "Unknown"; "Safe"; "Warning"; "Critical"; "NonRecoverable"; "Undefined"].
Lemma State_sound : sound State_tree State_parts.
Proof. apply (variant_sound U8 State_name State_tag State_value State_names); [intros []; reflexivity|reflexivity]. Qed.

Definition SecurityStatus_names : list string := ["Other"; "Unknown"; "None"; "ExternalInterfaceLockedOut"; "ExternalInterfaceEnabled"; "Undefined"].
Lemma SecurityStatus_sound : sound SecurityStatus_tree SecurityStatus_parts.
Proof. apply (variant_sound U8 SecurityStatus_name SecurityStatus_tag SecurityStatus_value SecurityStatus_names); [intros []; reflexivity|reflexivity]. Qed.

Definition ProcessorType_names : list string := ["Other"; "Unknown"; "CentralProcessor"; "MathProcessor"; "DspProcessor"; "VideoProcessor"; "Undefined"].
Lemma ProcessorType_sound : sound ProcessorType_tree ProcessorType_parts.
Proof. apply (variant_sound U8 ProcessorType_name ProcessorType_tag ProcessorType_value ProcessorType_names); [intros []; reflexivity|reflexivity]. Qed.

Definition ProcessorFamily_names : list string := ["Other"; "Unknown"; "Intel8086"; "Intel80286"; "Intel386Processor"; "Intel486Processor"; "Intel8087"; "Intel80287"; "Intel80387"; "Intel80487"; "IntelPentiumProcessor"; "PentiumProProcessor"; "PentiumIIProcessor"; "PentiumProcessorWithMMXTechnology"; "IntelCeleronProcessor"; "PentiumIIXeonProcessor"; "PentiumIIIProcessor"; "M1Family"; "M2Family"; "IntelCeleronMProcessor"; "IntelPentium4HTProcessor"; "AMDDuronProcessorFamily"; "K5Family"; "K6Family"; "K62"; "K63"; "AMDAthlonProcessorFamily"; "AMD29000Family"; "K62Plus"; "PowerPCFamily"; "PowerPC601"; "PowerPC603"; "PowerPC603Plus"; "PowerPC604"; "PowerPC620"; "PowerPCX704"; "PowerPC750"; "IntelCoreDuoProcessor"; "IntelCoreDuoMobileProcessor"; "IntelCoreSoloMobileProcessor"; "IntelAtomProcessor"; "IntelCoreMProcessor"; "IntelCoreM3Processor"; "IntelCoreM5Processor"; "IntelCoreM7Processor"; "AlphaFamily"; "Alpha21064"; "Alpha21066"; "Alpha21164"; "Alpha21164PC"; "Alpha21164a"; "Alpha21264"; "Alpha21364"; "AMDTurionIIUltraDualCoreMobileMProcessorFamily"; "AMDTurionIIDualCoreMobileMProcessorFamily"; "AMDAthlonIIDualCoreMProcessorFamily"; "AMDOpteron6100SeriesProcessor"; "AMDOpteron4100SeriesProcessor"; "AMDOpteron6200SeriesProcessor"; "AMDOpteron4200SeriesProcessor"; "AMDFXSeriesProcessor"; "MIPSFamily"; "MIPSR4000"; "MIPSR4200"; "MIPSR4400"; "MIPSR4600"; "MIPSR10000"; "AMDCSeriesProcessor"; "AMDESeriesProcessor"; "AMDASeriesProcessor"; "AMDGSeriesProcessor"; "AMDZSeriesProcessor"; "AMDRSeriesProcessor"; "AMDOpteron4300SeriesProcessor"; "AMDOpteron6300SeriesProcessor"; "AMDOpteron3300SeriesProcessor"; "AMDFireProSeriesProcessor"; "SPARCFamily"; "SuperSPARC"; "MicroSPARCII"; "MicroSPARCIIep"; "UltraSPARC"; "UltraSPARCII"; "UltraSPARCIii"; "UltraSPARCIII"; "UltraSPARCIIIi"; "Motorola68040Family"; "Motorola68xxx"; "Motorola68000"; "Motorola68010"; "Motorola68020"; "Motorola68030"; "AMDAthlonX4QuadCoreProcessorFamily"; "AMDOpteronX1000SeriesProcessor"; "AMDOpteronX2000SeriesAPU"; "AMDOpteronASeriesProcessor"; "AMDOpteronX3000SeriesAPU"; "AMDZenProcessorFamily"; "HobbitFamily"; "CrusoeTM5000Family"; "CrusoeTM3000Family"; "EfficeonTM8000Family"; "Weitek"; "AvailableForAssignment"; "ItaniumProcessor"; "AMDAthlon64ProcessorFamily"; "AMDOpteronProcessorFamily"; "AMDSempronProcessorFamily"; "AMDTurion64MobileTechnology"; "DualCoreAMDOpteronProcessorFamily"; "AMDAthlon64X2DualCoreProcessorFamily"; "AMDTurion64X2MobileTechnology"; "QuadCoreAMDOpteronProcessorFamily"; "ThirdGenerationAMDOpteronProcessorFamily"; "AMDPhenomFXQuadCoreProcessorFamily"; "AMDPhenomX4QuadCoreProcessorFamily"; "AMDPhenomX2DualCoreProcessorFamily"; "AMDAthlonX2DualCoreProcessorFamily"; "PARISCFamily"; "PARISC8500"; "PARISC8000"; "PARISC7300LC"; "PARISC7200"; "PARISC7100LC"; "PARISC7100"; "V30Family"; "QuadCoreIntelXeonProcessor3200Series"; "DualCoreIntelXeonProcessor3000Series"; "QuadCoreIntelXeonProcessor5300Series"; "DualCoreIntelXeonProcessor5100Series"; "DualCoreIntelXeonProcessor5000Series"; "DualCoreIntelXeonProcessorLV"; "DualCoreIntelXeonProcessorULV"; "DualCoreIntelXeonProcessor7100Series"; "QuadCoreIntelXeonProcessor5400Series"; "QuadCoreIntelXeonProcessor"; "DualCoreIntelXeonProcessor5200Series"; "DualCoreIntelXeonProcessor7200Series"; "QuadCoreIntelXeonProcessor7300Series"; "QuadCoreIntelXeonProcessor7400Series"; "MultiCoreIntelXeonProcessor7400Series"; "PentiumIIIXeonProcessor"; "PentiumIIIProcessorWithIntelSpeedStepTechnology"; "Pentium4Processor"; "IntelXeonProcessor"; "AS400Family"; "IntelXeonProcessorMP"; "AMDAthlonXPProcessorFamily"; "AMDAthlonMPProcessorFamily"; "IntelItanium2Processor"; "IntelPentiumMProcessor"; "IntelCeleronDProcessor"; "IntelPentiumDProcessor"; "IntelPentiumProcessorExtremeEdition"; "IntelCoreSoloProcessor"; "Ambiguous"; "IntelCore2DuoProcessor"; "IntelCore2SoloProcessor"; "IntelCore2ExtremeProcessor"; "IntelCore2QuadProcessor"; "IntelCore2ExtremeMobileProcessor"; "IntelCore2DuoMobileProcessor"; "IntelCore2SoloMobileProcessor"; "IntelCoreI7Processor"; "DualCoreIntelCeleronProcessor"; "IBM390Family"; "G4"; "G5"; "ESA390G6"; "ZArchitectureBase"; "IntelCoreI5Processor"; "IntelCoreI3Processor"; "IntelCoreI9Processor"; "VIAC7MProcessorFamily"; "VIAC7DProcessorFamily"; "VIAC7ProcessorFamily"; "VIAEdenProcessorFamily"; "MultiCoreIntelXeonProcessor"; "DualCoreIntelXeonProcessor3xxxSeries"; "QuadCoreIntelXeonProcessor3xxxSeries"; "VIANanoProcessorFamily"; "DualCoreIntelXeonProcessor5xxxSeries"; "QuadCoreIntelXeonProcessor5xxxSeries"; "DualCoreIntelXeonProcessor7xxxSeries"; "QuadCoreIntelXeonProcessor7xxxSeries"; "MultiCoreIntelXeonProcessor7xxxSeries"; "MultiCoreIntelXeonProcessor3400Series"; "AMDOpteron3000SeriesProcessor"; "AMDSempronIIProcessor"; "EmbeddedAMDOpteronQuadCoreProcessorFamily"; "AMDPhenomTripleCoreProcessorFamily"; "AMDTurionUltraDualCoreMobileProcessorFamily"; "AMDTurionDualCoreMobileProcessorFamily"; "AMDAthlonDualCoreProcessorFamily"; "AMDSempronSIProcessorFamily"; "AMDPhenomIIProcessorFamily"; "AMDAthlonIIProcessorFamily"; "SixCoreAMDOpteronProcessorFamily"; "AMDSempronMProcessorFamily"; "I860"; "I960"; "ARMv7"; "ARMv8"; "ARMv9"; "SH3"; "SH4"; "ARM"; "StrongARM"; "Cyrix6x86"; "MediaGX"; "MII"; "WinChip"; "DSP"; "VideoProcessor"; "RISCVRV32"; "RISCVRV64"; "RISCVRV128"; "Available"; "NotUsed"; "ForFutureUse"; "ProcessorFamily2"; "OutOfSpec"].
Lemma ProcessorFamily_sound : sound ProcessorFamily_tree ProcessorFamily_parts.
Proof. apply (variant_sound U16 ProcessorFamily_name ProcessorFamily_tag ProcessorFamily_value ProcessorFamily_names); [intros []; reflexivity|reflexivity]. Qed.

Definition ProcessorUpgrade_names : list string := ["Other"; "Unknown"; "DaughterBoard"; "ZIFSocket"; "ReplaceablePiggyBack"; "None"; "LIFSocket"; "Slot1"; "Slot2"; "Socket370"; "SlotA"; "SlotM"; "Socket423"; "SocketA"; "Socket478"; "Socket754"; "Socket940"; "Socket939"; "SocketmPGA604"; "SocketLGA771"; "SocketLGA775"; "SocketS1"; "SocketAM2"; "SocketF"; "SocketLGA1366"; "SocketG34"; "SocketAM3"; "SocketC32"; "SocketLGA1156"; "SocketLGA1567"; "SocketPGA988A"; "SocketBGA1288"; "SocketrPGA988B"; "SocketBGA1023"; "SocketBGA1224"; "SocketLGA1155"; "SocketLGA1356"; "SocketLGA2011"; "SocketFS1"; "SocketFS2"; "SocketFM1"; "SocketFM2"; "SocketLGA2011Three"; "SocketLGA1356Three"; "SocketLGA1150"; "SocketBGA1168"; "SocketBGA1234"; "SocketBGA1364"; "SocketAM4"; "SocketLGA1151"; "SocketBGA1356"; "SocketBGA1440"; "SocketBGA1515"; "SocketLGA3647"; "SocketSP3"; "SocketSP3r2"; "SocketLGA2066"; "SocketBGA1392"; "SocketBGA1510"; "SocketBGA1528"; "SocketLGA4189"; "SocketLGA1200"; "Undefined"].
Lemma ProcessorUpgrade_sound : sound ProcessorUpgrade_tree ProcessorUpgrade_parts.
Proof. apply (variant_sound U8 ProcessorUpgrade_name ProcessorUpgrade_tag ProcessorUpgrade_value ProcessorUpgrade_names); [intros []; reflexivity|reflexivity]. Qed.

Definition CacheLevel_names : list string := ["L1"; "L2"; "L3"; "L4"; "L5"; "L6"; "L7"; "L8"].
Lemma CacheLevel_sound : sound CacheLevel_tree CacheLevel_parts.
Proof. apply (variant_sound U8 CacheLevel_name CacheLevel_tag CacheLevel_value CacheLevel_names); [intros []; reflexivity|reflexivity]. Qed.

Definition CacheLocation_names : list string := ["Internal"; "External"; "Reserved"; "Unknown"].
Lemma CacheLocation_sound : sound CacheLocation_tree CacheLocation_parts.
Proof. apply (variant_sound U8 CacheLocation_name CacheLocation_tag CacheLocation_value CacheLocation_names); [intros []; reflexivity|reflexivity]. Qed.

Definition CacheOperationalMode_names : list string := ["WriteThrough"; "WriteBack"; "ValuesWithMemoryAddress"; "Unknown"].
Lemma CacheOperationalMode_sound : sound CacheOperationalMode_tree CacheOperationalMode_parts.
Proof. apply (variant_sound U8 CacheOperationalMode_name CacheOperationalMode_tag CacheOperationalMode_value CacheOperationalMode_names); [intros []; reflexivity|reflexivity]. Qed.

Definition CacheErrorCorrectionType_names : list string := ["Other"; "Unknown"; "None"; "Parity"; "SingleBitEcc"; "MultiBitEcc"; "Undefined"].
Lemma CacheErrorCorrectionType_sound : sound CacheErrorCorrectionType_tree CacheErrorCorrectionType_parts.
Proof. apply (variant_sound U8 CacheErrorCorrectionType_name CacheErrorCorrectionType_tag CacheErrorCorrectionType_value CacheErrorCorrectionType_names); [intros []; reflexivity|reflexivity]. Qed.

Definition SystemCacheType_names : list string := ["Other"; "Unknown"; "Instruction"; "Data"; "Unified"; "Undefined"].
Lemma SystemCacheType_sound : sound SystemCacheType_tree SystemCacheType_parts.
Proof. apply (variant_sound U8 SystemCacheType_name SystemCacheType_tag SystemCacheType_value SystemCacheType_names); [intros []; reflexivity|reflexivity]. Qed.

Definition CacheAssociativity_names : list string := ["Other"; "Unknown"; "DirectMapped"; "TwowaySetAssociative"; "FourWaySetAssociative"; "FullyAssociative"; "EightWaySetAssociative"; "SixteenWaySetAssociative"; "TwelveWaySetAssociative"; "TwentyFourWaySetAssociative"; "ThirtyTwoWaySetAssociative"; "FourtyEightWaySetAssociative"; "SixtyFourWaySetAssociative"; "TwentyWaySetAssociative"; "Undefined"].
Lemma CacheAssociativity_sound : sound CacheAssociativity_tree CacheAssociativity_parts.
Proof. apply (variant_sound U8 CacheAssociativity_name CacheAssociativity_tag CacheAssociativity_value CacheAssociativity_names); [intros []; reflexivity|reflexivity]. Qed.

Definition ConnectorType_names : list string := ["None"; "Centronics"; "MiniCentronics"; "Proprietary"; "Db25PinMale"; "Db25PinFemale"; "Db15PinMale"; "Db15PinFemale"; "Db9PinMale"; "Db9PinFemale"; "Rj11"; "Rj45"; "MiniScsi"; "MiniDin"; "MicroDin"; "Ps2"; "Infrared"; "HpHil"; "AccessBus"; "SsaScsi"; "CircularDin8Male"; "CircularDin8Female"; "OnBoardIde"; "OnBoardFloppy"; "DualInline9"; "DualInline25"; "DualInline50"; "DualInline68"; "OnBoardSoundInputFromCdRom"; "MiniCentronicsType14"; "MiniCentronicsType26"; "MiniJack"; "Bnc"; "Ieee1394"; "SasSataPlugReceptacle"; "UsbTypeCReceptacle"; "Pc98"; "Pc98Hireso"; "PcH98"; "Pc98Note"; "Pc98Full"; "Other"; "Undefined"].
Lemma ConnectorType_sound : sound ConnectorType_tree ConnectorType_parts.
Proof. apply (variant_sound U8 ConnectorType_name ConnectorType_tag ConnectorType_value ConnectorType_names); [intros []; reflexivity|reflexivity]. Qed.

Definition PortType_names : list string := ["None"; "ParallelPortXtAtCompatible"; "ParallelPortPs2"; "ParallelPortEcp"; "ParallelPortEpp"; "ParallelPortEcpEpp"; "SerialPortXtAtCompatible"; "SerialPort16450Compatible"; "SerialPort16550Compatible"; "SerialPort16550ACompatible"; "ScsiPort"; "MidiPort"; "JoyStickPort"; "KeyboardPort"; "MousePort"; "SsaScsi"; "Usb"; "FireWire"; "PcmciaType1"; "PcmciaType2"; "PcmciaType3"; "Cardbus"; "AccessBusPort"; "Scsi2"; "ScsiWide"; "Pc98"; "Pc98Hireso"; "PcH98"; "VideoPort"; "AudioPort"; "ModemPort"; "NetworkPort"; "Sata"; "Sas"; "MultiFunctionDisplayPort"; "Thunderbolt"; "Intel8251Compatible"; "Intel8251FifoCompatible"; "Other"; "Undefined"].
Lemma PortType_sound : sound PortType_tree PortType_parts.
Proof. apply (variant_sound U8 PortType_name PortType_tag PortType_value PortType_names); [intros []; reflexivity|reflexivity]. Qed.

Definition SlotType_names : list string := ["Other"; "Unknown"; "Isa"; "Mca"; "Eisa"; "Pci"; "PcCard"; "VlVesa"; "Proprietary"; "ProcessorCardSlot"; "ProprietaryMemoryCardSlot"; "IoRiserCardSlot"; "Nubus"; "Pci66Mhz"; "Agp"; "Agp2x"; "Agp4x"; "PciX"; "Agp8x"; "M2Socket1DP"; "M2Socket1SD"; "M2Socket2"; "M2Socket3"; "MxmType1"; "MxmType2"; "MxmType3"; "MxmType3He"; "MxmType4"; "Mxm3TypeA"; "Mxm3TypeB"; "U2PciExpressGen2"; "U2PciExpressGen3"; "PciExpressMini52pin1"; "PciExpressMini52pin2"; "PciExpressMini76pin"; "U2PciExpressGen4"; "U2PciExpressGen5"; "OcpNic3Small"; "OcpNic3Large"; "OcpNicPriorTo3"; "CxlFlexbus1"; "Pc98C20"; "Pc98C24"; "Pc98E"; "Pc98LocalBus"; "Pc98Card"; "PciExpress"; "PciExpressX1"; "PciExpressX2"; "PciExpressX4"; "PciExpressX8"; "PciExpressX16"; "PciExpressGen2"; "PciExpressGen2x1"; "PciExpressGen2x2"; "PciExpressGen2x4"; "PciExpressGen2x8"; "PciExpressGen2x16"; "PciExpressGen3"; "PciExpressGen3x1"; "PciExpressGen3x2"; "PciExpressGen3x4"; "PciExpressGen3x8"; "PciExpressGen3x16"; "PciExpressGen4"; "PciExpressGen4x1"; "PciExpressGen4x2"; "PciExpressGen4x4"; "PciExpressGen4x8"; "PciExpressGen4x16"; "PciExpressGen5"; "PciExpressGen5x1"; "PciExpressGen5x2"; "PciExpressGen5x4"; "PciExpressGen5x8"; "PciExpressGen5x16"; "PciExpressGen6"; "E1FormFactorSlot"; "E3FormFactorSlot"; "Undefined"].
Lemma SlotType_sound : sound SlotType_tree SlotType_parts.
Proof. apply (variant_sound U8 SlotType_name SlotType_tag SlotType_value SlotType_names); [intros []; reflexivity|reflexivity]. Qed.

Definition SlotWidth_names : list string := ["Other"; "Unknown"; "Byte"; "Word"; "Dword"; "Qword"; "Dqword"; "X1"; "X2"; "X4"; "X8"; "X12"; "X16"; "X32"; "Undefined"].
Lemma SlotWidth_sound : sound SlotWidth_tree SlotWidth_parts.
Proof. apply (variant_sound U8 SlotWidth_name SlotWidth_tag SlotWidth_value SlotWidth_names); [intros []; reflexivity|reflexivity]. Qed.

Definition CurrentUsage_names : list string := ["Other"; "Unknown"; "Available"; "InUse"; "Unavailable"; "Undefined"].
Lemma CurrentUsage_sound : sound CurrentUsage_tree CurrentUsage_parts.
Proof. apply (variant_sound U8 CurrentUsage_name CurrentUsage_tag CurrentUsage_value CurrentUsage_names); [intros []; reflexivity|reflexivity]. Qed.

Definition SlotLength_names : list string := ["Other"; "Unknown"; "ShortLength"; "LongLength"; "DriveFormFactor2_5"; "DriveFormFactor3_5"; "Undefined"].
Lemma SlotLength_sound : sound SlotLength_tree SlotLength_parts.
Proof. apply (variant_sound U8 SlotLength_name SlotLength_tag SlotLength_value SlotLength_names); [intros []; reflexivity|reflexivity]. Qed.

Definition EventLogType_names : list string := ["Reserved"; "SingleBitEccMemoryError"; "MultiBitEccMemoryError"; "ParityMemoryError"; "BusTimeOut"; "IoChannelCheck"; "SoftwareNmi"; "PostMemoryResize"; "PostError"; "PciParityError"; "PciSystemError"; "CpuFailure"; "EisaFailSafeTimerTimeOut"; "CorrectableMemoryLogDisabled"; "LoggingDisabledForSpecificEventType"; "SystemLimitExceeded"; "AsynchronousHardwareTimerExpired"; "SystemConfigurationInformation"; "HardDiskInformation"; "SystemReconfigured"; "UncorrectableCpuComplexError"; "LogAreaReset"; "SystemBoot"; "Unused"; "Available"; "EndOfLog"].
Lemma EventLogType_sound : sound EventLogType_tree EventLogType_parts.
Proof. apply (variant_sound U8 EventLogType_name EventLogType_tag EventLogType_value EventLogType_names); [intros []; reflexivity|reflexivity]. Qed.

Definition LogHeaderFormat_names : list string := ["NoHeader"; "LogHeaderType1"; "Available"; "OemSpecific"].
Lemma LogHeaderFormat_sound : sound LogHeaderFormat_tree LogHeaderFormat_parts.
Proof. apply (variant_sound U8 LogHeaderFormat_name LogHeaderFormat_tag LogHeaderFormat_value LogHeaderFormat_names); [intros []; reflexivity|reflexivity]. Qed.

Definition MemoryArrayLocation_names : list string := ["Other"; "Unknown"; "SystemBoardOrMotherboard"; "IsaAddOnCard"; "EisaAddOnCard"; "PciAddOnCard"; "McaAddOnCard"; "PcmciaAddOnCard"; "ProprietaryAddOnCard"; "NuBus"; "Pc98c20AddOnCard"; "Pc98c24AddOnCard"; "Pc98eAddOnCard"; "Pc98LocalBusAddOnCard"; "CxlAddOnCard"; "Undefined"].
Lemma MemoryArrayLocation_sound : sound MemoryArrayLocation_tree MemoryArrayLocation_parts.
Proof. apply (variant_sound U8 MemoryArrayLocation_name MemoryArrayLocation_tag MemoryArrayLocation_value MemoryArrayLocation_names); [intros []; reflexivity|reflexivity]. Qed.

Definition MemoryArrayUse_names : list string := ["Other"; "Unknown"; "SystemMemory"; "VideoMemory"; "FlashMemory"; "NonVolatileRam"; "CacheMemory"; "Undefined"].
Lemma MemoryArrayUse_sound : sound MemoryArrayUse_tree MemoryArrayUse_parts.
Proof. apply (variant_sound U8 MemoryArrayUse_name MemoryArrayUse_tag MemoryArrayUse_value MemoryArrayUse_names); [intros []; reflexivity|reflexivity]. Qed.

Definition MemoryArrayErrorCorrectionTypes_names : list string := ["Other"; "Unknown"; "None"; "Parity"; "SingleBitEcc"; "MultiBitEcc"; "CRC"; "Undefined"].
Lemma MemoryArrayErrorCorrectionTypes_sound : sound MemoryArrayErrorCorrectionTypes_tree MemoryArrayErrorCorrectionTypes_parts.
Proof. apply (variant_sound U8 MemoryArrayErrorCorrectionTypes_name MemoryArrayErrorCorrectionTypes_tag MemoryArrayErrorCorrectionTypes_value MemoryArrayErrorCorrectionTypes_names); [intros []; reflexivity|reflexivity]. Qed.

Definition MDErrorGranularity_names : list string := ["Other"; "Unknown"; "DeviceLevel"; "MemoryLevel"; "Undefined"].
Lemma MDErrorGranularity_sound : sound MDErrorGranularity_tree MDErrorGranularity_parts.
Proof. apply (variant_sound U8 MDErrorGranularity_name MDErrorGranularity_tag MDErrorGranularity_value MDErrorGranularity_names); [intros []; reflexivity|reflexivity]. Qed.

Definition MDErrorOperation_names : list string := ["Other"; "Unknown"; "Read"; "Write"; "PartialWrite"; "Undefined"].
Lemma MDErrorOperation_sound : sound MDErrorOperation_tree MDErrorOperation_parts.
Proof. apply (variant_sound U8 MDErrorOperation_name MDErrorOperation_tag MDErrorOperation_value MDErrorOperation_names); [intros []; reflexivity|reflexivity]. Qed.

Definition MDErrorType_names : list string := ["Other"; "Unknown"; "Ok"; "BadRead"; "Parity"; "SingleBit"; "DoubleBit"; "MultiBit"; "Nibble"; "Checksum"; "Crc"; "CorrectedSingleBit"; "Corrected"; "Uncorrectable"; "Undefined"].
Lemma MDErrorType_sound : sound MDErrorType_tree MDErrorType_parts.
Proof. apply (variant_sound U8 MDErrorType_name MDErrorType_tag MDErrorType_value MDErrorType_names); [intros []; reflexivity|reflexivity]. Qed.

Definition FormFactor_names : list string := ["Other"; "Unknown"; "Simm"; "Sip"; "Chip"; "Dip"; "Zip"; "ProprietaryCard"; "Dimm"; "Tsop"; "RowOfChips"; "Rimm"; "SoDimm"; "Srimm"; "FbDimm"; "Undefined"].
Lemma FormFactor_sound : sound FormFactor_tree FormFactor_parts.
Proof. apply (variant_sound U8 FormFactor_name FormFactor_tag FormFactor_value FormFactor_names); [intros []; reflexivity|reflexivity]. Qed.

Definition MemoryTechnology_names : list string := ["Other"; "Unknown"; "Dram"; "NvDimmN"; "NvDimmF"; "NvDimmP"; "IntelOptane"; "Undefined"].
Lemma MemoryTechnology_sound : sound MemoryTechnology_tree MemoryTechnology_parts.
Proof. apply (variant_sound U8 MemoryTechnology_name MemoryTechnology_tag MemoryTechnology_value MemoryTechnology_names); [intros []; reflexivity|reflexivity]. Qed.

Definition MemoryType_names : list string := ["Other"; "Unknown"; "Dram"; "Edram"; "Vram"; "Sram"; "Ram"; "Rom"; "Flash"; "Eeprom"; "Feprom"; "Eprom"; "Cdram"; "ThreeDram"; "Sdram"; "Sgram"; "Rdram"; "Ddr"; "Ddr2"; "Ddr2FbDimm"; "Reserved"; "Ddr3"; "Fbd2"; "Ddr4"; "Ddr5"; "LpDdr"; "LpDdr2"; "LpDdr3"; "LpDdr4"; "LpDdr5"; "LogicalNonVolatileDevice"; "Hbm"; "Hbm2"; "Undefined"].
Lemma MemoryType_sound : sound MemoryType_tree MemoryType_parts.
Proof. apply (variant_sound U8 MemoryType_name MemoryType_tag MemoryType_value MemoryType_names); [intros []; reflexivity|reflexivity]. Qed.

Definition MEErrorType_names : list string := ["Other"; "Unknown"; "Ok"; "BadRead"; "ParityError"; "SingleBitError"; "DoubleBitError"; "MultiBitError"; "NibbleError"; "ChecksumError"; "CrcError"; "CorrectedSingleBitError"; "CorrectedError"; "UncorrectableError"; "Undefined"].
Lemma MEErrorType_sound : sound MEErrorType_tree MEErrorType_parts.
Proof. apply (variant_sound U8 MEErrorType_name MEErrorType_tag MEErrorType_value MEErrorType_names); [intros []; reflexivity|reflexivity]. Qed.

Definition MEErrorGranularity_names : list string := ["Other"; "Unknown"; "DeviceLevel"; "MemoryPartitionLevel"; "Undefined"].
Lemma MEErrorGranularity_sound : sound MEErrorGranularity_tree MEErrorGranularity_parts.
Proof. apply (variant_sound U8 MEErrorGranularity_name MEErrorGranularity_tag MEErrorGranularity_value MEErrorGranularity_names); [intros []; reflexivity|reflexivity]. Qed.

Definition MEErrorOperation_names : list string := ["Other"; "Unknown"; "Read"; "Write"; "PartialWrite"; "Undefined"].
Lemma MEErrorOperation_sound : sound MEErrorOperation_tree MEErrorOperation_parts.
Proof. apply (variant_sound U8 MEErrorOperation_name MEErrorOperation_tag MEErrorOperation_value MEErrorOperation_names); [intros []; reflexivity|reflexivity]. Qed.

Definition PointingDeviceType_names : list string := ["Other"; "Unknown"; "Mouse"; "TrackBall"; "TrackPoint"; "GlidePoint"; "TouchPad"; "TouchScreen"; "OpticalSensor"; "Undefined"].
Lemma PointingDeviceType_sound : sound PointingDeviceType_tree PointingDeviceType_parts.
Proof. apply (variant_sound U8 PointingDeviceType_name PointingDeviceType_tag PointingDeviceType_value PointingDeviceType_names); [intros []; reflexivity|reflexivity]. Qed.

Definition PointingDeviceInterface_names : list string := ["Other"; "Unknown"; "Serial"; "Ps2"; "Infrared"; "HpHil"; "BusMouse"; "Adb"; "BusMouseDb9"; "BusMouseMicroDin"; "Usb"; "Undefined"].
Lemma PointingDeviceInterface_sound : sound PointingDeviceInterface_tree PointingDeviceInterface_parts.
Proof. apply (variant_sound U8 PointingDeviceInterface_name PointingDeviceInterface_tag PointingDeviceInterface_value PointingDeviceInterface_names); [intros []; reflexivity|reflexivity]. Qed.

Lemma SmbiosVersion_sound : sound (SmbiosVersion_tree) SmbiosVersion_parts.
Proof. exact (fields_sound "SmbiosVersion" _ _ (then_field "major" major _ _ _ _ (int_sound U8) eq_refl
  (last_field "minor" minor _ _ (int_sound U8) eq_refl)) eq_refl). Qed.

Lemma RawStructure_sound : sound (RawStructure_tree) RawStructure_parts.
Proof. exact (fields_sound "RawStructure" _ _ (then_field "version" version _ _ _ _ SmbiosVersion_sound eq_refl
  (then_field "info" info _ _ _ _ InfoType_sound eq_refl
  (then_field "length" length_ _ _ _ _ (int_sound U8) eq_refl
  (then_field "handle" handle _ _ _ _ (int_sound U16) eq_refl
  (then_field "data" data _ _ _ _ bytes_sound eq_refl
  (last_field "strings" strings _ _ bytes_sound eq_refl)))))) eq_refl). Qed.

Lemma StructureStrings_sound : sound (StructureStrings_tree) StructureStrings_parts.
Proof. exact (fields_sound "StructureStrings" _ _ (then_field "bytes" bytes _ _ _ _ bytes_sound eq_refl
  (last_field "start" start _ _ (int_sound Usize) eq_refl)) eq_refl). Qed.

Lemma BiosRevision_sound : sound (BiosRevision_tree) Revision_parts.
Proof. exact (fields_sound "BiosRevision" _ _ (then_field "major" rev_major _ _ _ _ (int_sound U8) eq_refl
  (last_field "minor" rev_minor _ _ (int_sound U8) eq_refl)) eq_refl). Qed.

Lemma FirmwareRevision_sound : sound (FirmwareRevision_tree) Revision_parts.
Proof. exact (fields_sound "FirmwareRevision" _ _ (then_field "major" rev_major _ _ _ _ (int_sound U8) eq_refl
  (last_field "minor" rev_minor _ _ (int_sound U8) eq_refl)) eq_refl). Qed.

Lemma RomSize_sound : sound (RomSize_tree) RomSize_parts.
Proof. exact (fields_sound "RomSize" _ _ (then_field "basic" basic _ _ _ _ (int_sound U8) eq_refl
  (last_field "extended" extended _ _ (option_sound _ _ (int_sound U16)) eq_refl)) eq_refl). Qed.

Lemma Bios_sound : sound (Bios_tree) Bios_parts.
Proof. exact (fields_sound "Bios" _ _ (then_field "handle" bios_handle _ _ _ _ (int_sound U16) eq_refl
  (then_field "vendor" bios_vendor _ _ _ _ str_sound eq_refl
  (then_field "bios_version" bios_bios_version _ _ _ _ str_sound eq_refl
  (then_field "bios_starting_address_segment" bios_starting_address_segment _ _ _ _ (int_sound U16) eq_refl
  (then_field "bios_release_date" bios_release_date _ _ _ _ str_sound eq_refl
  (then_field "rom_size" bios_rom_size _ _ _ _ RomSize_sound eq_refl
  (then_field "bios_characteristics" bios_characteristics _ _ _ _ (wrapped_sound "Characteristics" U64 eq_refl) eq_refl
  (then_field "bios_characteristics_exttension_1" bios_characteristics_extension_1 _ _ _ _ (option_sound _ _ (wrapped_sound "CharacteristicsExtension1" U8 eq_refl)) eq_refl
  (then_field "bios_characteristics_exttension_2" bios_characteristics_extension_2 _ _ _ _ (option_sound _ _ (wrapped_sound "CharacteristicsExtension2" U8 eq_refl)) eq_refl
  (then_field "bios_revision" bios_revision _ _ _ _ (option_sound _ _ BiosRevision_sound) eq_refl
  (last_field "firmware_revision" bios_firmware_revision _ _ (option_sound _ _ FirmwareRevision_sound) eq_refl))))))))))) eq_refl). Qed.

Lemma System_sound : sound (System_tree) System_parts.
Proof. exact (fields_sound "System" _ _ (then_field "handle" system_handle _ _ _ _ (int_sound U16) eq_refl
  (then_field "manufacturer" system_manufacturer _ _ _ _ str_sound eq_refl
  (then_field "product" system_product _ _ _ _ str_sound eq_refl
  (then_field "version" system_version _ _ _ _ str_sound eq_refl
  (then_field "serial" system_serial _ _ _ _ str_sound eq_refl
  (then_field "uuid" system_uuid _ _ _ _ (option_sound _ _ uuid_sound) eq_refl
  (then_field "wakeup" system_wakeup _ _ _ _ (option_sound _ _ WakeupType_sound) eq_refl
  (then_field "sku" system_sku _ _ _ _ (option_sound _ _ str_sound) eq_refl
  (last_field "family" system_family _ _ (option_sound _ _ str_sound) eq_refl))))))))) eq_refl). Qed.

Lemma BaseBoard_sound : sound (BaseBoard_tree) BaseBoard_parts.
Proof. exact (fields_sound "BaseBoard" _ _ (then_field "handle" baseboard_handle _ _ _ _ (int_sound U16) eq_refl
  (then_field "manufacturer" baseboard_manufacturer _ _ _ _ str_sound eq_refl
  (then_field "product" baseboard_product _ _ _ _ str_sound eq_refl
  (then_field "version" baseboard_version _ _ _ _ str_sound eq_refl
  (then_field "serial" baseboard_serial _ _ _ _ str_sound eq_refl
  (then_field "asset" baseboard_asset _ _ _ _ (option_sound _ _ str_sound) eq_refl
  (then_field "feature_flags" baseboard_feature_flags _ _ _ _ (option_sound _ _ (flags_sound "BaseBoardFlags" BaseBoardFlags_constants U8 eq_refl)) eq_refl
  (then_field "location_in_chassis" baseboard_location_in_chassis _ _ _ _ (option_sound _ _ str_sound) eq_refl
  (then_field "chassis_handle" baseboard_chassis_handle _ _ _ _ (option_sound _ _ (int_sound U16)) eq_refl
  (last_field "board_type" baseboard_board_type _ _ (option_sound _ _ BoardType_sound) eq_refl)))))))))) eq_refl). Qed.

Lemma ContainedElementType_sound : sound (ContainedElementType_tree) ContainedElementType_parts.
Proof.
  split.
  - intros []; unfold well_typed; cbn [ContainedElementType_tree ContainedElementType_parts]; intros H; enum_neat; first [apply BoardType_sound; assumption|apply InfoType_sound; assumption].
  - intros [] []; unfold well_typed; cbn [ContainedElementType_tree ContainedElementType_parts]; intros H1 H2 E; try discriminate E; enum_told; first [apply BoardType_sound; assumption|apply InfoType_sound; assumption].
Qed.

Lemma ContainedElement_sound : sound (ContainedElement_tree) ContainedElement_parts.
Proof. exact (fields_sound "ContainedElement" _ _ (then_field "type_" cel_type _ _ _ _ ContainedElementType_sound eq_refl
  (then_field "minimum" cel_minimum _ _ _ _ (int_sound U8) eq_refl
  (last_field "maximum" cel_maximum _ _ (int_sound U8) eq_refl))) eq_refl). Qed.

Lemma Enclosure_sound (c : cfg) : sound (Enclosure_tree c) Enclosure_parts.
Proof. exact (fields_sound "Enclosure" _ _ (then_field "handle" enclosure_handle _ _ _ _ (int_sound U16) eq_refl
  (then_field "manufacturer" enclosure_manufacturer _ _ _ _ str_sound eq_refl
  (then_field "chassis_lock" enclosure_chassis_lock _ _ _ _ bool_sound eq_refl
  (then_field "enclosure_type" enclosure_enclosure_type _ _ _ _ EnclosureType_sound eq_refl
  (then_field "version" enclosure_version _ _ _ _ str_sound eq_refl
  (then_field "serial_number" enclosure_serial_number _ _ _ _ str_sound eq_refl
  (then_field "asset_tag_number" enclosure_asset_tag_number _ _ _ _ str_sound eq_refl
  (then_field "boot_up_state" enclosure_boot_up_state _ _ _ _ (option_sound _ _ State_sound) eq_refl
  (then_field "power_supply_state" enclosure_power_supply_state _ _ _ _ (option_sound _ _ State_sound) eq_refl
  (then_field "thermal_state" enclosure_thermal_state _ _ _ _ (option_sound _ _ State_sound) eq_refl
  (then_field "security_status" enclosure_security_status _ _ _ _ (option_sound _ _ SecurityStatus_sound) eq_refl
  (then_field "oem_defined" enclosure_oem_defined _ _ _ _ (option_sound _ _ (int_sound U32)) eq_refl
  (then_field "height" enclosure_height _ _ _ _ (option_sound _ _ (int_sound U8)) eq_refl
  (then_field "power_cords_number" enclosure_power_cords_number _ _ _ _ (option_sound _ _ (int_sound U8)) eq_refl
  (then_field "contained_elements" enclosure_contained_elements _ _ _ _ (option_sound _ _ (elements_sound c)) eq_refl
  (last_field "sku_number" enclosure_sku_number _ _ (option_sound _ _ str_sound) eq_refl)))))))))))))))) eq_refl). Qed.

Lemma Voltage_sound : sound (Voltage_tree) Voltage_parts.
Proof.
  split.
  - intros []; unfold well_typed; cbn [Voltage_tree Voltage_parts]; intros H; enum_neat; first [apply (flags_sound "VoltageLegacy" VoltageLegacy_constants U8 eq_refl); assumption|apply (int_sound U8); assumption].
  - intros [] []; unfold well_typed; cbn [Voltage_tree Voltage_parts]; intros H1 H2 E; try discriminate E; enum_told; first [apply (flags_sound "VoltageLegacy" VoltageLegacy_constants U8 eq_refl); assumption|apply (int_sound U8); assumption].
Qed.

Lemma Processor_sound : sound (Processor_tree) Processor_parts.
Proof. exact (fields_sound "Processor" _ _ (then_field "handle" processor_handle _ _ _ _ (int_sound U16) eq_refl
  (then_field "socket_designation" processor_socket_designation _ _ _ _ str_sound eq_refl
  (then_field "processor_type" processor_processor_type _ _ _ _ ProcessorType_sound eq_refl
  (then_field "processor_family" processor_processor_family _ _ _ _ ProcessorFamily_sound eq_refl
  (then_field "processor_manufacturer" processor_processor_manufacturer _ _ _ _ str_sound eq_refl
  (then_field "processor_id" processor_processor_id _ _ _ _ (int_sound U64) eq_refl
  (then_field "processor_version" processor_processor_version _ _ _ _ str_sound eq_refl
  (then_field "voltage" processor_voltage _ _ _ _ Voltage_sound eq_refl
  (then_field "external_clock" processor_external_clock _ _ _ _ (int_sound U16) eq_refl
  (then_field "max_speed" processor_max_speed _ _ _ _ (int_sound U16) eq_refl
  (then_field "current_speed" processor_current_speed _ _ _ _ (int_sound U16) eq_refl
  (then_field "status" processor_status _ _ _ _ (flags_sound "ProcessorStatus" ProcessorStatus_constants U8 eq_refl) eq_refl
  (then_field "processor_upgrade" processor_processor_upgrade _ _ _ _ ProcessorUpgrade_sound eq_refl
  (then_field "l1_cache_handle" processor_l1_cache_handle _ _ _ _ (option_sound _ _ (int_sound U16)) eq_refl
  (then_field "l2_cache_handle" processor_l2_cache_handle _ _ _ _ (option_sound _ _ (int_sound U16)) eq_refl
  (then_field "l3_cache_handle" processor_l3_cache_handle _ _ _ _ (option_sound _ _ (int_sound U16)) eq_refl
  (then_field "serial_number" processor_serial_number _ _ _ _ (option_sound _ _ str_sound) eq_refl
  (then_field "asset_tag" processor_asset_tag _ _ _ _ (option_sound _ _ str_sound) eq_refl
  (then_field "part_number" processor_part_number _ _ _ _ (option_sound _ _ str_sound) eq_refl
  (then_field "core_count" processor_core_count _ _ _ _ (option_sound _ _ (int_sound U16)) eq_refl
  (then_field "core_enabled" processor_core_enabled _ _ _ _ (option_sound _ _ (int_sound U16)) eq_refl
  (then_field "thread_count" processor_thread_count _ _ _ _ (option_sound _ _ (int_sound U16)) eq_refl
  (last_field "processor_characteristics" processor_processor_characteristics _ _ (option_sound _ _ (flags_sound "ProcessorCharacteristics" ProcessorCharacteristics_constants U16 eq_refl)) eq_refl))))))))))))))))))))))) eq_refl). Qed.

Lemma CacheConfiguration_sound : sound (CacheConfiguration_tree) CacheConfiguration_parts.
Proof. exact (fields_sound "CacheConfiguration" _ _ (then_field "level" level _ _ _ _ CacheLevel_sound eq_refl
  (then_field "socketed" socketed _ _ _ _ bool_sound eq_refl
  (then_field "location" location _ _ _ _ CacheLocation_sound eq_refl
  (then_field "enabled_at_boot_time" enabled_at_boot_time _ _ _ _ bool_sound eq_refl
  (last_field "operational_mode" operational_mode _ _ CacheOperationalMode_sound eq_refl))))) eq_refl). Qed.

Lemma CacheSize_sound : sound (CacheSize_tree) CacheSize_parts.
Proof.
  split.
  - intros []; unfold well_typed; cbn [CacheSize_tree CacheSize_parts]; intros H; enum_neat; first [apply (int_sound U16); assumption].
  - intros [] []; unfold well_typed; cbn [CacheSize_tree CacheSize_parts]; intros H1 H2 E; try discriminate E; enum_told; first [apply (int_sound U16); assumption].
Qed.

Lemma CacheSize2_sound : sound (CacheSize2_tree) CacheSize2_parts.
Proof.
  split.
  - intros []; unfold well_typed; cbn [CacheSize2_tree CacheSize2_parts]; intros H; enum_neat; first [apply (int_sound U32); assumption].
  - intros [] []; unfold well_typed; cbn [CacheSize2_tree CacheSize2_parts]; intros H1 H2 E; try discriminate E; enum_told; first [apply (int_sound U32); assumption].
Qed.

Lemma Cache_sound : sound (Cache_tree) Cache_parts.
Proof. exact (fields_sound "Cache" _ _ (then_field "handle" cache_handle _ _ _ _ (int_sound U16) eq_refl
  (then_field "socket_designation" cache_socket_designation _ _ _ _ str_sound eq_refl
  (then_field "cache_configuration" cache_cache_configuration _ _ _ _ CacheConfiguration_sound eq_refl
  (then_field "maximum_cache_size" cache_maximum_cache_size _ _ _ _ CacheSize_sound eq_refl
  (then_field "installed_size" cache_installed_size _ _ _ _ CacheSize_sound eq_refl
  (then_field "supported_sram_type" cache_supported_sram_type _ _ _ _ (flags_sound "CacheSramType" CacheSramType_constants U16 eq_refl) eq_refl
  (then_field "current_sram_type" cache_current_sram_type _ _ _ _ (flags_sound "CacheSramType" CacheSramType_constants U16 eq_refl) eq_refl
  (then_field "cache_speed" cache_cache_speed _ _ _ _ (option_sound _ _ (int_sound U8)) eq_refl
  (then_field "error_correction_type" cache_error_correction_type _ _ _ _ (option_sound _ _ CacheErrorCorrectionType_sound) eq_refl
  (then_field "system_cache_type" cache_system_cache_type _ _ _ _ (option_sound _ _ SystemCacheType_sound) eq_refl
  (then_field "associativity" cache_associativity _ _ _ _ (option_sound _ _ CacheAssociativity_sound) eq_refl
  (then_field "maximum_cache_size_2" cache_maximum_cache_size_2 _ _ _ _ (option_sound _ _ CacheSize2_sound) eq_refl
  (last_field "installed_size_2" cache_installed_size_2 _ _ (option_sound _ _ CacheSize2_sound) eq_refl))))))))))))) eq_refl). Qed.

Lemma PortConnector_sound : sound (PortConnector_tree) PortConnector_parts.
Proof. exact (fields_sound "PortConnector" _ _ (then_field "handle" port_handle _ _ _ _ (int_sound U16) eq_refl
  (then_field "internal_reference_designator" port_internal_reference_designator _ _ _ _ str_sound eq_refl
  (then_field "internal_connector_type" port_internal_connector_type _ _ _ _ ConnectorType_sound eq_refl
  (then_field "external_reference_designator" port_external_reference_designator _ _ _ _ str_sound eq_refl
  (then_field "external_connector_type" port_external_connector_type _ _ _ _ ConnectorType_sound eq_refl
  (last_field "port_type" port_port_type _ _ PortType_sound eq_refl)))))) eq_refl). Qed.

Lemma DeviceAndFunctionNumber_sound : sound (DeviceAndFunctionNumber_tree) DeviceAndFunctionNumber_parts.
Proof. exact (call_sound "DeviceAndFunctionNumber" _ _ (then_arg dev _ _ _ _ (int_sound U8)
  (last_arg fun_ _ _ (int_sound U8))) eq_refl). Qed.

Lemma Device_sound : sound (Device_tree) Device_parts.
Proof. exact (fields_sound "Device" _ _ (then_field "segment_group_number" device_segment_group_number _ _ _ _ (int_sound U16) eq_refl
  (then_field "bus_number" device_bus_number _ _ _ _ (int_sound U8) eq_refl
  (then_field "device_and_function_number" device_device_and_function_number _ _ _ _ DeviceAndFunctionNumber_sound eq_refl
  (last_field "data_bus_width" device_data_bus_width _ _ (int_sound U8) eq_refl)))) eq_refl). Qed.

Lemma SystemSlots_sound : sound (SystemSlots_tree) SystemSlots_parts.
Proof. exact (fields_sound "SystemSlots" _ _ (then_field "handle" slots_handle _ _ _ _ (int_sound U16) eq_refl
  (then_field "slot_designation" slots_slot_designation _ _ _ _ str_sound eq_refl
  (then_field "slot_type" slots_slot_type _ _ _ _ SlotType_sound eq_refl
  (then_field "slot_data_bus_width" slots_slot_data_bus_width _ _ _ _ SlotWidth_sound eq_refl
  (then_field "current_usage" slots_current_usage _ _ _ _ CurrentUsage_sound eq_refl
  (then_field "slot_length" slots_slot_length _ _ _ _ SlotLength_sound eq_refl
  (then_field "slot_id" slots_slot_id _ _ _ _ (int_sound U16) eq_refl
  (then_field "slot_characteristics_1" slots_slot_characteristics_1 _ _ _ _ (wrapped_sound "SlotCharacteristics1" U8 eq_refl) eq_refl
  (then_field "slot_characteristics_2" slots_slot_characteristics_2 _ _ _ _ (option_sound _ _ (wrapped_sound "SlotCharacteristics2" U8 eq_refl)) eq_refl
  (then_field "segment_group_number" slots_segment_group_number _ _ _ _ (option_sound _ _ (int_sound U16)) eq_refl
  (then_field "bus_number" slots_bus_number _ _ _ _ (option_sound _ _ (int_sound U8)) eq_refl
  (then_field "device_and_function_number" slots_device_and_function_number _ _ _ _ (option_sound _ _ DeviceAndFunctionNumber_sound) eq_refl
  (then_field "data_bus_width" slots_data_bus_width _ _ _ _ (option_sound _ _ (int_sound U8)) eq_refl
  (then_field "peer_devices" slots_peer_devices _ _ _ _ (option_sound _ _ peers_sound) eq_refl
  (then_field "slot_information" slots_slot_information _ _ _ _ (option_sound _ _ (int_sound U8)) eq_refl
  (then_field "slot_physical_width" slots_slot_physical_width _ _ _ _ (option_sound _ _ SlotWidth_sound) eq_refl
  (last_field "slot_pitch" slots_slot_pitch _ _ (option_sound _ _ (wrapped_sound "SlotPitch" U16 eq_refl)) eq_refl))))))))))))))))) eq_refl). Qed.

Lemma OemStrings_sound : sound (OemStrings_tree) OemStrings_parts.
Proof. exact (fields_sound "OemStrings" _ _ (then_field "handle" oem_handle _ _ _ _ (int_sound U16) eq_refl
  (last_field "strings" oem_strings _ _ StructureStrings_sound eq_refl)) eq_refl). Qed.

Lemma SystemConfigurationOptions_sound : sound (SystemConfigurationOptions_tree) SystemConfigurationOptions_parts.
Proof. exact (fields_sound "SystemConfigurationOptions" _ _ (then_field "handle" options_handle _ _ _ _ (int_sound U16) eq_refl
  (last_field "strings" options_strings _ _ StructureStrings_sound eq_refl)) eq_refl). Qed.

Lemma InstallableLanguages_sound : sound (InstallableLanguages_tree) InstallableLanguages_parts.
Proof. exact (fields_sound "InstallableLanguages" _ _ (then_field "structure" il_structure _ _ _ _ RawStructure_sound eq_refl
  (last_field "index" il_index _ _ (int_sound U8) eq_refl)) eq_refl). Qed.

Lemma BiosLanguage_sound : sound (BiosLanguage_tree) BiosLanguage_parts.
Proof. exact (fields_sound "BiosLanguage" _ _ (then_field "handle" language_handle _ _ _ _ (int_sound U16) eq_refl
  (then_field "installable_languages" language_installable_languages _ _ _ _ InstallableLanguages_sound eq_refl
  (then_field "flags" language_flags _ _ _ _ (option_sound _ _ (wrapped_sound "LanguageFlags" U8 eq_refl)) eq_refl
  (last_field "current_language" language_current_language _ _ (int_sound U8) eq_refl)))) eq_refl). Qed.

Lemma GroupItems_sound : sound (GroupItems_tree) GroupItems_parts.
Proof. exact (fields_sound "GroupItems" _ _ (then_field "data" gi_data _ _ _ _ bytes_sound eq_refl
  (last_field "index" gi_index _ _ (int_sound Usize) eq_refl)) eq_refl). Qed.

Lemma GroupItem_sound : sound (GroupItem_tree) GroupItem_parts.
Proof. exact (fields_sound "GroupItem" _ _ (then_field "type_" gi_type _ _ _ _ (int_sound U8) eq_refl
  (last_field "handle" gi_handle _ _ (int_sound U16) eq_refl)) eq_refl). Qed.

Lemma GroupAssociations_sound : sound (GroupAssociations_tree) GroupAssociations_parts.
Proof. exact (fields_sound "GroupAssociations" _ _ (then_field "handle" group_handle _ _ _ _ (int_sound U16) eq_refl
  (then_field "group_name" group_group_name _ _ _ _ str_sound eq_refl
  (last_field "items" group_items _ _ GroupItems_sound eq_refl))) eq_refl). Qed.

Lemma SystemManagementType_sound : sound (SystemManagementType_tree) SystemManagementType_parts.
Proof.
  split.
  - intros []; unfold well_typed; cbn [SystemManagementType_tree SystemManagementType_parts]; intros H; enum_neat; first [apply (int_sound U16); assumption|apply (int_sound U32); assumption|apply (int_sound U8); assumption].
  - intros [] []; unfold well_typed; cbn [SystemManagementType_tree SystemManagementType_parts]; intros H1 H2 E; try discriminate E; enum_told; first [apply (int_sound U16); assumption|apply (int_sound U32); assumption|apply (int_sound U8); assumption].
Qed.

Lemma VariableDataFormatType_sound : sound (VariableDataFormatType_tree) VariableDataFormatType_parts.
Proof.
  split.
  - intros []; unfold well_typed; cbn [VariableDataFormatType_tree VariableDataFormatType_parts]; intros H; enum_neat; first [apply (int_sound U16); assumption|apply (int_sound U32); assumption|apply (int_sound U8); assumption|apply (wrapped_sound "PostResults" U64 eq_refl); assumption|apply SystemManagementType_sound; assumption].
  - intros [] []; unfold well_typed; cbn [VariableDataFormatType_tree VariableDataFormatType_parts]; intros H1 H2 E; try discriminate E; enum_told; first [apply (int_sound U16); assumption|apply (int_sound U32); assumption|apply (int_sound U8); assumption|apply (wrapped_sound "PostResults" U64 eq_refl); assumption|apply SystemManagementType_sound; assumption].
Qed.

Lemma EventLogTypeDescriptor_sound : sound (EventLogTypeDescriptor_tree) EventLogTypeDescriptor_parts.
Proof. exact (fields_sound "EventLogTypeDescriptor" _ _ (then_field "log_type" log_type _ _ _ _ EventLogType_sound eq_refl
  (last_field "variable_data_format_type" variable_data_format_type _ _ VariableDataFormatType_sound eq_refl)) eq_refl). Qed.

Lemma AccessMethod_sound : sound (AccessMethod_tree) AccessMethod_parts.
Proof.
  split.
  - intros []; unfold well_typed; cbn [AccessMethod_tree AccessMethod_parts]; intros H; enum_neat; first [apply (int_sound U16); assumption|apply (int_sound U32); assumption|apply (int_sound U8); assumption|apply bytes_sound; assumption].
  - intros [] []; unfold well_typed; cbn [AccessMethod_tree AccessMethod_parts]; intros H1 H2 E; try discriminate E; enum_told; first [apply (int_sound U16); assumption|apply (int_sound U32); assumption|apply (int_sound U8); assumption|apply bytes_sound; assumption].
Qed.

Lemma SystemEventLog_sound : sound (SystemEventLog_tree) SystemEventLog_parts.
Proof. exact (fields_sound "SystemEventLog" _ _ (then_field "handle" log_handle _ _ _ _ (int_sound U16) eq_refl
  (then_field "log_area_length" log_log_area_length _ _ _ _ (int_sound U16) eq_refl
  (then_field "log_header_start_offset" log_log_header_start_offset _ _ _ _ (int_sound U16) eq_refl
  (then_field "log_data_start_offset" log_log_data_start_offset _ _ _ _ (int_sound U16) eq_refl
  (then_field "access_method" log_access_method _ _ _ _ AccessMethod_sound eq_refl
  (then_field "log_status" log_log_status _ _ _ _ (wrapped_sound "LogStatus" U8 eq_refl) eq_refl
  (then_field "log_change_token" log_log_change_token _ _ _ _ (int_sound U32) eq_refl
  (then_field "log_header_format" log_log_header_format _ _ _ _ (option_sound _ _ LogHeaderFormat_sound) eq_refl
  (last_field "supported_event_log_type_descriptors" log_descriptors _ _ (option_sound _ _ descriptors_sound) eq_refl))))))))) eq_refl). Qed.

Lemma PhysicalMemoryArray_sound : sound (PhysicalMemoryArray_tree) PhysicalMemoryArray_parts.
Proof. exact (fields_sound "PhysicalMemoryArray" _ _ (then_field "handle" array_handle _ _ _ _ (int_sound U16) eq_refl
  (then_field "location" array_location _ _ _ _ MemoryArrayLocation_sound eq_refl
  (then_field "use" array_use _ _ _ _ MemoryArrayUse_sound eq_refl
  (then_field "memory_error_correction" array_memory_error_correction _ _ _ _ MemoryArrayErrorCorrectionTypes_sound eq_refl
  (then_field "maximum_capacity" array_maximum_capacity _ _ _ _ (option_sound _ _ (int_sound U32)) eq_refl
  (then_field "memory_error_information_handle" array_memory_error_information_handle _ _ _ _ (option_sound _ _ (int_sound U16)) eq_refl
  (then_field "number_of_memory_devices" array_number_of_memory_devices _ _ _ _ (int_sound U16) eq_refl
  (last_field "extended_maximum_capacity" array_extended_maximum_capacity _ _ (option_sound _ _ (int_sound U64)) eq_refl)))))))) eq_refl). Qed.

Lemma MemoryDevice_sound : sound (MemoryDevice_tree) MemoryDevice_parts.
Proof. exact (fields_sound "MemoryDevice" _ _ (then_field "handle" memdev_handle _ _ _ _ (int_sound U16) eq_refl
  (then_field "physical_memory_handle" memdev_physical_memory_handle _ _ _ _ (int_sound U16) eq_refl
  (then_field "memory_error_handle" memdev_memory_error_handle _ _ _ _ (option_sound _ _ (int_sound U16)) eq_refl
  (then_field "total_width" memdev_total_width _ _ _ _ (option_sound _ _ (int_sound U16)) eq_refl
  (then_field "data_width" memdev_data_width _ _ _ _ (option_sound _ _ (int_sound U16)) eq_refl
  (then_field "size" memdev_size _ _ _ _ (option_sound _ _ (int_sound U16)) eq_refl
  (then_field "form_factor" memdev_form_factor _ _ _ _ FormFactor_sound eq_refl
  (then_field "device_set" memdev_device_set _ _ _ _ (option_sound _ _ (int_sound U8)) eq_refl
  (then_field "device_locator" memdev_device_locator _ _ _ _ str_sound eq_refl
  (then_field "bank_locator" memdev_bank_locator _ _ _ _ str_sound eq_refl
  (then_field "memory_type" memdev_memory_type _ _ _ _ MemoryType_sound eq_refl
  (then_field "type_detail" memdev_type_detail _ _ _ _ (flags_sound "Detail" Detail_constants U16 eq_refl) eq_refl
  (then_field "speed" memdev_speed _ _ _ _ (option_sound _ _ (int_sound U16)) eq_refl
  (then_field "manufacturer" memdev_manufacturer _ _ _ _ str_sound eq_refl
  (then_field "serial" memdev_serial _ _ _ _ str_sound eq_refl
  (then_field "asset_tag" memdev_asset_tag _ _ _ _ str_sound eq_refl
  (then_field "part_number" memdev_part_number _ _ _ _ str_sound eq_refl
  (then_field "attributes" memdev_attributes _ _ _ _ (int_sound U8) eq_refl
  (then_field "extended_size" memdev_extended_size _ _ _ _ (int_sound U32) eq_refl
  (then_field "configured_memory_speed" memdev_configured_memory_speed _ _ _ _ (option_sound _ _ (int_sound U16)) eq_refl
  (then_field "minimum_voltage" memdev_minimum_voltage _ _ _ _ (option_sound _ _ (int_sound U16)) eq_refl
  (then_field "maximum_voltage" memdev_maximum_voltage _ _ _ _ (option_sound _ _ (int_sound U16)) eq_refl
  (then_field "configured_voltage" memdev_configured_voltage _ _ _ _ (option_sound _ _ (int_sound U16)) eq_refl
  (then_field "memory_technology" memdev_memory_technology _ _ _ _ (option_sound _ _ MemoryTechnology_sound) eq_refl
  (then_field "operating_mode_capability" memdev_operating_mode_capability _ _ _ _ (option_sound _ _ (flags_sound "OperatingModes" OperatingModes_constants U16 eq_refl)) eq_refl
  (then_field "firmware_version" memdev_firmware_version _ _ _ _ (option_sound _ _ str_sound) eq_refl
  (then_field "module_manufacturer" memdev_module_manufacturer _ _ _ _ (option_sound _ _ (int_sound U16)) eq_refl
  (then_field "module_product_id" memdev_module_product_id _ _ _ _ (option_sound _ _ (int_sound U16)) eq_refl
  (then_field "memory_subsystem_controller_manufacturer_id" memdev_memory_subsystem_controller_manufacturer_id _ _ _ _ (option_sound _ _ (int_sound U16)) eq_refl
  (then_field "memory_subsystem_controller_product_id" memdev_memory_subsystem_controller_product_id _ _ _ _ (option_sound _ _ (int_sound U16)) eq_refl
  (then_field "non_volatile_size" memdev_non_volatile_size _ _ _ _ (option_sound _ _ (int_sound U64)) eq_refl
  (then_field "volatile_size" memdev_volatile_size _ _ _ _ (option_sound _ _ (int_sound U64)) eq_refl
  (then_field "cache_size" memdev_cache_size _ _ _ _ (option_sound _ _ (int_sound U64)) eq_refl
  (then_field "logical_size" memdev_logical_size _ _ _ _ (option_sound _ _ (int_sound U64)) eq_refl
  (then_field "extended_speed" memdev_extended_speed _ _ _ _ (option_sound _ _ (int_sound U32)) eq_refl
  (last_field "extended_configured_memory_speed" memdev_extended_configured_memory_speed _ _ (option_sound _ _ (int_sound U32)) eq_refl)))))))))))))))))))))))))))))))))))) eq_refl). Qed.

Lemma MemoryError32_sound : sound (MemoryError32_tree) MemoryError32_parts.
Proof. exact (fields_sound "MemoryError32" _ _ (then_field "handle" me_handle _ _ _ _ (int_sound U16) eq_refl
  (then_field "error_type" me_error_type _ _ _ _ MEErrorType_sound eq_refl
  (then_field "error_granularity" me_error_granularity _ _ _ _ MEErrorGranularity_sound eq_refl
  (then_field "error_operation" me_error_operation _ _ _ _ MEErrorOperation_sound eq_refl
  (then_field "vendor_syndrome" me_vendor_syndrome _ _ _ _ (int_sound U32) eq_refl
  (then_field "memory_array_error_address" me_memory_array_error_address _ _ _ _ (int_sound U32) eq_refl
  (then_field "device_error_address" me_device_error_address _ _ _ _ (int_sound U32) eq_refl
  (last_field "error_resolution" me_error_resolution _ _ (int_sound U32) eq_refl)))))))) eq_refl). Qed.

Lemma MemoryArrayMappedAddress_sound : sound (MemoryArrayMappedAddress_tree) MemoryArrayMappedAddress_parts.
Proof. exact (fields_sound "MemoryArrayMappedAddress" _ _ (then_field "handle" ama_handle _ _ _ _ (int_sound U16) eq_refl
  (then_field "starting_address" ama_starting_address _ _ _ _ (int_sound U32) eq_refl
  (then_field "ending_address" ama_ending_address _ _ _ _ (int_sound U32) eq_refl
  (then_field "memory_array_handle" ama_memory_array_handle _ _ _ _ (int_sound U16) eq_refl
  (then_field "partition_width" ama_partition_width _ _ _ _ (int_sound U8) eq_refl
  (then_field "extended_starting_address" ama_extended_starting_address _ _ _ _ (option_sound _ _ (int_sound U64)) eq_refl
  (last_field "extended_ending_address" ama_extended_ending_address _ _ (option_sound _ _ (int_sound U64)) eq_refl))))))) eq_refl). Qed.

Lemma MemoryDeviceMappedAddress_sound : sound (MemoryDeviceMappedAddress_tree) MemoryDeviceMappedAddress_parts.
Proof. exact (fields_sound "MemoryDeviceMappedAddress" _ _ (then_field "handle" dma_handle _ _ _ _ (int_sound U16) eq_refl
  (then_field "starting_address" dma_starting_address _ _ _ _ (int_sound U32) eq_refl
  (then_field "ending_address" dma_ending_address _ _ _ _ (int_sound U32) eq_refl
  (then_field "memory_device_handle" dma_memory_device_handle _ _ _ _ (int_sound U16) eq_refl
  (then_field "memory_array_mapped_address_handle" dma_memory_array_mapped_address_handle _ _ _ _ (int_sound U16) eq_refl
  (then_field "partition_row_position" dma_partition_row_position _ _ _ _ (int_sound U8) eq_refl
  (then_field "interleave_position" dma_interleave_position _ _ _ _ (int_sound U8) eq_refl
  (then_field "interleaved_data_depth" dma_interleaved_data_depth _ _ _ _ (int_sound U8) eq_refl
  (then_field "extended_starting_address" dma_extended_starting_address _ _ _ _ (option_sound _ _ (int_sound U64)) eq_refl
  (last_field "extended_ending_address" dma_extended_ending_address _ _ (option_sound _ _ (int_sound U64)) eq_refl)))))))))) eq_refl). Qed.

Lemma BuiltInPointingDevice_sound : sound (BuiltInPointingDevice_tree) BuiltInPointingDevice_parts.
Proof. exact (fields_sound "BuiltInPointingDevice" _ _ (then_field "handle" pd_handle _ _ _ _ (int_sound U16) eq_refl
  (then_field "type_" pd_type _ _ _ _ PointingDeviceType_sound eq_refl
  (then_field "interface" pd_interface _ _ _ _ PointingDeviceInterface_sound eq_refl
  (last_field "number_of_buttons" pd_number_of_buttons _ _ (int_sound U8) eq_refl)))) eq_refl). Qed.

Lemma ManufactureDate_sound : sound (ManufactureDate_tree) ManufactureDate_parts.
Proof.
  split.
  - intros []; unfold well_typed; cbn [ManufactureDate_tree ManufactureDate_parts]; intros H; enum_neat; first [apply (int_sound U16); assumption|apply (int_sound U8); assumption|apply str_sound; assumption].
  - intros [] []; unfold well_typed; cbn [ManufactureDate_tree ManufactureDate_parts]; intros H1 H2 E; try discriminate E; enum_told; first [apply (int_sound U16); assumption|apply (int_sound U8); assumption|apply str_sound; assumption].
Qed.

Lemma SerialNumber_sound : sound (SerialNumber_tree) SerialNumber_parts.
Proof.
  split.
  - intros []; unfold well_typed; cbn [SerialNumber_tree SerialNumber_parts]; intros H; enum_neat; first [apply (int_sound U16); assumption|apply str_sound; assumption].
  - intros [] []; unfold well_typed; cbn [SerialNumber_tree SerialNumber_parts]; intros H1 H2 E; try discriminate E; enum_told; first [apply (int_sound U16); assumption|apply str_sound; assumption].
Qed.

Lemma DesignCapacity_sound : sound (DesignCapacity_tree) DesignCapacity_parts.
Proof.
  split.
  - intros []; unfold well_typed; cbn [DesignCapacity_tree DesignCapacity_parts]; intros H; enum_neat; first [apply (int_sound U16); assumption|apply (int_sound U8); assumption].
  - intros [] []; unfold well_typed; cbn [DesignCapacity_tree DesignCapacity_parts]; intros H1 H2 E; try discriminate E; enum_told; first [apply (int_sound U16); assumption|apply (int_sound U8); assumption].
Qed.

Lemma DeviceChemistry_sound : sound (DeviceChemistry_tree) DeviceChemistry_parts.
Proof.
  split.
  - intros []; unfold well_typed; cbn [DeviceChemistry_tree DeviceChemistry_parts]; intros H; enum_neat; first [apply (int_sound U8); assumption|apply str_sound; assumption].
  - intros [] []; unfold well_typed; cbn [DeviceChemistry_tree DeviceChemistry_parts]; intros H1 H2 E; try discriminate E; enum_told; first [apply (int_sound U8); assumption|apply str_sound; assumption].
Qed.

Lemma PortableBattery_sound : sound (PortableBattery_tree) PortableBattery_parts.
Proof. exact (fields_sound "PortableBattery" _ _ (then_field "handle" battery_handle _ _ _ _ (int_sound U16) eq_refl
  (then_field "location" battery_location _ _ _ _ str_sound eq_refl
  (then_field "manufacturer" battery_manufacturer _ _ _ _ str_sound eq_refl
  (then_field "manufacture_date" battery_manufacture_date _ _ _ _ ManufactureDate_sound eq_refl
  (then_field "serial_number" battery_serial_number _ _ _ _ SerialNumber_sound eq_refl
  (then_field "device_name" battery_device_name _ _ _ _ str_sound eq_refl
  (then_field "device_chemistry" battery_device_chemistry _ _ _ _ DeviceChemistry_sound eq_refl
  (then_field "design_capacity" battery_design_capacity _ _ _ _ DesignCapacity_sound eq_refl
  (then_field "design_voltage" battery_design_voltage _ _ _ _ (int_sound U16) eq_refl
  (then_field "sbds_version_number" battery_sbds_version_number _ _ _ _ str_sound eq_refl
  (then_field "maximum_error_in_battery_data" battery_maximum_error_in_battery_data _ _ _ _ (int_sound U8) eq_refl
  (last_field "oem_specific" battery_oem_specific _ _ (option_sound _ _ (int_sound U32)) eq_refl)))))))))))) eq_refl). Qed.

Lemma Structure_sound (c : cfg) : sound (Structure_tree c) Structure_parts.
Proof.
  split.
  - intros [s|s|s|s|s|s|s|s|s|s|s|s|s|s|s|s|s|s|s|s|s] H; apply Forall_inv_tail in H;
    [exact (neat_call1 "Bios" _ eq_refl (proj1 Bios_sound s H))
    |exact (neat_call1 "System" _ eq_refl (proj1 System_sound s H))
    |exact (neat_call1 "BaseBoard" _ eq_refl (proj1 BaseBoard_sound s H))
    |exact (neat_call1 "Enclosure" _ eq_refl (proj1 (Enclosure_sound c) s H))
    |exact (neat_call1 "Processor" _ eq_refl (proj1 Processor_sound s H))
    |exact (neat_call1 "Cache" _ eq_refl (proj1 Cache_sound s H))
    |exact (neat_call1 "PortConnector" _ eq_refl (proj1 PortConnector_sound s H))
    |exact (neat_call1 "SystemSlots" _ eq_refl (proj1 SystemSlots_sound s H))
    |exact (neat_call1 "OemStrings" _ eq_refl (proj1 OemStrings_sound s H))
    |exact (neat_call1 "SystemConfigurationOptions" _ eq_refl (proj1 SystemConfigurationOptions_sound s H))
    |exact (neat_call1 "BiosLanguage" _ eq_refl (proj1 BiosLanguage_sound s H))
    |exact (neat_call1 "GroupAssociations" _ eq_refl (proj1 GroupAssociations_sound s H))
    |exact (neat_call1 "SystemEventLog" _ eq_refl (proj1 SystemEventLog_sound s H))
    |exact (neat_call1 "MemoryDevice" _ eq_refl (proj1 MemoryDevice_sound s H))
    |exact (neat_call1 "MemoryError32" _ eq_refl (proj1 MemoryError32_sound s H))
    |exact (neat_call1 "MemoryArrayMappedAddress" _ eq_refl (proj1 MemoryArrayMappedAddress_sound s H))
    |exact (neat_call1 "MemoryDeviceMappedAddress" _ eq_refl (proj1 MemoryDeviceMappedAddress_sound s H))
    |exact (neat_call1 "BuiltInPointingDevice" _ eq_refl (proj1 BuiltInPointingDevice_sound s H))
    |exact (neat_call1 "PortableBattery" _ eq_refl (proj1 PortableBattery_sound s H))
    |exact (neat_call1 "PhysicalMemoryArray" _ eq_refl (proj1 PhysicalMemoryArray_sound s H))
    |exact (neat_call1 "Other" _ eq_refl (proj1 RawStructure_sound s H))].
  - intros x y HX HY E. assert (N := f_equal tree_name E).
    destruct x as [s|s|s|s|s|s|s|s|s|s|s|s|s|s|s|s|s|s|s|s|s], y as [t|t|t|t|t|t|t|t|t|t|t|t|t|t|t|t|t|t|t|t|t]; cbn [tree_name Structure_tree] in N; try discriminate N; clear N;
    [exact (told_call1 0 "Bios" _ _ s t (proj2 Bios_sound) HX HY E)
    |exact (told_call1 1 "System" _ _ s t (proj2 System_sound) HX HY E)
    |exact (told_call1 2 "BaseBoard" _ _ s t (proj2 BaseBoard_sound) HX HY E)
    |exact (told_call1 3 "Enclosure" _ _ s t (proj2 (Enclosure_sound c)) HX HY E)
    |exact (told_call1 4 "Processor" _ _ s t (proj2 Processor_sound) HX HY E)
    |exact (told_call1 5 "Cache" _ _ s t (proj2 Cache_sound) HX HY E)
    |exact (told_call1 6 "PortConnector" _ _ s t (proj2 PortConnector_sound) HX HY E)
    |exact (told_call1 7 "SystemSlots" _ _ s t (proj2 SystemSlots_sound) HX HY E)
    |exact (told_call1 8 "OemStrings" _ _ s t (proj2 OemStrings_sound) HX HY E)
    |exact (told_call1 9 "SystemConfigurationOptions" _ _ s t (proj2 SystemConfigurationOptions_sound) HX HY E)
    |exact (told_call1 10 "BiosLanguage" _ _ s t (proj2 BiosLanguage_sound) HX HY E)
    |exact (told_call1 11 "GroupAssociations" _ _ s t (proj2 GroupAssociations_sound) HX HY E)
    |exact (told_call1 12 "SystemEventLog" _ _ s t (proj2 SystemEventLog_sound) HX HY E)
    |exact (told_call1 13 "MemoryDevice" _ _ s t (proj2 MemoryDevice_sound) HX HY E)
    |exact (told_call1 14 "MemoryError32" _ _ s t (proj2 MemoryError32_sound) HX HY E)
    |exact (told_call1 15 "MemoryArrayMappedAddress" _ _ s t (proj2 MemoryArrayMappedAddress_sound) HX HY E)
    |exact (told_call1 16 "MemoryDeviceMappedAddress" _ _ s t (proj2 MemoryDeviceMappedAddress_sound) HX HY E)
    |exact (told_call1 17 "BuiltInPointingDevice" _ _ s t (proj2 BuiltInPointingDevice_sound) HX HY E)
    |exact (told_call1 18 "PortableBattery" _ _ s t (proj2 PortableBattery_sound) HX HY E)
    |exact (told_call1 19 "PhysicalMemoryArray" _ _ s t (proj2 PhysicalMemoryArray_sound) HX HY E)
    |exact (told_call1 20 "Other" _ _ s t (proj2 RawStructure_sound) HX HY E)].
Qed.

Lemma Structures_sound : sound (Structures_tree) Structures_parts.
Proof. exact (fields_sound "Structures" _ _ (then_field "smbios_version" smbios_version _ _ _ _ SmbiosVersion_sound eq_refl
  (then_field "smbios_len" smbios_len_ _ _ _ _ (int_sound U32) eq_refl
  (then_field "idx" idx _ _ _ _ (int_sound U32) eq_refl
  (last_field "buffer" buffer _ _ bytes_sound eq_refl)))) eq_refl). Qed.

Lemma EntryPointV2_sound : sound (EntryPointV2_tree) EntryPointV2_parts.
Proof. exact (fields_sound "EntryPointV2" _ _ (then_field "signature" v2_signature _ _ _ _ (int_sound U32) eq_refl
  (then_field "checksum" v2_checksum _ _ _ _ (int_sound U8) eq_refl
  (then_field "len" v2_len _ _ _ _ (int_sound U8) eq_refl
  (then_field "major" v2_major _ _ _ _ (int_sound U8) eq_refl
  (then_field "minor" v2_minor _ _ _ _ (int_sound U8) eq_refl
  (then_field "struct_max" v2_struct_max _ _ _ _ (int_sound U16) eq_refl
  (then_field "revision" v2_revision _ _ _ _ (int_sound U8) eq_refl
  (then_field "formatted" v2_formatted _ _ _ _ bytes_sound eq_refl
  (then_field "dmi_signature" v2_dmi_signature _ _ _ _ bytes_sound eq_refl
  (then_field "dmi_checksum" v2_dmi_checksum _ _ _ _ (int_sound U8) eq_refl
  (then_field "smbios_len" v2_smbios_len _ _ _ _ (int_sound U16) eq_refl
  (then_field "smbios_address" v2_smbios_address _ _ _ _ (int_sound U32) eq_refl
  (then_field "smbios_count" v2_smbios_count _ _ _ _ (int_sound U16) eq_refl
  (last_field "bcd_revision" v2_bcd_revision _ _ (int_sound U8) eq_refl)))))))))))))) eq_refl). Qed.

Lemma EntryPointV3_sound : sound (EntryPointV3_tree) EntryPointV3_parts.
Proof. exact (fields_sound "EntryPointV3" _ _ (then_field "signature" v3_signature _ _ _ _ bytes_sound eq_refl
  (then_field "checksum" v3_checksum _ _ _ _ (int_sound U8) eq_refl
  (then_field "len" v3_len _ _ _ _ (int_sound U8) eq_refl
  (then_field "major" v3_major _ _ _ _ (int_sound U8) eq_refl
  (then_field "minor" v3_minor _ _ _ _ (int_sound U8) eq_refl
  (then_field "docrev" v3_docrev _ _ _ _ (int_sound U8) eq_refl
  (then_field "revision" v3_revision _ _ _ _ (int_sound U8) eq_refl
  (then_field "_reserved" v3_reserved _ _ _ _ (int_sound U8) eq_refl
  (then_field "smbios_len_max" v3_smbios_len_max _ _ _ _ (int_sound U32) eq_refl
  (last_field "smbios_address" v3_smbios_address _ _ (int_sound U64) eq_refl)))))))))) eq_refl). Qed.

Lemma EntryPoint_sound : sound (EntryPoint_tree) EntryPoint_parts.
Proof.
  split.
  - intros [s|s] H; apply Forall_inv_tail in H;
    [exact (neat_call1 "V2" _ eq_refl (proj1 EntryPointV2_sound s H))
    |exact (neat_call1 "V3" _ eq_refl (proj1 EntryPointV3_sound s H))].
  - intros x y HX HY E. assert (N := f_equal tree_name E).
    destruct x as [s|s], y as [t|t]; cbn [tree_name EntryPoint_tree] in N; try discriminate N; clear N;
    [exact (told_call1 0 "V2" _ _ s t (proj2 EntryPointV2_sound) HX HY E)
    |exact (told_call1 1 "V3" _ _ s t (proj2 EntryPointV3_sound) HX HY E)].
Qed.

(* the value that an integer is turned into is one that the type can hold *)
Ltac from_fits := intros H; repeat match goal with |- context [if ?b then _ else _] => destruct b; [repeat constructor|] end;
  repeat constructor; exact H.
Lemma InfoType_fits n : n < 2 ^ 8 -> Forall fits_type (InfoType_parts (InfoType_from n)). Proof. unfold InfoType_from. from_fits. Qed.
Lemma WakeupType_fits n : n < 2 ^ 8 -> Forall fits_type (WakeupType_parts (WakeupType_from n)). Proof. unfold WakeupType_from. from_fits. Qed.
Lemma BoardType_fits n : n < 2 ^ 8 -> Forall fits_type (BoardType_parts (BoardType_from n)). Proof. unfold BoardType_from. from_fits. Qed.
Lemma EnclosureType_fits n : n < 2 ^ 8 -> Forall fits_type (EnclosureType_parts (EnclosureType_from n)). Proof. unfold EnclosureType_from. from_fits. Qed.
Lemma State_fits n : n < 2 ^ 8 -> Forall fits_type (State_parts (State_from n)). Proof. unfold State_from. from_fits. Qed.
Lemma SecurityStatus_fits n : n < 2 ^ 8 -> Forall fits_type (SecurityStatus_parts (SecurityStatus_from n)). Proof. unfold SecurityStatus_from. from_fits. Qed.
Lemma ProcessorType_fits n : n < 2 ^ 8 -> Forall fits_type (ProcessorType_parts (ProcessorType_from n)). Proof. unfold ProcessorType_from. from_fits. Qed.
Lemma ProcessorFamily_fits n : n < 2 ^ 16 -> Forall fits_type (ProcessorFamily_parts (ProcessorFamily_from n)). Proof. unfold ProcessorFamily_from. from_fits. Qed.
Lemma ProcessorUpgrade_fits n : n < 2 ^ 8 -> Forall fits_type (ProcessorUpgrade_parts (ProcessorUpgrade_from n)). Proof. unfold ProcessorUpgrade_from. from_fits. Qed.
Lemma CacheLevel_fits x : Forall fits_type (CacheLevel_parts x). Proof. destruct x; repeat constructor. Qed.
Lemma CacheLocation_fits x : Forall fits_type (CacheLocation_parts x). Proof. destruct x; repeat constructor. Qed.
Lemma CacheOperationalMode_fits x : Forall fits_type (CacheOperationalMode_parts x). Proof. destruct x; repeat constructor. Qed.
Lemma CacheErrorCorrectionType_fits n : n < 2 ^ 8 -> Forall fits_type (CacheErrorCorrectionType_parts (CacheErrorCorrectionType_from n)). Proof. unfold CacheErrorCorrectionType_from. from_fits. Qed.
Lemma SystemCacheType_fits n : n < 2 ^ 8 -> Forall fits_type (SystemCacheType_parts (SystemCacheType_from n)). Proof. unfold SystemCacheType_from. from_fits. Qed.
Lemma CacheAssociativity_fits n : n < 2 ^ 8 -> Forall fits_type (CacheAssociativity_parts (CacheAssociativity_from n)). Proof. unfold CacheAssociativity_from. from_fits. Qed.
Lemma ConnectorType_fits n : n < 2 ^ 8 -> Forall fits_type (ConnectorType_parts (ConnectorType_from n)). Proof. unfold ConnectorType_from. from_fits. Qed.
Lemma PortType_fits n : n < 2 ^ 8 -> Forall fits_type (PortType_parts (PortType_from n)). Proof. unfold PortType_from. from_fits. Qed.
Lemma SlotType_fits n : n < 2 ^ 8 -> Forall fits_type (SlotType_parts (SlotType_from n)). Proof. unfold SlotType_from. from_fits. Qed.
Lemma SlotWidth_fits n : n < 2 ^ 8 -> Forall fits_type (SlotWidth_parts (SlotWidth_from n)). Proof. unfold SlotWidth_from. from_fits. Qed.
Lemma CurrentUsage_fits n : n < 2 ^ 8 -> Forall fits_type (CurrentUsage_parts (CurrentUsage_from n)). Proof. unfold CurrentUsage_from. from_fits. Qed.
Lemma SlotLength_fits n : n < 2 ^ 8 -> Forall fits_type (SlotLength_parts (SlotLength_from n)). Proof. unfold SlotLength_from. from_fits. Qed.
Lemma EventLogType_fits n : n < 2 ^ 8 -> Forall fits_type (EventLogType_parts (EventLogType_from n)). Proof. unfold EventLogType_from. from_fits. Qed.
Lemma LogHeaderFormat_fits n : n < 2 ^ 8 -> Forall fits_type (LogHeaderFormat_parts (LogHeaderFormat_from n)). Proof. unfold LogHeaderFormat_from. from_fits. Qed.
Lemma MemoryArrayLocation_fits n : n < 2 ^ 8 -> Forall fits_type (MemoryArrayLocation_parts (MemoryArrayLocation_from n)). Proof. unfold MemoryArrayLocation_from. from_fits. Qed.
Lemma MemoryArrayUse_fits n : n < 2 ^ 8 -> Forall fits_type (MemoryArrayUse_parts (MemoryArrayUse_from n)). Proof. unfold MemoryArrayUse_from. from_fits. Qed.
Lemma MemoryArrayErrorCorrectionTypes_fits n : n < 2 ^ 8 -> Forall fits_type (MemoryArrayErrorCorrectionTypes_parts (MemoryArrayErrorCorrectionTypes_from n)). Proof. unfold MemoryArrayErrorCorrectionTypes_from. from_fits. Qed.
Lemma MDErrorGranularity_fits n : n < 2 ^ 8 -> Forall fits_type (MDErrorGranularity_parts (MDErrorGranularity_from n)). Proof. unfold MDErrorGranularity_from. from_fits. Qed.
Lemma MDErrorOperation_fits n : n < 2 ^ 8 -> Forall fits_type (MDErrorOperation_parts (MDErrorOperation_from n)). Proof. unfold MDErrorOperation_from. from_fits. Qed.
Lemma MDErrorType_fits n : n < 2 ^ 8 -> Forall fits_type (MDErrorType_parts (MDErrorType_from n)). Proof. unfold MDErrorType_from. from_fits. Qed.
Lemma FormFactor_fits n : n < 2 ^ 8 -> Forall fits_type (FormFactor_parts (FormFactor_from n)). Proof. unfold FormFactor_from. from_fits. Qed.
Lemma MemoryTechnology_fits n : n < 2 ^ 8 -> Forall fits_type (MemoryTechnology_parts (MemoryTechnology_from n)). Proof. unfold MemoryTechnology_from. from_fits. Qed.
Lemma MemoryType_fits n : n < 2 ^ 8 -> Forall fits_type (MemoryType_parts (MemoryType_from n)). Proof. unfold MemoryType_from. from_fits. Qed.
Lemma MEErrorType_fits n : n < 2 ^ 8 -> Forall fits_type (MEErrorType_parts (MEErrorType_from n)). Proof. unfold MEErrorType_from. from_fits. Qed.
Lemma MEErrorGranularity_fits n : n < 2 ^ 8 -> Forall fits_type (MEErrorGranularity_parts (MEErrorGranularity_from n)). Proof. unfold MEErrorGranularity_from. from_fits. Qed.
Lemma MEErrorOperation_fits n : n < 2 ^ 8 -> Forall fits_type (MEErrorOperation_parts (MEErrorOperation_from n)). Proof. unfold MEErrorOperation_from. from_fits. Qed.
Lemma PointingDeviceType_fits n : n < 2 ^ 8 -> Forall fits_type (PointingDeviceType_parts (PointingDeviceType_from n)). Proof. unfold PointingDeviceType_from. from_fits. Qed.
Lemma PointingDeviceInterface_fits n : n < 2 ^ 8 -> Forall fits_type (PointingDeviceInterface_parts (PointingDeviceInterface_from n)). Proof. unfold PointingDeviceInterface_from. from_fits. Qed.
Ltac enum_fits :=
  lazymatch goal with
  | |- Forall fits_type (InfoType_parts _) => apply InfoType_fits
  | |- Forall fits_type (WakeupType_parts _) => apply WakeupType_fits
  | |- Forall fits_type (BoardType_parts _) => apply BoardType_fits
  | |- Forall fits_type (EnclosureType_parts _) => apply EnclosureType_fits
  | |- Forall fits_type (State_parts _) => apply State_fits
  | |- Forall fits_type (SecurityStatus_parts _) => apply SecurityStatus_fits
  | |- Forall fits_type (ProcessorType_parts _) => apply ProcessorType_fits
  | |- Forall fits_type (ProcessorFamily_parts _) => apply ProcessorFamily_fits
  | |- Forall fits_type (ProcessorUpgrade_parts _) => apply ProcessorUpgrade_fits
  | |- Forall fits_type (CacheLevel_parts _) => apply CacheLevel_fits
  | |- Forall fits_type (CacheLocation_parts _) => apply CacheLocation_fits
  | |- Forall fits_type (CacheOperationalMode_parts _) => apply CacheOperationalMode_fits
  | |- Forall fits_type (CacheErrorCorrectionType_parts _) => apply CacheErrorCorrectionType_fits
  | |- Forall fits_type (SystemCacheType_parts _) => apply SystemCacheType_fits
  | |- Forall fits_type (CacheAssociativity_parts _) => apply CacheAssociativity_fits
  | |- Forall fits_type (ConnectorType_parts _) => apply ConnectorType_fits
  | |- Forall fits_type (PortType_parts _) => apply PortType_fits
  | |- Forall fits_type (SlotType_parts _) => apply SlotType_fits
  | |- Forall fits_type (SlotWidth_parts _) => apply SlotWidth_fits
  | |- Forall fits_type (CurrentUsage_parts _) => apply CurrentUsage_fits
  | |- Forall fits_type (SlotLength_parts _) => apply SlotLength_fits
  | |- Forall fits_type (EventLogType_parts _) => apply EventLogType_fits
  | |- Forall fits_type (LogHeaderFormat_parts _) => apply LogHeaderFormat_fits
  | |- Forall fits_type (MemoryArrayLocation_parts _) => apply MemoryArrayLocation_fits
  | |- Forall fits_type (MemoryArrayUse_parts _) => apply MemoryArrayUse_fits
  | |- Forall fits_type (MemoryArrayErrorCorrectionTypes_parts _) => apply MemoryArrayErrorCorrectionTypes_fits
  | |- Forall fits_type (MDErrorGranularity_parts _) => apply MDErrorGranularity_fits
  | |- Forall fits_type (MDErrorOperation_parts _) => apply MDErrorOperation_fits
  | |- Forall fits_type (MDErrorType_parts _) => apply MDErrorType_fits
  | |- Forall fits_type (FormFactor_parts _) => apply FormFactor_fits
  | |- Forall fits_type (MemoryTechnology_parts _) => apply MemoryTechnology_fits
  | |- Forall fits_type (MemoryType_parts _) => apply MemoryType_fits
  | |- Forall fits_type (MEErrorType_parts _) => apply MEErrorType_fits
  | |- Forall fits_type (MEErrorGranularity_parts _) => apply MEErrorGranularity_fits
  | |- Forall fits_type (MEErrorOperation_parts _) => apply MEErrorOperation_fits
  | |- Forall fits_type (PointingDeviceType_parts _) => apply PointingDeviceType_fits
  | |- Forall fits_type (PointingDeviceInterface_parts _) => apply PointingDeviceInterface_fits
  end.
