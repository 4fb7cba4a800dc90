(* The enumerated codes of the SMBIOS reference specification (DSP0134, section
   numbers of version 3.6), as tables from code to name.  This is specification
   text: it was checked against the standard's tables, and P_Enums compares the
   crate's conversions with it. *)
From Verif Require Import Base G_Enums.
Local Open Scope N_scope.

(* the name a table gives to a code, if any *)
Fixpoint named {A} (codes : list (N * A)) (k : N) : option A :=
  match codes with
  | [] => None
  | (k', a) :: rest => if k =? k' then Some a else named rest k
  end.

(* the value a code stands for: its name, or the code kept verbatim *)
Definition meaning {A} (codes : list (N * A)) (other : N -> A) (k : N) : A :=
  match named codes k with Some a => a | None => other k end.

(* 7.2.2 System: wake-up type *)
Definition WakeupType_codes : list (N * WakeupType) := [
  (0x00, WakeupType_Reserved); (0x01, WakeupType_Other); (0x02, WakeupType_Unknown);
  (0x03, WakeupType_APM_Timer); (0x04, WakeupType_Modem_Ring); (0x05, WakeupType_LAN_Remote);
  (0x06, WakeupType_Power_Switch); (0x07, WakeupType_PCI_PME); (0x08, WakeupType_AC_Power_Restored)].

(* 7.3.2 Baseboard: board type *)
Definition BoardType_codes : list (N * BoardType) := [
  (0x01, BoardType_Unknown); (0x02, BoardType_Other); (0x03, BoardType_ServerBlade);
  (0x04, BoardType_ConnectivitySwitch); (0x05, BoardType_SystemManagementModule);
  (0x06, BoardType_ProcessorModule); (0x07, BoardType_IoModule); (0x08, BoardType_MemoryModule);
  (0x09, BoardType_DaughterBoard); (0x0A, BoardType_MotherBoard); (0x0B, BoardType_ProcessorMemoryModule);
  (0x0C, BoardType_ProcessorIoModule); (0x0D, BoardType_InterconnectBoard)].

(* 7.4.1 System enclosure or chassis types *)
Definition EnclosureType_codes : list (N * EnclosureType) := [
  (0x01, EnclosureType_Other); (0x02, EnclosureType_Unknown); (0x03, EnclosureType_Desktop);
  (0x04, EnclosureType_LowProfileDesktop); (0x05, EnclosureType_PizzaBox); (0x06, EnclosureType_MiniTower);
  (0x07, EnclosureType_Tower); (0x08, EnclosureType_Portable); (0x09, EnclosureType_Laptop);
  (0x0A, EnclosureType_Notebook); (0x0B, EnclosureType_HandHeld); (0x0C, EnclosureType_DockingStation);
  (0x0D, EnclosureType_AllInOne); (0x0E, EnclosureType_SubNotebook); (0x0F, EnclosureType_SpaceSaving);
  (0x10, EnclosureType_LunchBox); (0x11, EnclosureType_MainServerChassis);
  (0x12, EnclosureType_ExpansionChassis); (0x13, EnclosureType_SubChassis);
  (0x14, EnclosureType_BusExpansionChassis); (0x15, EnclosureType_PeripheralChassis);
  (0x16, EnclosureType_RaidChassis); (0x17, EnclosureType_RackMountChassis);
  (0x18, EnclosureType_SealedCasePc); (0x19, EnclosureType_MultiSystemChassis);
  (0x1A, EnclosureType_CompactPci); (0x1B, EnclosureType_AdvancedTca); (0x1C, EnclosureType_Blade);
  (0x1D, EnclosureType_BladeEnclosure); (0x1E, EnclosureType_Tablet); (0x1F, EnclosureType_Convertible);
  (0x20, EnclosureType_Detachable); (0x21, EnclosureType_IotGateway); (0x22, EnclosureType_EmbeddedPc);
  (0x23, EnclosureType_MiniPc); (0x24, EnclosureType_StickPc)].

(* 7.4.2 System enclosure or chassis states *)
Definition State_codes : list (N * State) := [
  (0x01, State_Other); (0x02, State_Unknown); (0x03, State_Safe); (0x04, State_Warning);
  (0x05, State_Critical); (0x06, State_NonRecoverable)].

(* 7.4.3 System enclosure or chassis security status *)
Definition SecurityStatus_codes : list (N * SecurityStatus) := [
  (0x01, SecurityStatus_Other); (0x02, SecurityStatus_Unknown); (0x03, SecurityStatus_None);
  (0x04, SecurityStatus_ExternalInterfaceLockedOut); (0x05, SecurityStatus_ExternalInterfaceEnabled)].

(* 7.5.1 Processor type *)
Definition ProcessorType_codes : list (N * ProcessorType) := [
  (0x01, ProcessorType_Other); (0x02, ProcessorType_Unknown); (0x03, ProcessorType_CentralProcessor);
  (0x04, ProcessorType_MathProcessor); (0x05, ProcessorType_DspProcessor);
  (0x06, ProcessorType_VideoProcessor)].

(* 7.5.2 Processor family *)
Definition ProcessorFamily_codes : list (N * ProcessorFamily) := [
  (0x00, ProcessorFamily_OutOfSpec); (0x01, ProcessorFamily_Other); (0x02, ProcessorFamily_Unknown);
  (0x03, ProcessorFamily_Intel8086); (0x04, ProcessorFamily_Intel80286);
  (0x05, ProcessorFamily_Intel386Processor); (0x06, ProcessorFamily_Intel486Processor);
  (0x07, ProcessorFamily_Intel8087); (0x08, ProcessorFamily_Intel80287); (0x09, ProcessorFamily_Intel80387);
  (0x0A, ProcessorFamily_Intel80487); (0x0B, ProcessorFamily_IntelPentiumProcessor);
  (0x0C, ProcessorFamily_PentiumProProcessor); (0x0D, ProcessorFamily_PentiumIIProcessor);
  (0x0E, ProcessorFamily_PentiumProcessorWithMMXTechnology); (0x0F, ProcessorFamily_IntelCeleronProcessor);
  (0x10, ProcessorFamily_PentiumIIXeonProcessor); (0x11, ProcessorFamily_PentiumIIIProcessor);
  (0x12, ProcessorFamily_M1Family); (0x13, ProcessorFamily_M2Family);
  (0x14, ProcessorFamily_IntelCeleronMProcessor); (0x15, ProcessorFamily_IntelPentium4HTProcessor);
  (0x18, ProcessorFamily_AMDDuronProcessorFamily); (0x19, ProcessorFamily_K5Family);
  (0x1A, ProcessorFamily_K6Family); (0x1B, ProcessorFamily_K62); (0x1C, ProcessorFamily_K63);
  (0x1D, ProcessorFamily_AMDAthlonProcessorFamily); (0x1E, ProcessorFamily_AMD29000Family);
  (0x1F, ProcessorFamily_K62Plus); (0x20, ProcessorFamily_PowerPCFamily); (0x21, ProcessorFamily_PowerPC601);
  (0x22, ProcessorFamily_PowerPC603); (0x23, ProcessorFamily_PowerPC603Plus);
  (0x24, ProcessorFamily_PowerPC604); (0x25, ProcessorFamily_PowerPC620); (0x26, ProcessorFamily_PowerPCX704);
  (0x27, ProcessorFamily_PowerPC750); (0x28, ProcessorFamily_IntelCoreDuoProcessor);
  (0x29, ProcessorFamily_IntelCoreDuoMobileProcessor); (0x2A, ProcessorFamily_IntelCoreSoloMobileProcessor);
  (0x2B, ProcessorFamily_IntelAtomProcessor); (0x2C, ProcessorFamily_IntelCoreMProcessor);
  (0x2D, ProcessorFamily_IntelCoreM3Processor); (0x2E, ProcessorFamily_IntelCoreM5Processor);
  (0x2F, ProcessorFamily_IntelCoreM7Processor); (0x30, ProcessorFamily_AlphaFamily);
  (0x31, ProcessorFamily_Alpha21064); (0x32, ProcessorFamily_Alpha21066); (0x33, ProcessorFamily_Alpha21164);
  (0x34, ProcessorFamily_Alpha21164PC); (0x35, ProcessorFamily_Alpha21164a);
  (0x36, ProcessorFamily_Alpha21264); (0x37, ProcessorFamily_Alpha21364);
  (0x38, ProcessorFamily_AMDTurionIIUltraDualCoreMobileMProcessorFamily);
  (0x39, ProcessorFamily_AMDTurionIIDualCoreMobileMProcessorFamily);
  (0x3A, ProcessorFamily_AMDAthlonIIDualCoreMProcessorFamily);
  (0x3B, ProcessorFamily_AMDOpteron6100SeriesProcessor); (0x3C, ProcessorFamily_AMDOpteron4100SeriesProcessor);
  (0x3D, ProcessorFamily_AMDOpteron6200SeriesProcessor); (0x3E, ProcessorFamily_AMDOpteron4200SeriesProcessor);
  (0x3F, ProcessorFamily_AMDFXSeriesProcessor); (0x40, ProcessorFamily_MIPSFamily);
  (0x41, ProcessorFamily_MIPSR4000); (0x42, ProcessorFamily_MIPSR4200); (0x43, ProcessorFamily_MIPSR4400);
  (0x44, ProcessorFamily_MIPSR4600); (0x45, ProcessorFamily_MIPSR10000);
  (0x46, ProcessorFamily_AMDCSeriesProcessor); (0x47, ProcessorFamily_AMDESeriesProcessor);
  (0x48, ProcessorFamily_AMDASeriesProcessor); (0x49, ProcessorFamily_AMDGSeriesProcessor);
  (0x4A, ProcessorFamily_AMDZSeriesProcessor); (0x4B, ProcessorFamily_AMDRSeriesProcessor);
  (0x4C, ProcessorFamily_AMDOpteron4300SeriesProcessor); (0x4D, ProcessorFamily_AMDOpteron6300SeriesProcessor);
  (0x4E, ProcessorFamily_AMDOpteron3300SeriesProcessor); (0x4F, ProcessorFamily_AMDFireProSeriesProcessor);
  (0x50, ProcessorFamily_SPARCFamily); (0x51, ProcessorFamily_SuperSPARC);
  (0x52, ProcessorFamily_MicroSPARCII); (0x53, ProcessorFamily_MicroSPARCIIep);
  (0x54, ProcessorFamily_UltraSPARC); (0x55, ProcessorFamily_UltraSPARCII);
  (0x56, ProcessorFamily_UltraSPARCIii); (0x57, ProcessorFamily_UltraSPARCIII);
  (0x58, ProcessorFamily_UltraSPARCIIIi); (0x60, ProcessorFamily_Motorola68040Family);
  (0x61, ProcessorFamily_Motorola68xxx); (0x62, ProcessorFamily_Motorola68000);
  (0x63, ProcessorFamily_Motorola68010); (0x64, ProcessorFamily_Motorola68020);
  (0x65, ProcessorFamily_Motorola68030); (0x66, ProcessorFamily_AMDAthlonX4QuadCoreProcessorFamily);
  (0x67, ProcessorFamily_AMDOpteronX1000SeriesProcessor); (0x68, ProcessorFamily_AMDOpteronX2000SeriesAPU);
  (0x69, ProcessorFamily_AMDOpteronASeriesProcessor); (0x6A, ProcessorFamily_AMDOpteronX3000SeriesAPU);
  (0x6B, ProcessorFamily_AMDZenProcessorFamily); (0x70, ProcessorFamily_HobbitFamily);
  (0x78, ProcessorFamily_CrusoeTM5000Family); (0x79, ProcessorFamily_CrusoeTM3000Family);
  (0x7A, ProcessorFamily_EfficeonTM8000Family); (0x80, ProcessorFamily_Weitek);
  (0x82, ProcessorFamily_ItaniumProcessor); (0x83, ProcessorFamily_AMDAthlon64ProcessorFamily);
  (0x84, ProcessorFamily_AMDOpteronProcessorFamily); (0x85, ProcessorFamily_AMDSempronProcessorFamily);
  (0x86, ProcessorFamily_AMDTurion64MobileTechnology);
  (0x87, ProcessorFamily_DualCoreAMDOpteronProcessorFamily);
  (0x88, ProcessorFamily_AMDAthlon64X2DualCoreProcessorFamily);
  (0x89, ProcessorFamily_AMDTurion64X2MobileTechnology);
  (0x8A, ProcessorFamily_QuadCoreAMDOpteronProcessorFamily);
  (0x8B, ProcessorFamily_ThirdGenerationAMDOpteronProcessorFamily);
  (0x8C, ProcessorFamily_AMDPhenomFXQuadCoreProcessorFamily);
  (0x8D, ProcessorFamily_AMDPhenomX4QuadCoreProcessorFamily);
  (0x8E, ProcessorFamily_AMDPhenomX2DualCoreProcessorFamily);
  (0x8F, ProcessorFamily_AMDAthlonX2DualCoreProcessorFamily); (0x90, ProcessorFamily_PARISCFamily);
  (0x91, ProcessorFamily_PARISC8500); (0x92, ProcessorFamily_PARISC8000); (0x93, ProcessorFamily_PARISC7300LC);
  (0x94, ProcessorFamily_PARISC7200); (0x95, ProcessorFamily_PARISC7100LC); (0x96, ProcessorFamily_PARISC7100);
  (0xA0, ProcessorFamily_V30Family); (0xA1, ProcessorFamily_QuadCoreIntelXeonProcessor3200Series);
  (0xA2, ProcessorFamily_DualCoreIntelXeonProcessor3000Series);
  (0xA3, ProcessorFamily_QuadCoreIntelXeonProcessor5300Series);
  (0xA4, ProcessorFamily_DualCoreIntelXeonProcessor5100Series);
  (0xA5, ProcessorFamily_DualCoreIntelXeonProcessor5000Series);
  (0xA6, ProcessorFamily_DualCoreIntelXeonProcessorLV); (0xA7, ProcessorFamily_DualCoreIntelXeonProcessorULV);
  (0xA8, ProcessorFamily_DualCoreIntelXeonProcessor7100Series);
  (0xA9, ProcessorFamily_QuadCoreIntelXeonProcessor5400Series);
  (0xAA, ProcessorFamily_QuadCoreIntelXeonProcessor);
  (0xAB, ProcessorFamily_DualCoreIntelXeonProcessor5200Series);
  (0xAC, ProcessorFamily_DualCoreIntelXeonProcessor7200Series);
  (0xAD, ProcessorFamily_QuadCoreIntelXeonProcessor7300Series);
  (0xAE, ProcessorFamily_QuadCoreIntelXeonProcessor7400Series);
  (0xAF, ProcessorFamily_MultiCoreIntelXeonProcessor7400Series);
  (0xB0, ProcessorFamily_PentiumIIIXeonProcessor);
  (0xB1, ProcessorFamily_PentiumIIIProcessorWithIntelSpeedStepTechnology);
  (0xB2, ProcessorFamily_Pentium4Processor); (0xB3, ProcessorFamily_IntelXeonProcessor);
  (0xB4, ProcessorFamily_AS400Family); (0xB5, ProcessorFamily_IntelXeonProcessorMP);
  (0xB6, ProcessorFamily_AMDAthlonXPProcessorFamily); (0xB7, ProcessorFamily_AMDAthlonMPProcessorFamily);
  (0xB8, ProcessorFamily_IntelItanium2Processor); (0xB9, ProcessorFamily_IntelPentiumMProcessor);
  (0xBA, ProcessorFamily_IntelCeleronDProcessor); (0xBB, ProcessorFamily_IntelPentiumDProcessor);
  (0xBC, ProcessorFamily_IntelPentiumProcessorExtremeEdition); (0xBD, ProcessorFamily_IntelCoreSoloProcessor);
  (0xBE, ProcessorFamily_Ambiguous); (0xBF, ProcessorFamily_IntelCore2DuoProcessor);
  (0xC0, ProcessorFamily_IntelCore2SoloProcessor); (0xC1, ProcessorFamily_IntelCore2ExtremeProcessor);
  (0xC2, ProcessorFamily_IntelCore2QuadProcessor); (0xC3, ProcessorFamily_IntelCore2ExtremeMobileProcessor);
  (0xC4, ProcessorFamily_IntelCore2DuoMobileProcessor); (0xC5, ProcessorFamily_IntelCore2SoloMobileProcessor);
  (0xC6, ProcessorFamily_IntelCoreI7Processor); (0xC7, ProcessorFamily_DualCoreIntelCeleronProcessor);
  (0xC8, ProcessorFamily_IBM390Family); (0xC9, ProcessorFamily_G4); (0xCA, ProcessorFamily_G5);
  (0xCB, ProcessorFamily_ESA390G6); (0xCC, ProcessorFamily_ZArchitectureBase);
  (0xCD, ProcessorFamily_IntelCoreI5Processor); (0xCE, ProcessorFamily_IntelCoreI3Processor);
  (0xCF, ProcessorFamily_IntelCoreI9Processor); (0xD2, ProcessorFamily_VIAC7MProcessorFamily);
  (0xD3, ProcessorFamily_VIAC7DProcessorFamily); (0xD4, ProcessorFamily_VIAC7ProcessorFamily);
  (0xD5, ProcessorFamily_VIAEdenProcessorFamily); (0xD6, ProcessorFamily_MultiCoreIntelXeonProcessor);
  (0xD7, ProcessorFamily_DualCoreIntelXeonProcessor3xxxSeries);
  (0xD8, ProcessorFamily_QuadCoreIntelXeonProcessor3xxxSeries); (0xD9, ProcessorFamily_VIANanoProcessorFamily);
  (0xDA, ProcessorFamily_DualCoreIntelXeonProcessor5xxxSeries);
  (0xDB, ProcessorFamily_QuadCoreIntelXeonProcessor5xxxSeries);
  (0xDD, ProcessorFamily_DualCoreIntelXeonProcessor7xxxSeries);
  (0xDE, ProcessorFamily_QuadCoreIntelXeonProcessor7xxxSeries);
  (0xDF, ProcessorFamily_MultiCoreIntelXeonProcessor7xxxSeries);
  (0xE0, ProcessorFamily_MultiCoreIntelXeonProcessor3400Series);
  (0xE4, ProcessorFamily_AMDOpteron3000SeriesProcessor); (0xE5, ProcessorFamily_AMDSempronIIProcessor);
  (0xE6, ProcessorFamily_EmbeddedAMDOpteronQuadCoreProcessorFamily);
  (0xE7, ProcessorFamily_AMDPhenomTripleCoreProcessorFamily);
  (0xE8, ProcessorFamily_AMDTurionUltraDualCoreMobileProcessorFamily);
  (0xE9, ProcessorFamily_AMDTurionDualCoreMobileProcessorFamily);
  (0xEA, ProcessorFamily_AMDAthlonDualCoreProcessorFamily);
  (0xEB, ProcessorFamily_AMDSempronSIProcessorFamily); (0xEC, ProcessorFamily_AMDPhenomIIProcessorFamily);
  (0xED, ProcessorFamily_AMDAthlonIIProcessorFamily); (0xEE, ProcessorFamily_SixCoreAMDOpteronProcessorFamily);
  (0xEF, ProcessorFamily_AMDSempronMProcessorFamily); (0xFA, ProcessorFamily_I860);
  (0xFB, ProcessorFamily_I960); (0xFE, ProcessorFamily_ProcessorFamily2); (0x100, ProcessorFamily_ARMv7);
  (0x101, ProcessorFamily_ARMv8); (0x102, ProcessorFamily_ARMv9); (0x104, ProcessorFamily_SH3);
  (0x105, ProcessorFamily_SH4); (0x118, ProcessorFamily_ARM); (0x119, ProcessorFamily_StrongARM);
  (0x12C, ProcessorFamily_Cyrix6x86); (0x12D, ProcessorFamily_MediaGX); (0x12E, ProcessorFamily_MII);
  (0x140, ProcessorFamily_WinChip); (0x15E, ProcessorFamily_DSP); (0x1F4, ProcessorFamily_VideoProcessor);
  (0x200, ProcessorFamily_RISCVRV32); (0x201, ProcessorFamily_RISCVRV64); (0x202, ProcessorFamily_RISCVRV128);
  (0xFFFE, ProcessorFamily_ForFutureUse)].

(* 7.5.5 Processor upgrade *)
Definition ProcessorUpgrade_codes : list (N * ProcessorUpgrade) := [
  (0x01, ProcessorUpgrade_Other); (0x02, ProcessorUpgrade_Unknown); (0x03, ProcessorUpgrade_DaughterBoard);
  (0x04, ProcessorUpgrade_ZIFSocket); (0x05, ProcessorUpgrade_ReplaceablePiggyBack);
  (0x06, ProcessorUpgrade_None); (0x07, ProcessorUpgrade_LIFSocket); (0x08, ProcessorUpgrade_Slot1);
  (0x09, ProcessorUpgrade_Slot2); (0x0A, ProcessorUpgrade_Socket370); (0x0B, ProcessorUpgrade_SlotA);
  (0x0C, ProcessorUpgrade_SlotM); (0x0D, ProcessorUpgrade_Socket423); (0x0E, ProcessorUpgrade_SocketA);
  (0x0F, ProcessorUpgrade_Socket478); (0x10, ProcessorUpgrade_Socket754); (0x11, ProcessorUpgrade_Socket940);
  (0x12, ProcessorUpgrade_Socket939); (0x13, ProcessorUpgrade_SocketmPGA604);
  (0x14, ProcessorUpgrade_SocketLGA771); (0x15, ProcessorUpgrade_SocketLGA775);
  (0x16, ProcessorUpgrade_SocketS1); (0x17, ProcessorUpgrade_SocketAM2); (0x18, ProcessorUpgrade_SocketF);
  (0x19, ProcessorUpgrade_SocketLGA1366); (0x1A, ProcessorUpgrade_SocketG34);
  (0x1B, ProcessorUpgrade_SocketAM3); (0x1C, ProcessorUpgrade_SocketC32);
  (0x1D, ProcessorUpgrade_SocketLGA1156); (0x1E, ProcessorUpgrade_SocketLGA1567);
  (0x1F, ProcessorUpgrade_SocketPGA988A); (0x20, ProcessorUpgrade_SocketBGA1288);
  (0x21, ProcessorUpgrade_SocketrPGA988B); (0x22, ProcessorUpgrade_SocketBGA1023);
  (0x23, ProcessorUpgrade_SocketBGA1224); (0x24, ProcessorUpgrade_SocketLGA1155);
  (0x25, ProcessorUpgrade_SocketLGA1356); (0x26, ProcessorUpgrade_SocketLGA2011);
  (0x27, ProcessorUpgrade_SocketFS1); (0x28, ProcessorUpgrade_SocketFS2); (0x29, ProcessorUpgrade_SocketFM1);
  (0x2A, ProcessorUpgrade_SocketFM2); (0x2B, ProcessorUpgrade_SocketLGA2011Three);
  (0x2C, ProcessorUpgrade_SocketLGA1356Three); (0x2D, ProcessorUpgrade_SocketLGA1150);
  (0x2E, ProcessorUpgrade_SocketBGA1168); (0x2F, ProcessorUpgrade_SocketBGA1234);
  (0x30, ProcessorUpgrade_SocketBGA1364); (0x31, ProcessorUpgrade_SocketAM4);
  (0x32, ProcessorUpgrade_SocketLGA1151); (0x33, ProcessorUpgrade_SocketBGA1356);
  (0x34, ProcessorUpgrade_SocketBGA1440); (0x35, ProcessorUpgrade_SocketBGA1515);
  (0x36, ProcessorUpgrade_SocketLGA3647); (0x37, ProcessorUpgrade_SocketSP3);
  (0x38, ProcessorUpgrade_SocketSP3r2); (0x39, ProcessorUpgrade_SocketLGA2066);
  (0x3A, ProcessorUpgrade_SocketBGA1392); (0x3B, ProcessorUpgrade_SocketBGA1510);
  (0x3C, ProcessorUpgrade_SocketBGA1528); (0x3D, ProcessorUpgrade_SocketLGA4189);
  (0x3E, ProcessorUpgrade_SocketLGA1200)].

(* 7.8 Cache configuration, bits 2:0 *)
Definition CacheLevel_codes : list (N * CacheLevel) := [
  (0x00, CacheLevel_L1); (0x01, CacheLevel_L2); (0x02, CacheLevel_L3); (0x03, CacheLevel_L4);
  (0x04, CacheLevel_L5); (0x05, CacheLevel_L6); (0x06, CacheLevel_L7); (0x07, CacheLevel_L8)].

(* 7.8 Cache configuration, bits 6:5 *)
Definition CacheLocation_codes : list (N * CacheLocation) := [
  (0x00, CacheLocation_Internal); (0x01, CacheLocation_External); (0x02, CacheLocation_Reserved);
  (0x03, CacheLocation_Unknown)].

(* 7.8 Cache configuration, bits 9:8 *)
Definition CacheOperationalMode_codes : list (N * CacheOperationalMode) := [
  (0x00, CacheOperationalMode_WriteThrough); (0x01, CacheOperationalMode_WriteBack);
  (0x02, CacheOperationalMode_ValuesWithMemoryAddress); (0x03, CacheOperationalMode_Unknown)].

(* 7.8.3 Cache error correction type *)
Definition CacheErrorCorrectionType_codes : list (N * CacheErrorCorrectionType) := [
  (0x01, CacheErrorCorrectionType_Other); (0x02, CacheErrorCorrectionType_Unknown);
  (0x03, CacheErrorCorrectionType_None); (0x04, CacheErrorCorrectionType_Parity);
  (0x05, CacheErrorCorrectionType_SingleBitEcc); (0x06, CacheErrorCorrectionType_MultiBitEcc)].

(* 7.8.4 System cache type *)
Definition SystemCacheType_codes : list (N * SystemCacheType) := [
  (0x01, SystemCacheType_Other); (0x02, SystemCacheType_Unknown); (0x03, SystemCacheType_Instruction);
  (0x04, SystemCacheType_Data); (0x05, SystemCacheType_Unified)].

(* 7.8.5 Cache associativity *)
Definition CacheAssociativity_codes : list (N * CacheAssociativity) := [
  (0x01, CacheAssociativity_Other); (0x02, CacheAssociativity_Unknown);
  (0x03, CacheAssociativity_DirectMapped); (0x04, CacheAssociativity_TwowaySetAssociative);
  (0x05, CacheAssociativity_FourWaySetAssociative); (0x06, CacheAssociativity_FullyAssociative);
  (0x07, CacheAssociativity_EightWaySetAssociative); (0x08, CacheAssociativity_SixteenWaySetAssociative);
  (0x09, CacheAssociativity_TwelveWaySetAssociative); (0x0A, CacheAssociativity_TwentyFourWaySetAssociative);
  (0x0B, CacheAssociativity_ThirtyTwoWaySetAssociative);
  (0x0C, CacheAssociativity_FourtyEightWaySetAssociative);
  (0x0D, CacheAssociativity_SixtyFourWaySetAssociative); (0x0E, CacheAssociativity_TwentyWaySetAssociative)].

(* 7.9.2 Port connector types *)
Definition ConnectorType_codes : list (N * ConnectorType) := [
  (0x00, ConnectorType_None); (0x01, ConnectorType_Centronics); (0x02, ConnectorType_MiniCentronics);
  (0x03, ConnectorType_Proprietary); (0x04, ConnectorType_Db25PinMale); (0x05, ConnectorType_Db25PinFemale);
  (0x06, ConnectorType_Db15PinMale); (0x07, ConnectorType_Db15PinFemale); (0x08, ConnectorType_Db9PinMale);
  (0x09, ConnectorType_Db9PinFemale); (0x0A, ConnectorType_Rj11); (0x0B, ConnectorType_Rj45);
  (0x0C, ConnectorType_MiniScsi); (0x0D, ConnectorType_MiniDin); (0x0E, ConnectorType_MicroDin);
  (0x0F, ConnectorType_Ps2); (0x10, ConnectorType_Infrared); (0x11, ConnectorType_HpHil);
  (0x12, ConnectorType_AccessBus); (0x13, ConnectorType_SsaScsi); (0x14, ConnectorType_CircularDin8Male);
  (0x15, ConnectorType_CircularDin8Female); (0x16, ConnectorType_OnBoardIde);
  (0x17, ConnectorType_OnBoardFloppy); (0x18, ConnectorType_DualInline9); (0x19, ConnectorType_DualInline25);
  (0x1A, ConnectorType_DualInline50); (0x1B, ConnectorType_DualInline68);
  (0x1C, ConnectorType_OnBoardSoundInputFromCdRom); (0x1D, ConnectorType_MiniCentronicsType14);
  (0x1E, ConnectorType_MiniCentronicsType26); (0x1F, ConnectorType_MiniJack); (0x20, ConnectorType_Bnc);
  (0x21, ConnectorType_Ieee1394); (0x22, ConnectorType_SasSataPlugReceptacle);
  (0x23, ConnectorType_UsbTypeCReceptacle); (0xA0, ConnectorType_Pc98); (0xA1, ConnectorType_Pc98Hireso);
  (0xA2, ConnectorType_PcH98); (0xA3, ConnectorType_Pc98Note); (0xA4, ConnectorType_Pc98Full);
  (0xFF, ConnectorType_Other)].

(* 7.9.3 Port types *)
Definition PortType_codes : list (N * PortType) := [
  (0x00, PortType_None); (0x01, PortType_ParallelPortXtAtCompatible); (0x02, PortType_ParallelPortPs2);
  (0x03, PortType_ParallelPortEcp); (0x04, PortType_ParallelPortEpp); (0x05, PortType_ParallelPortEcpEpp);
  (0x06, PortType_SerialPortXtAtCompatible); (0x07, PortType_SerialPort16450Compatible);
  (0x08, PortType_SerialPort16550Compatible); (0x09, PortType_SerialPort16550ACompatible);
  (0x0A, PortType_ScsiPort); (0x0B, PortType_MidiPort); (0x0C, PortType_JoyStickPort);
  (0x0D, PortType_KeyboardPort); (0x0E, PortType_MousePort); (0x0F, PortType_SsaScsi); (0x10, PortType_Usb);
  (0x11, PortType_FireWire); (0x12, PortType_PcmciaType1); (0x13, PortType_PcmciaType2);
  (0x14, PortType_PcmciaType3); (0x15, PortType_Cardbus); (0x16, PortType_AccessBusPort);
  (0x17, PortType_Scsi2); (0x18, PortType_ScsiWide); (0x19, PortType_Pc98); (0x1A, PortType_Pc98Hireso);
  (0x1B, PortType_PcH98); (0x1C, PortType_VideoPort); (0x1D, PortType_AudioPort); (0x1E, PortType_ModemPort);
  (0x1F, PortType_NetworkPort); (0x20, PortType_Sata); (0x21, PortType_Sas);
  (0x22, PortType_MultiFunctionDisplayPort); (0x23, PortType_Thunderbolt);
  (0xA0, PortType_Intel8251Compatible); (0xA1, PortType_Intel8251FifoCompatible); (0xFF, PortType_Other)].

(* 7.10.1 Slot type *)
Definition SlotType_codes : list (N * SlotType) := [
  (0x01, SlotType_Other); (0x02, SlotType_Unknown); (0x03, SlotType_Isa); (0x04, SlotType_Mca);
  (0x05, SlotType_Eisa); (0x06, SlotType_Pci); (0x07, SlotType_PcCard); (0x08, SlotType_VlVesa);
  (0x09, SlotType_Proprietary); (0x0A, SlotType_ProcessorCardSlot); (0x0B, SlotType_ProprietaryMemoryCardSlot);
  (0x0C, SlotType_IoRiserCardSlot); (0x0D, SlotType_Nubus); (0x0E, SlotType_Pci66Mhz); (0x0F, SlotType_Agp);
  (0x10, SlotType_Agp2x); (0x11, SlotType_Agp4x); (0x12, SlotType_PciX); (0x13, SlotType_Agp8x);
  (0x14, SlotType_M2Socket1DP); (0x15, SlotType_M2Socket1SD); (0x16, SlotType_M2Socket2);
  (0x17, SlotType_M2Socket3); (0x18, SlotType_MxmType1); (0x19, SlotType_MxmType2); (0x1A, SlotType_MxmType3);
  (0x1B, SlotType_MxmType3He); (0x1C, SlotType_MxmType4); (0x1D, SlotType_Mxm3TypeA);
  (0x1E, SlotType_Mxm3TypeB); (0x1F, SlotType_U2PciExpressGen2); (0x20, SlotType_U2PciExpressGen3);
  (0x21, SlotType_PciExpressMini52pin1); (0x22, SlotType_PciExpressMini52pin2);
  (0x23, SlotType_PciExpressMini76pin); (0x24, SlotType_U2PciExpressGen4); (0x25, SlotType_U2PciExpressGen5);
  (0x26, SlotType_OcpNic3Small); (0x27, SlotType_OcpNic3Large); (0x28, SlotType_OcpNicPriorTo3);
  (0x30, SlotType_CxlFlexbus1); (0xA0, SlotType_Pc98C20); (0xA1, SlotType_Pc98C24); (0xA2, SlotType_Pc98E);
  (0xA3, SlotType_Pc98LocalBus); (0xA4, SlotType_Pc98Card); (0xA5, SlotType_PciExpress);
  (0xA6, SlotType_PciExpressX1); (0xA7, SlotType_PciExpressX2); (0xA8, SlotType_PciExpressX4);
  (0xA9, SlotType_PciExpressX8); (0xAA, SlotType_PciExpressX16); (0xAB, SlotType_PciExpressGen2);
  (0xAC, SlotType_PciExpressGen2x1); (0xAD, SlotType_PciExpressGen2x2); (0xAE, SlotType_PciExpressGen2x4);
  (0xAF, SlotType_PciExpressGen2x8); (0xB0, SlotType_PciExpressGen2x16); (0xB1, SlotType_PciExpressGen3);
  (0xB2, SlotType_PciExpressGen3x1); (0xB3, SlotType_PciExpressGen3x2); (0xB4, SlotType_PciExpressGen3x4);
  (0xB5, SlotType_PciExpressGen3x8); (0xB6, SlotType_PciExpressGen3x16); (0xB8, SlotType_PciExpressGen4);
  (0xB9, SlotType_PciExpressGen4x1); (0xBA, SlotType_PciExpressGen4x2); (0xBB, SlotType_PciExpressGen4x4);
  (0xBC, SlotType_PciExpressGen4x8); (0xBD, SlotType_PciExpressGen4x16); (0xBE, SlotType_PciExpressGen5);
  (0xBF, SlotType_PciExpressGen5x1); (0xC0, SlotType_PciExpressGen5x2); (0xC1, SlotType_PciExpressGen5x4);
  (0xC2, SlotType_PciExpressGen5x8); (0xC3, SlotType_PciExpressGen5x16); (0xC4, SlotType_PciExpressGen6);
  (0xC5, SlotType_E1FormFactorSlot); (0xC6, SlotType_E3FormFactorSlot)].

(* what the crate does instead: 1Fh, 20h, 24h and 25h, the U.2 (SFF-8639) slots, get the
   names of the plain PCI Express slots of their generation (ABh, B1h, B8h, BEh) *)
Definition SlotType_codes_here : list (N * SlotType) := [
  (0x01, SlotType_Other); (0x02, SlotType_Unknown); (0x03, SlotType_Isa); (0x04, SlotType_Mca);
  (0x05, SlotType_Eisa); (0x06, SlotType_Pci); (0x07, SlotType_PcCard); (0x08, SlotType_VlVesa);
  (0x09, SlotType_Proprietary); (0x0A, SlotType_ProcessorCardSlot); (0x0B, SlotType_ProprietaryMemoryCardSlot);
  (0x0C, SlotType_IoRiserCardSlot); (0x0D, SlotType_Nubus); (0x0E, SlotType_Pci66Mhz); (0x0F, SlotType_Agp);
  (0x10, SlotType_Agp2x); (0x11, SlotType_Agp4x); (0x12, SlotType_PciX); (0x13, SlotType_Agp8x);
  (0x14, SlotType_M2Socket1DP); (0x15, SlotType_M2Socket1SD); (0x16, SlotType_M2Socket2);
  (0x17, SlotType_M2Socket3); (0x18, SlotType_MxmType1); (0x19, SlotType_MxmType2); (0x1A, SlotType_MxmType3);
  (0x1B, SlotType_MxmType3He); (0x1C, SlotType_MxmType4); (0x1D, SlotType_Mxm3TypeA);
  (0x1E, SlotType_Mxm3TypeB); (0x1F, SlotType_PciExpressGen2); (0x20, SlotType_PciExpressGen3);
  (0x21, SlotType_PciExpressMini52pin1); (0x22, SlotType_PciExpressMini52pin2);
  (0x23, SlotType_PciExpressMini76pin); (0x24, SlotType_PciExpressGen4); (0x25, SlotType_PciExpressGen5);
  (0x26, SlotType_OcpNic3Small); (0x27, SlotType_OcpNic3Large); (0x28, SlotType_OcpNicPriorTo3);
  (0x30, SlotType_CxlFlexbus1); (0xA0, SlotType_Pc98C20); (0xA1, SlotType_Pc98C24); (0xA2, SlotType_Pc98E);
  (0xA3, SlotType_Pc98LocalBus); (0xA4, SlotType_Pc98Card); (0xA5, SlotType_PciExpress);
  (0xA6, SlotType_PciExpressX1); (0xA7, SlotType_PciExpressX2); (0xA8, SlotType_PciExpressX4);
  (0xA9, SlotType_PciExpressX8); (0xAA, SlotType_PciExpressX16); (0xAB, SlotType_PciExpressGen2);
  (0xAC, SlotType_PciExpressGen2x1); (0xAD, SlotType_PciExpressGen2x2); (0xAE, SlotType_PciExpressGen2x4);
  (0xAF, SlotType_PciExpressGen2x8); (0xB0, SlotType_PciExpressGen2x16); (0xB1, SlotType_PciExpressGen3);
  (0xB2, SlotType_PciExpressGen3x1); (0xB3, SlotType_PciExpressGen3x2); (0xB4, SlotType_PciExpressGen3x4);
  (0xB5, SlotType_PciExpressGen3x8); (0xB6, SlotType_PciExpressGen3x16); (0xB8, SlotType_PciExpressGen4);
  (0xB9, SlotType_PciExpressGen4x1); (0xBA, SlotType_PciExpressGen4x2); (0xBB, SlotType_PciExpressGen4x4);
  (0xBC, SlotType_PciExpressGen4x8); (0xBD, SlotType_PciExpressGen4x16); (0xBE, SlotType_PciExpressGen5);
  (0xBF, SlotType_PciExpressGen5x1); (0xC0, SlotType_PciExpressGen5x2); (0xC1, SlotType_PciExpressGen5x4);
  (0xC2, SlotType_PciExpressGen5x8); (0xC3, SlotType_PciExpressGen5x16); (0xC4, SlotType_PciExpressGen6);
  (0xC5, SlotType_E1FormFactorSlot); (0xC6, SlotType_E3FormFactorSlot)].

(* 7.10.2 Slot data bus width *)
Definition SlotWidth_codes : list (N * SlotWidth) := [
  (0x01, SlotWidth_Other); (0x02, SlotWidth_Unknown); (0x03, SlotWidth_Byte); (0x04, SlotWidth_Word);
  (0x05, SlotWidth_Dword); (0x06, SlotWidth_Qword); (0x07, SlotWidth_Dqword); (0x08, SlotWidth_X1);
  (0x09, SlotWidth_X2); (0x0A, SlotWidth_X4); (0x0B, SlotWidth_X8); (0x0C, SlotWidth_X12);
  (0x0D, SlotWidth_X16); (0x0E, SlotWidth_X32)].

(* 7.10.3 Current usage *)
Definition CurrentUsage_codes : list (N * CurrentUsage) := [
  (0x01, CurrentUsage_Other); (0x02, CurrentUsage_Unknown); (0x03, CurrentUsage_Available);
  (0x04, CurrentUsage_InUse); (0x05, CurrentUsage_Unavailable)].

(* 7.10.4 Slot length *)
Definition SlotLength_codes : list (N * SlotLength) := [
  (0x01, SlotLength_Other); (0x02, SlotLength_Unknown); (0x03, SlotLength_ShortLength);
  (0x04, SlotLength_LongLength); (0x05, SlotLength_DriveFormFactor2_5); (0x06, SlotLength_DriveFormFactor3_5)].

(* 7.16.6.1 Event log types *)
Definition EventLogType_codes : list (N * EventLogType) := [
  (0x01, EventLogType_SingleBitEccMemoryError); (0x02, EventLogType_MultiBitEccMemoryError);
  (0x03, EventLogType_ParityMemoryError); (0x04, EventLogType_BusTimeOut); (0x05, EventLogType_IoChannelCheck);
  (0x06, EventLogType_SoftwareNmi); (0x07, EventLogType_PostMemoryResize); (0x08, EventLogType_PostError);
  (0x09, EventLogType_PciParityError); (0x0A, EventLogType_PciSystemError); (0x0B, EventLogType_CpuFailure);
  (0x0C, EventLogType_EisaFailSafeTimerTimeOut); (0x0D, EventLogType_CorrectableMemoryLogDisabled);
  (0x0E, EventLogType_LoggingDisabledForSpecificEventType); (0x10, EventLogType_SystemLimitExceeded);
  (0x11, EventLogType_AsynchronousHardwareTimerExpired); (0x12, EventLogType_SystemConfigurationInformation);
  (0x13, EventLogType_HardDiskInformation); (0x14, EventLogType_SystemReconfigured);
  (0x15, EventLogType_UncorrectableCpuComplexError); (0x16, EventLogType_LogAreaReset);
  (0x17, EventLogType_SystemBoot)].

(* 7.16.2 Event log header format *)
Definition LogHeaderFormat_codes : list (N * LogHeaderFormat) := [
  (0x00, LogHeaderFormat_NoHeader); (0x01, LogHeaderFormat_LogHeaderType1)].

(* 7.17.1 Memory array: location *)
Definition MemoryArrayLocation_codes : list (N * MemoryArrayLocation) := [
  (0x01, MemoryArrayLocation_Other); (0x02, MemoryArrayLocation_Unknown);
  (0x03, MemoryArrayLocation_SystemBoardOrMotherboard); (0x04, MemoryArrayLocation_IsaAddOnCard);
  (0x05, MemoryArrayLocation_EisaAddOnCard); (0x06, MemoryArrayLocation_PciAddOnCard);
  (0x07, MemoryArrayLocation_McaAddOnCard); (0x08, MemoryArrayLocation_PcmciaAddOnCard);
  (0x09, MemoryArrayLocation_ProprietaryAddOnCard); (0x0A, MemoryArrayLocation_NuBus);
  (0xA0, MemoryArrayLocation_Pc98c20AddOnCard); (0xA1, MemoryArrayLocation_Pc98c24AddOnCard);
  (0xA2, MemoryArrayLocation_Pc98eAddOnCard); (0xA3, MemoryArrayLocation_Pc98LocalBusAddOnCard);
  (0xA4, MemoryArrayLocation_CxlAddOnCard)].

(* what the crate does instead: the last five names follow at 0Bh to 0Fh *)
Definition MemoryArrayLocation_codes_here : list (N * MemoryArrayLocation) := [
  (0x01, MemoryArrayLocation_Other); (0x02, MemoryArrayLocation_Unknown);
  (0x03, MemoryArrayLocation_SystemBoardOrMotherboard); (0x04, MemoryArrayLocation_IsaAddOnCard);
  (0x05, MemoryArrayLocation_EisaAddOnCard); (0x06, MemoryArrayLocation_PciAddOnCard);
  (0x07, MemoryArrayLocation_McaAddOnCard); (0x08, MemoryArrayLocation_PcmciaAddOnCard);
  (0x09, MemoryArrayLocation_ProprietaryAddOnCard); (0x0A, MemoryArrayLocation_NuBus);
  (0x0B, MemoryArrayLocation_Pc98c20AddOnCard); (0x0C, MemoryArrayLocation_Pc98c24AddOnCard);
  (0x0D, MemoryArrayLocation_Pc98eAddOnCard); (0x0E, MemoryArrayLocation_Pc98LocalBusAddOnCard);
  (0x0F, MemoryArrayLocation_CxlAddOnCard)].

(* 7.17.2 Memory array: use *)
Definition MemoryArrayUse_codes : list (N * MemoryArrayUse) := [
  (0x01, MemoryArrayUse_Other); (0x02, MemoryArrayUse_Unknown); (0x03, MemoryArrayUse_SystemMemory);
  (0x04, MemoryArrayUse_VideoMemory); (0x05, MemoryArrayUse_FlashMemory);
  (0x06, MemoryArrayUse_NonVolatileRam); (0x07, MemoryArrayUse_CacheMemory)].

(* 7.17.3 Memory array: error correction types *)
Definition MemoryArrayErrorCorrectionTypes_codes : list (N * MemoryArrayErrorCorrectionTypes) := [
  (0x01, MemoryArrayErrorCorrectionTypes_Other); (0x02, MemoryArrayErrorCorrectionTypes_Unknown);
  (0x03, MemoryArrayErrorCorrectionTypes_None); (0x04, MemoryArrayErrorCorrectionTypes_Parity);
  (0x05, MemoryArrayErrorCorrectionTypes_SingleBitEcc); (0x06, MemoryArrayErrorCorrectionTypes_MultiBitEcc);
  (0x07, MemoryArrayErrorCorrectionTypes_CRC)].

(* 7.19.2 Memory error: error granularity *)
Definition MDErrorGranularity_codes : list (N * MDErrorGranularity) := [
  (0x01, MDErrorGranularity_Other); (0x02, MDErrorGranularity_Unknown); (0x03, MDErrorGranularity_DeviceLevel);
  (0x04, MDErrorGranularity_MemoryLevel)].

(* 7.19.3 Memory error: error operation *)
Definition MDErrorOperation_codes : list (N * MDErrorOperation) := [
  (0x01, MDErrorOperation_Other); (0x02, MDErrorOperation_Unknown); (0x03, MDErrorOperation_Read);
  (0x04, MDErrorOperation_Write); (0x05, MDErrorOperation_PartialWrite)].

(* 7.19.1 Memory error: error type *)
Definition MDErrorType_codes : list (N * MDErrorType) := [
  (0x01, MDErrorType_Other); (0x02, MDErrorType_Unknown); (0x03, MDErrorType_Ok); (0x04, MDErrorType_BadRead);
  (0x05, MDErrorType_Parity); (0x06, MDErrorType_SingleBit); (0x07, MDErrorType_DoubleBit);
  (0x08, MDErrorType_MultiBit); (0x09, MDErrorType_Nibble); (0x0A, MDErrorType_Checksum);
  (0x0B, MDErrorType_Crc); (0x0C, MDErrorType_CorrectedSingleBit); (0x0D, MDErrorType_Corrected);
  (0x0E, MDErrorType_Uncorrectable)].

(* 7.18.1 Memory device: form factor *)
Definition FormFactor_codes : list (N * FormFactor) := [
  (0x01, FormFactor_Other); (0x02, FormFactor_Unknown); (0x03, FormFactor_Simm); (0x04, FormFactor_Sip);
  (0x05, FormFactor_Chip); (0x06, FormFactor_Dip); (0x07, FormFactor_Zip); (0x08, FormFactor_ProprietaryCard);
  (0x09, FormFactor_Dimm); (0x0A, FormFactor_Tsop); (0x0B, FormFactor_RowOfChips); (0x0C, FormFactor_Rimm);
  (0x0D, FormFactor_SoDimm); (0x0E, FormFactor_Srimm); (0x0F, FormFactor_FbDimm)].

(* what the crate does instead: the first nine names are one code too low *)
Definition FormFactor_codes_here : list (N * FormFactor) := [
  (0x00, FormFactor_Other); (0x01, FormFactor_Unknown); (0x02, FormFactor_Simm); (0x03, FormFactor_Sip);
  (0x04, FormFactor_Chip); (0x05, FormFactor_Dip); (0x06, FormFactor_Zip); (0x07, FormFactor_ProprietaryCard);
  (0x08, FormFactor_Dimm); (0x09, FormFactor_Dimm); (0x0A, FormFactor_Tsop); (0x0B, FormFactor_RowOfChips);
  (0x0C, FormFactor_Rimm); (0x0D, FormFactor_SoDimm); (0x0E, FormFactor_Srimm); (0x0F, FormFactor_FbDimm)].

(* 7.18.6 Memory device: memory technology *)
Definition MemoryTechnology_codes : list (N * MemoryTechnology) := [
  (0x01, MemoryTechnology_Other); (0x02, MemoryTechnology_Unknown); (0x03, MemoryTechnology_Dram);
  (0x04, MemoryTechnology_NvDimmN); (0x05, MemoryTechnology_NvDimmF); (0x06, MemoryTechnology_NvDimmP);
  (0x07, MemoryTechnology_IntelOptane)].

(* 7.18.2 Memory device: type *)
Definition MemoryType_codes : list (N * MemoryType) := [
  (0x01, MemoryType_Other); (0x02, MemoryType_Unknown); (0x03, MemoryType_Dram); (0x04, MemoryType_Edram);
  (0x05, MemoryType_Vram); (0x06, MemoryType_Sram); (0x07, MemoryType_Ram); (0x08, MemoryType_Rom);
  (0x09, MemoryType_Flash); (0x0A, MemoryType_Eeprom); (0x0B, MemoryType_Feprom); (0x0C, MemoryType_Eprom);
  (0x0D, MemoryType_Cdram); (0x0E, MemoryType_ThreeDram); (0x0F, MemoryType_Sdram); (0x10, MemoryType_Sgram);
  (0x11, MemoryType_Rdram); (0x12, MemoryType_Ddr); (0x13, MemoryType_Ddr2); (0x14, MemoryType_Ddr2FbDimm);
  (0x15, MemoryType_Reserved); (0x16, MemoryType_Reserved); (0x17, MemoryType_Reserved);
  (0x18, MemoryType_Ddr3); (0x19, MemoryType_Fbd2); (0x1A, MemoryType_Ddr4); (0x1B, MemoryType_LpDdr);
  (0x1C, MemoryType_LpDdr2); (0x1D, MemoryType_LpDdr3); (0x1E, MemoryType_LpDdr4);
  (0x1F, MemoryType_LogicalNonVolatileDevice); (0x20, MemoryType_Hbm); (0x21, MemoryType_Hbm2);
  (0x22, MemoryType_Ddr5); (0x23, MemoryType_LpDdr5)].

(* 7.19.1 Memory error: error type *)
Definition MEErrorType_codes : list (N * MEErrorType) := [
  (0x01, MEErrorType_Other); (0x02, MEErrorType_Unknown); (0x03, MEErrorType_Ok); (0x04, MEErrorType_BadRead);
  (0x05, MEErrorType_ParityError); (0x06, MEErrorType_SingleBitError); (0x07, MEErrorType_DoubleBitError);
  (0x08, MEErrorType_MultiBitError); (0x09, MEErrorType_NibbleError); (0x0A, MEErrorType_ChecksumError);
  (0x0B, MEErrorType_CrcError); (0x0C, MEErrorType_CorrectedSingleBitError);
  (0x0D, MEErrorType_CorrectedError); (0x0E, MEErrorType_UncorrectableError)].

(* 7.19.2 Memory error: error granularity *)
Definition MEErrorGranularity_codes : list (N * MEErrorGranularity) := [
  (0x01, MEErrorGranularity_Other); (0x02, MEErrorGranularity_Unknown); (0x03, MEErrorGranularity_DeviceLevel);
  (0x04, MEErrorGranularity_MemoryPartitionLevel)].

(* 7.19.3 Memory error: error operation *)
Definition MEErrorOperation_codes : list (N * MEErrorOperation) := [
  (0x01, MEErrorOperation_Other); (0x02, MEErrorOperation_Unknown); (0x03, MEErrorOperation_Read);
  (0x04, MEErrorOperation_Write); (0x05, MEErrorOperation_PartialWrite)].

(* 7.22.1 Pointing device: type *)
Definition PointingDeviceType_codes : list (N * PointingDeviceType) := [
  (0x01, PointingDeviceType_Other); (0x02, PointingDeviceType_Unknown); (0x03, PointingDeviceType_Mouse);
  (0x04, PointingDeviceType_TrackBall); (0x05, PointingDeviceType_TrackPoint);
  (0x06, PointingDeviceType_GlidePoint); (0x07, PointingDeviceType_TouchPad);
  (0x08, PointingDeviceType_TouchScreen); (0x09, PointingDeviceType_OpticalSensor)].

(* 7.22.2 Pointing device: interface *)
Definition PointingDeviceInterface_codes : list (N * PointingDeviceInterface) := [
  (0x01, PointingDeviceInterface_Other); (0x02, PointingDeviceInterface_Unknown);
  (0x03, PointingDeviceInterface_Serial); (0x04, PointingDeviceInterface_Ps2);
  (0x05, PointingDeviceInterface_Infrared); (0x06, PointingDeviceInterface_HpHil);
  (0x07, PointingDeviceInterface_BusMouse); (0x08, PointingDeviceInterface_Adb);
  (0xA0, PointingDeviceInterface_BusMouseDb9); (0xA1, PointingDeviceInterface_BusMouseMicroDin);
  (0xA2, PointingDeviceInterface_Usb)].
(* codes without a name *)
Definition ProcessorFamily_other (k : N) : ProcessorFamily :=
  if (k =? 0xFF) || (k =? 0xFFFF) then ProcessorFamily_NotUsed k else ProcessorFamily_Available k.
Definition EventLogType_other (k : N) : EventLogType :=
  if k <? 0x18 then EventLogType_Reserved k
  else if k <? 0x80 then EventLogType_Unused k
  else if k <? 0xFF then EventLogType_Available k
  else EventLogType_EndOfLog.
Definition LogHeaderFormat_other (k : N) : LogHeaderFormat :=
  if k <? 0x80 then LogHeaderFormat_Available k else LogHeaderFormat_OemSpecific k.
