(* Generated by tools/gen_eq.py; do not edit by hand.  The parts of a value determine
   it, and so do the calls they make on the hasher. *)
From Coq Require Import String.
From Verif Require Import Base G_Enums M_Raw M_Entry M_Bios M_System M_BaseBoard M_Enclosure M_Processor M_Cache
  M_PortConnector M_SystemSlots M_Strings M_GroupAssociations M_SystemEventLog M_PhysicalMemoryArray M_MemoryDevice
  M_Memory M_PortableBattery M_Iter M_Hash M_Eq G_Eq L_Eq.
Local Open Scope N_scope.

Definition InfoType_back (k v : N) : InfoType :=
  match k with
  | 0 => InfoType_Bios
  | 1 => InfoType_System
  | 2 => InfoType_BaseBoard
  | 3 => InfoType_Enclosure
  | 4 => InfoType_Processor
  | 5 => InfoType_Cache
  | 6 => InfoType_PortConnector
  | 7 => InfoType_SystemSlots
  | 8 => InfoType_OemStrings
  | 9 => InfoType_SystemConfigurationOptions
  | 10 => InfoType_GroupAssociations
  | 11 => InfoType_SystemEventLog
  | 12 => InfoType_BiosLanguage
  | 13 => InfoType_PhysicalMemoryArray
  | 14 => InfoType_MemoryDevice
  | 15 => InfoType_MemoryError32
  | 16 => InfoType_MemoryArrayMappedAddress
  | 17 => InfoType_MemoryDeviceMappedAddress
  | 18 => InfoType_BuiltInPointingDevice
  | 19 => InfoType_PortableBattery
  | 20 => InfoType_SystemBoot
  | 21 => InfoType_Oem v
  | _ => InfoType_End
  end.
Definition InfoType_has (k : N) : bool :=
  match k with
  | 21 => true
  | _ => false
  end.
Lemma InfoType_codec : codec InfoType_parts eq.
Proof. apply (variant_codec U8 InfoType_tag InfoType_value InfoType_back InfoType_has); intros []; reflexivity. Qed.

Definition WakeupType_back (k v : N) : WakeupType :=
  match k with
  | 0 => WakeupType_Reserved
  | 1 => WakeupType_Other
  | 2 => WakeupType_Unknown
  | 3 => WakeupType_APM_Timer
  | 4 => WakeupType_Modem_Ring
  | 5 => WakeupType_LAN_Remote
  | 6 => WakeupType_Power_Switch
  | 7 => WakeupType_PCI_PME
  | 8 => WakeupType_AC_Power_Restored
  | _ => WakeupType_Undefined v
  end.
Definition WakeupType_has (k : N) : bool :=
  match k with
  | 9 => true
  | _ => false
  end.
Lemma WakeupType_codec : codec WakeupType_parts eq.
Proof. apply (variant_codec U8 WakeupType_tag WakeupType_value WakeupType_back WakeupType_has); intros []; reflexivity. Qed.

Definition BoardType_back (k v : N) : BoardType :=
  match k with
  | 0 => BoardType_Unknown
  | 1 => BoardType_Other
  | 2 => BoardType_ServerBlade
  | 3 => BoardType_ConnectivitySwitch
  | 4 => BoardType_SystemManagementModule
  | 5 => BoardType_ProcessorModule
  | 6 => BoardType_IoModule
  | 7 => BoardType_MemoryModule
  | 8 => BoardType_DaughterBoard
  | 9 => BoardType_MotherBoard
  | 10 => BoardType_ProcessorMemoryModule
  | 11 => BoardType_ProcessorIoModule
  | 12 => BoardType_InterconnectBoard
  | _ => BoardType_Undefined v
  end.
Definition BoardType_has (k : N) : bool :=
  match k with
  | 13 => true
  | _ => false
  end.
Lemma BoardType_codec : codec BoardType_parts eq.
Proof. apply (variant_codec U8 BoardType_tag BoardType_value BoardType_back BoardType_has); intros []; reflexivity. Qed.

Definition EnclosureType_back (k v : N) : EnclosureType :=
  match k with
  | 0 => EnclosureType_Other
  | 1 => EnclosureType_Unknown
  | 2 => EnclosureType_Desktop
  | 3 => EnclosureType_LowProfileDesktop
  | 4 => EnclosureType_PizzaBox
  | 5 => EnclosureType_MiniTower
  | 6 => EnclosureType_Tower
  | 7 => EnclosureType_Portable
  | 8 => EnclosureType_Laptop
  | 9 => EnclosureType_Notebook
  | 10 => EnclosureType_HandHeld
  | 11 => EnclosureType_DockingStation
  | 12 => EnclosureType_AllInOne
  | 13 => EnclosureType_SubNotebook
  | 14 => EnclosureType_SpaceSaving
  | 15 => EnclosureType_LunchBox
  | 16 => EnclosureType_MainServerChassis
  | 17 => EnclosureType_ExpansionChassis
  | 18 => EnclosureType_SubChassis
  | 19 => EnclosureType_BusExpansionChassis
  | 20 => EnclosureType_PeripheralChassis
  | 21 => EnclosureType_RaidChassis
  | 22 => EnclosureType_RackMountChassis
  | 23 => EnclosureType_SealedCasePc
  | 24 => EnclosureType_MultiSystemChassis
  | 25 => EnclosureType_CompactPci
  | 26 => EnclosureType_AdvancedTca
  | 27 => EnclosureType_Blade
  | 28 => EnclosureType_BladeEnclosure
  | 29 => EnclosureType_Tablet
  | 30 => EnclosureType_Convertible
  | 31 => EnclosureType_Detachable
  | 32 => EnclosureType_IotGateway
  | 33 => EnclosureType_EmbeddedPc
  | 34 => EnclosureType_MiniPc
  | 35 => EnclosureType_StickPc
  | _ => EnclosureType_Undefined v
  end.
Definition EnclosureType_has (k : N) : bool :=
  match k with
  | 36 => true
  | _ => false
  end.
Lemma EnclosureType_codec : codec EnclosureType_parts eq.
Proof. apply (variant_codec U8 EnclosureType_tag EnclosureType_value EnclosureType_back EnclosureType_has); intros []; reflexivity. Qed.

Definition State_back (k v : N) : State :=
  match k with
  | 0 => State_Other
  | 1 => State_Unknown
  | 2 => State_Safe
  | 3 => State_Warning
  | 4 => State_Critical
  | 5 => State_NonRecoverable
  | _ => State_Undefined v
  end.
Definition State_has (k : N) : bool :=
  match k with
  | 6 => true
  | _ => false
  end.
Lemma State_codec : codec State_parts eq.
Proof. apply (variant_codec U8 State_tag State_value State_back State_has); intros []; reflexivity. Qed.

Definition SecurityStatus_back (k v : N) : SecurityStatus :=
  match k with
  | 0 => SecurityStatus_Other
  | 1 => SecurityStatus_Unknown
  | 2 => SecurityStatus_None
  | 3 => SecurityStatus_ExternalInterfaceLockedOut
  | 4 => SecurityStatus_ExternalInterfaceEnabled
  | _ => SecurityStatus_Undefined v
  end.
Definition SecurityStatus_has (k : N) : bool :=
  match k with
  | 5 => true
  | _ => false
  end.
Lemma SecurityStatus_codec : codec SecurityStatus_parts eq.
Proof. apply (variant_codec U8 SecurityStatus_tag SecurityStatus_value SecurityStatus_back SecurityStatus_has); intros []; reflexivity. Qed.

Definition ProcessorType_back (k v : N) : ProcessorType :=
  match k with
  | 0 => ProcessorType_Other
  | 1 => ProcessorType_Unknown
  | 2 => ProcessorType_CentralProcessor
  | 3 => ProcessorType_MathProcessor
  | 4 => ProcessorType_DspProcessor
  | 5 => ProcessorType_VideoProcessor
  | _ => ProcessorType_Undefined v
  end.
Definition ProcessorType_has (k : N) : bool :=
  match k with
  | 6 => true
  | _ => false
  end.
Lemma ProcessorType_codec : codec ProcessorType_parts eq.
Proof. apply (variant_codec U8 ProcessorType_tag ProcessorType_value ProcessorType_back ProcessorType_has); intros []; reflexivity. Qed.

Definition ProcessorFamily_back (k v : N) : ProcessorFamily :=
  match k with
  | 0 => ProcessorFamily_Other
  | 1 => ProcessorFamily_Unknown
  | 2 => ProcessorFamily_Intel8086
  | 3 => ProcessorFamily_Intel80286
  | 4 => ProcessorFamily_Intel386Processor
  | 5 => ProcessorFamily_Intel486Processor
  | 6 => ProcessorFamily_Intel8087
  | 7 => ProcessorFamily_Intel80287
  | 8 => ProcessorFamily_Intel80387
  | 9 => ProcessorFamily_Intel80487
  | 10 => ProcessorFamily_IntelPentiumProcessor
  | 11 => ProcessorFamily_PentiumProProcessor
  | 12 => ProcessorFamily_PentiumIIProcessor
  | 13 => ProcessorFamily_PentiumProcessorWithMMXTechnology
  | 14 => ProcessorFamily_IntelCeleronProcessor
  | 15 => ProcessorFamily_PentiumIIXeonProcessor
  | 16 => ProcessorFamily_PentiumIIIProcessor
  | 17 => ProcessorFamily_M1Family
  | 18 => ProcessorFamily_M2Family
  | 19 => ProcessorFamily_IntelCeleronMProcessor
  | 20 => ProcessorFamily_IntelPentium4HTProcessor
  | 21 => ProcessorFamily_AMDDuronProcessorFamily
  | 22 => ProcessorFamily_K5Family
  | 23 => ProcessorFamily_K6Family
  | 24 => ProcessorFamily_K62
  | 25 => ProcessorFamily_K63
  | 26 => ProcessorFamily_AMDAthlonProcessorFamily
  | 27 => ProcessorFamily_AMD29000Family
  | 28 => ProcessorFamily_K62Plus
  | 29 => ProcessorFamily_PowerPCFamily
  | 30 => ProcessorFamily_PowerPC601
  | 31 => ProcessorFamily_PowerPC603
  | 32 => ProcessorFamily_PowerPC603Plus
  | 33 => ProcessorFamily_PowerPC604
  | 34 => ProcessorFamily_PowerPC620
  | 35 => ProcessorFamily_PowerPCX704
  | 36 => ProcessorFamily_PowerPC750
  | 37 => ProcessorFamily_IntelCoreDuoProcessor
  | 38 => ProcessorFamily_IntelCoreDuoMobileProcessor
  | 39 => ProcessorFamily_IntelCoreSoloMobileProcessor
  | 40 => ProcessorFamily_IntelAtomProcessor
  | 41 => ProcessorFamily_IntelCoreMProcessor
  | 42 => ProcessorFamily_IntelCoreM3Processor
  | 43 => ProcessorFamily_IntelCoreM5Processor
  | 44 => ProcessorFamily_IntelCoreM7Processor
  | 45 => ProcessorFamily_AlphaFamily
  | 46 => ProcessorFamily_Alpha21064
  | 47 => ProcessorFamily_Alpha21066
  | 48 => ProcessorFamily_Alpha21164
  | 49 => ProcessorFamily_Alpha21164PC
  | 50 => ProcessorFamily_Alpha21164a
  | 51 => ProcessorFamily_Alpha21264
  | 52 => ProcessorFamily_Alpha21364
  | 53 => ProcessorFamily_AMDTurionIIUltraDualCoreMobileMProcessorFamily
  | 54 => ProcessorFamily_AMDTurionIIDualCoreMobileMProcessorFamily
  | 55 => ProcessorFamily_AMDAthlonIIDualCoreMProcessorFamily
  | 56 => ProcessorFamily_AMDOpteron6100SeriesProcessor
  | 57 => ProcessorFamily_AMDOpteron4100SeriesProcessor
  | 58 => ProcessorFamily_AMDOpteron6200SeriesProcessor
  | 59 => ProcessorFamily_AMDOpteron4200SeriesProcessor
  | 60 => ProcessorFamily_AMDFXSeriesProcessor
  | 61 => ProcessorFamily_MIPSFamily
  | 62 => ProcessorFamily_MIPSR4000
  | 63 => ProcessorFamily_MIPSR4200
  | 64 => ProcessorFamily_MIPSR4400
  | 65 => ProcessorFamily_MIPSR4600
  | 66 => ProcessorFamily_MIPSR10000
  | 67 => ProcessorFamily_AMDCSeriesProcessor
  | 68 => ProcessorFamily_AMDESeriesProcessor
  | 69 => ProcessorFamily_AMDASeriesProcessor
  | 70 => ProcessorFamily_AMDGSeriesProcessor
  | 71 => ProcessorFamily_AMDZSeriesProcessor
  | 72 => ProcessorFamily_AMDRSeriesProcessor
  | 73 => ProcessorFamily_AMDOpteron4300SeriesProcessor
  | 74 => ProcessorFamily_AMDOpteron6300SeriesProcessor
  | 75 => ProcessorFamily_AMDOpteron3300SeriesProcessor
  | 76 => ProcessorFamily_AMDFireProSeriesProcessor
  | 77 => ProcessorFamily_SPARCFamily
  | 78 => ProcessorFamily_SuperSPARC
  | 79 => ProcessorFamily_MicroSPARCII
  | 80 => ProcessorFamily_MicroSPARCIIep
  | 81 => ProcessorFamily_UltraSPARC
  | 82 => ProcessorFamily_UltraSPARCII
  | 83 => ProcessorFamily_UltraSPARCIii
  | 84 => ProcessorFamily_UltraSPARCIII
  | 85 => ProcessorFamily_UltraSPARCIIIi
  | 86 => ProcessorFamily_Motorola68040Family
  | 87 => ProcessorFamily_Motorola68xxx
  | 88 => ProcessorFamily_Motorola68000
  | 89 => ProcessorFamily_Motorola68010
  | 90 => ProcessorFamily_Motorola68020
  | 91 => ProcessorFamily_Motorola68030
  | 92 => ProcessorFamily_AMDAthlonX4QuadCoreProcessorFamily
  | 93 => ProcessorFamily_AMDOpteronX1000SeriesProcessor
  | 94 => ProcessorFamily_AMDOpteronX2000SeriesAPU
  | 95 => ProcessorFamily_AMDOpteronASeriesProcessor
  | 96 => ProcessorFamily_AMDOpteronX3000SeriesAPU
  | 97 => ProcessorFamily_AMDZenProcessorFamily
  | 98 => ProcessorFamily_HobbitFamily
  | 99 => ProcessorFamily_CrusoeTM5000Family
  | 100 => ProcessorFamily_CrusoeTM3000Family
  | 101 => ProcessorFamily_EfficeonTM8000Family
  | 102 => ProcessorFamily_Weitek
  | 103 => ProcessorFamily_AvailableForAssignment
  | 104 => ProcessorFamily_ItaniumProcessor
  | 105 => ProcessorFamily_AMDAthlon64ProcessorFamily
  | 106 => ProcessorFamily_AMDOpteronProcessorFamily
  | 107 => ProcessorFamily_AMDSempronProcessorFamily
  | 108 => ProcessorFamily_AMDTurion64MobileTechnology
  | 109 => ProcessorFamily_DualCoreAMDOpteronProcessorFamily
  | 110 => ProcessorFamily_AMDAthlon64X2DualCoreProcessorFamily
  | 111 => ProcessorFamily_AMDTurion64X2MobileTechnology
  | 112 => ProcessorFamily_QuadCoreAMDOpteronProcessorFamily
  | 113 => ProcessorFamily_ThirdGenerationAMDOpteronProcessorFamily
  | 114 => ProcessorFamily_AMDPhenomFXQuadCoreProcessorFamily
  | 115 => ProcessorFamily_AMDPhenomX4QuadCoreProcessorFamily
  | 116 => ProcessorFamily_AMDPhenomX2DualCoreProcessorFamily
  | 117 => ProcessorFamily_AMDAthlonX2DualCoreProcessorFamily
  | 118 => ProcessorFamily_PARISCFamily
  | 119 => ProcessorFamily_PARISC8500
  | 120 => ProcessorFamily_PARISC8000
  | 121 => ProcessorFamily_PARISC7300LC
  | 122 => ProcessorFamily_PARISC7200
  | 123 => ProcessorFamily_PARISC7100LC
  | 124 => ProcessorFamily_PARISC7100
  | 125 => ProcessorFamily_V30Family
  | 126 => ProcessorFamily_QuadCoreIntelXeonProcessor3200Series
  | 127 => ProcessorFamily_DualCoreIntelXeonProcessor3000Series
  | 128 => ProcessorFamily_QuadCoreIntelXeonProcessor5300Series
  | 129 => ProcessorFamily_DualCoreIntelXeonProcessor5100Series
  | 130 => ProcessorFamily_DualCoreIntelXeonProcessor5000Series
  | 131 => ProcessorFamily_DualCoreIntelXeonProcessorLV
  | 132 => ProcessorFamily_DualCoreIntelXeonProcessorULV
  | 133 => ProcessorFamily_DualCoreIntelXeonProcessor7100Series
  | 134 => ProcessorFamily_QuadCoreIntelXeonProcessor5400Series
  | 135 => ProcessorFamily_QuadCoreIntelXeonProcessor
  | 136 => ProcessorFamily_DualCoreIntelXeonProcessor5200Series
  | 137 => ProcessorFamily_DualCoreIntelXeonProcessor7200Series
  | 138 => ProcessorFamily_QuadCoreIntelXeonProcessor7300Series
  | 139 => ProcessorFamily_QuadCoreIntelXeonProcessor7400Series
  | 140 => ProcessorFamily_MultiCoreIntelXeonProcessor7400Series
  | 141 => ProcessorFamily_PentiumIIIXeonProcessor
  | 142 => ProcessorFamily_PentiumIIIProcessorWithIntelSpeedStepTechnology
  | 143 => ProcessorFamily_Pentium4Processor
  | 144 => ProcessorFamily_IntelXeonProcessor
  | 145 => ProcessorFamily_AS400Family
  | 146 => ProcessorFamily_IntelXeonProcessorMP
  | 147 => ProcessorFamily_AMDAthlonXPProcessorFamily
  | 148 => ProcessorFamily_AMDAthlonMPProcessorFamily
  | 149 => ProcessorFamily_IntelItanium2Processor
  | 150 => ProcessorFamily_IntelPentiumMProcessor
  | 151 => ProcessorFamily_IntelCeleronDProcessor
  | 152 => ProcessorFamily_IntelPentiumDProcessor
  | 153 => ProcessorFamily_IntelPentiumProcessorExtremeEdition
  | 154 => ProcessorFamily_IntelCoreSoloProcessor
  | 155 => ProcessorFamily_Ambiguous
  | 156 => ProcessorFamily_IntelCore2DuoProcessor
  | 157 => ProcessorFamily_IntelCore2SoloProcessor
  | 158 => ProcessorFamily_IntelCore2ExtremeProcessor
  | 159 => ProcessorFamily_IntelCore2QuadProcessor
  | 160 => ProcessorFamily_IntelCore2ExtremeMobileProcessor
  | 161 => ProcessorFamily_IntelCore2DuoMobileProcessor
  | 162 => ProcessorFamily_IntelCore2SoloMobileProcessor
  | 163 => ProcessorFamily_IntelCoreI7Processor
  | 164 => ProcessorFamily_DualCoreIntelCeleronProcessor
  | 165 => ProcessorFamily_IBM390Family
  | 166 => ProcessorFamily_G4
  | 167 => ProcessorFamily_G5
  | 168 => ProcessorFamily_ESA390G6
  | 169 => ProcessorFamily_ZArchitectureBase
  | 170 => ProcessorFamily_IntelCoreI5Processor
  | 171 => ProcessorFamily_IntelCoreI3Processor
  | 172 => ProcessorFamily_IntelCoreI9Processor
  | 173 => ProcessorFamily_VIAC7MProcessorFamily
  | 174 => ProcessorFamily_VIAC7DProcessorFamily
  | 175 => ProcessorFamily_VIAC7ProcessorFamily
  | 176 => ProcessorFamily_VIAEdenProcessorFamily
  | 177 => ProcessorFamily_MultiCoreIntelXeonProcessor
  | 178 => ProcessorFamily_DualCoreIntelXeonProcessor3xxxSeries
  | 179 => ProcessorFamily_QuadCoreIntelXeonProcessor3xxxSeries
  | 180 => ProcessorFamily_VIANanoProcessorFamily
  | 181 => ProcessorFamily_DualCoreIntelXeonProcessor5xxxSeries
  | 182 => ProcessorFamily_QuadCoreIntelXeonProcessor5xxxSeries
  | 183 => ProcessorFamily_DualCoreIntelXeonProcessor7xxxSeries
  | 184 => ProcessorFamily_QuadCoreIntelXeonProcessor7xxxSeries
  | 185 => ProcessorFamily_MultiCoreIntelXeonProcessor7xxxSeries
  | 186 => ProcessorFamily_MultiCoreIntelXeonProcessor3400Series
  | 187 => ProcessorFamily_AMDOpteron3000SeriesProcessor
  | 188 => ProcessorFamily_AMDSempronIIProcessor
  | 189 => ProcessorFamily_EmbeddedAMDOpteronQuadCoreProcessorFamily
  | 190 => ProcessorFamily_AMDPhenomTripleCoreProcessorFamily
  | 191 => ProcessorFamily_AMDTurionUltraDualCoreMobileProcessorFamily
  | 192 => ProcessorFamily_AMDTurionDualCoreMobileProcessorFamily
  | 193 => ProcessorFamily_AMDAthlonDualCoreProcessorFamily
  | 194 => ProcessorFamily_AMDSempronSIProcessorFamily
  | 195 => ProcessorFamily_AMDPhenomIIProcessorFamily
  | 196 => ProcessorFamily_AMDAthlonIIProcessorFamily
  | 197 => ProcessorFamily_SixCoreAMDOpteronProcessorFamily
  | 198 => ProcessorFamily_AMDSempronMProcessorFamily
  | 199 => ProcessorFamily_I860
  | 200 => ProcessorFamily_I960
  | 201 => ProcessorFamily_ARMv7
  | 202 => ProcessorFamily_ARMv8
  | 203 => ProcessorFamily_ARMv9
  | 204 => ProcessorFamily_SH3
  | 205 => ProcessorFamily_SH4
  | 206 => ProcessorFamily_ARM
  | 207 => ProcessorFamily_StrongARM
  | 208 => ProcessorFamily_Cyrix6x86
  | 209 => ProcessorFamily_MediaGX
  | 210 => ProcessorFamily_MII
  | 211 => ProcessorFamily_WinChip
  | 212 => ProcessorFamily_DSP
  | 213 => ProcessorFamily_VideoProcessor
  | 214 => ProcessorFamily_RISCVRV32
  | 215 => ProcessorFamily_RISCVRV64
  | 216 => ProcessorFamily_RISCVRV128
  | 217 => ProcessorFamily_Available v
  | 218 => ProcessorFamily_NotUsed v
  | 219 => ProcessorFamily_ForFutureUse
  | 220 => ProcessorFamily_ProcessorFamily2
  | _ => ProcessorFamily_OutOfSpec
  end.
Definition ProcessorFamily_has (k : N) : bool :=
  match k with
  | 217 | 218 => true
  | _ => false
  end.
Lemma ProcessorFamily_codec : codec ProcessorFamily_parts eq.
Proof. apply (variant_codec U16 ProcessorFamily_tag ProcessorFamily_value ProcessorFamily_back ProcessorFamily_has); intros []; reflexivity. Qed.

Definition ProcessorUpgrade_back (k v : N) : ProcessorUpgrade :=
  match k with
  | 0 => ProcessorUpgrade_Other
  | 1 => ProcessorUpgrade_Unknown
  | 2 => ProcessorUpgrade_DaughterBoard
  | 3 => ProcessorUpgrade_ZIFSocket
  | 4 => ProcessorUpgrade_ReplaceablePiggyBack
  | 5 => ProcessorUpgrade_None
  | 6 => ProcessorUpgrade_LIFSocket
  | 7 => ProcessorUpgrade_Slot1
  | 8 => ProcessorUpgrade_Slot2
  | 9 => ProcessorUpgrade_Socket370
  | 10 => ProcessorUpgrade_SlotA
  | 11 => ProcessorUpgrade_SlotM
  | 12 => ProcessorUpgrade_Socket423
  | 13 => ProcessorUpgrade_SocketA
  | 14 => ProcessorUpgrade_Socket478
  | 15 => ProcessorUpgrade_Socket754
  | 16 => ProcessorUpgrade_Socket940
  | 17 => ProcessorUpgrade_Socket939
  | 18 => ProcessorUpgrade_SocketmPGA604
  | 19 => ProcessorUpgrade_SocketLGA771
  | 20 => ProcessorUpgrade_SocketLGA775
  | 21 => ProcessorUpgrade_SocketS1
  | 22 => ProcessorUpgrade_SocketAM2
  | 23 => ProcessorUpgrade_SocketF
  | 24 => ProcessorUpgrade_SocketLGA1366
  | 25 => ProcessorUpgrade_SocketG34
  | 26 => ProcessorUpgrade_SocketAM3
  | 27 => ProcessorUpgrade_SocketC32
  | 28 => ProcessorUpgrade_SocketLGA1156
  | 29 => ProcessorUpgrade_SocketLGA1567
  | 30 => ProcessorUpgrade_SocketPGA988A
  | 31 => ProcessorUpgrade_SocketBGA1288
  | 32 => ProcessorUpgrade_SocketrPGA988B
  | 33 => ProcessorUpgrade_SocketBGA1023
  | 34 => ProcessorUpgrade_SocketBGA1224
  | 35 => ProcessorUpgrade_SocketLGA1155
  | 36 => ProcessorUpgrade_SocketLGA1356
  | 37 => ProcessorUpgrade_SocketLGA2011
  | 38 => ProcessorUpgrade_SocketFS1
  | 39 => ProcessorUpgrade_SocketFS2
  | 40 => ProcessorUpgrade_SocketFM1
  | 41 => ProcessorUpgrade_SocketFM2
  | 42 => ProcessorUpgrade_SocketLGA2011Three
  | 43 => ProcessorUpgrade_SocketLGA1356Three
  | 44 => ProcessorUpgrade_SocketLGA1150
  | 45 => ProcessorUpgrade_SocketBGA1168
  | 46 => ProcessorUpgrade_SocketBGA1234
  | 47 => ProcessorUpgrade_SocketBGA1364
  | 48 => ProcessorUpgrade_SocketAM4
  | 49 => ProcessorUpgrade_SocketLGA1151
  | 50 => ProcessorUpgrade_SocketBGA1356
  | 51 => ProcessorUpgrade_SocketBGA1440
  | 52 => ProcessorUpgrade_SocketBGA1515
  | 53 => ProcessorUpgrade_SocketLGA3647
  | 54 => ProcessorUpgrade_SocketSP3
  | 55 => ProcessorUpgrade_SocketSP3r2
  | 56 => ProcessorUpgrade_SocketLGA2066
  | 57 => ProcessorUpgrade_SocketBGA1392
  | 58 => ProcessorUpgrade_SocketBGA1510
  | 59 => ProcessorUpgrade_SocketBGA1528
  | 60 => ProcessorUpgrade_SocketLGA4189
  | 61 => ProcessorUpgrade_SocketLGA1200
  | _ => ProcessorUpgrade_Undefined v
  end.
Definition ProcessorUpgrade_has (k : N) : bool :=
  match k with
  | 62 => true
  | _ => false
  end.
Lemma ProcessorUpgrade_codec : codec ProcessorUpgrade_parts eq.
Proof. apply (variant_codec U8 ProcessorUpgrade_tag ProcessorUpgrade_value ProcessorUpgrade_back ProcessorUpgrade_has); intros []; reflexivity. Qed.

Definition CacheLevel_back (k v : N) : CacheLevel :=
  match k with
  | 0 => CacheLevel_L1
  | 1 => CacheLevel_L2
  | 2 => CacheLevel_L3
  | 3 => CacheLevel_L4
  | 4 => CacheLevel_L5
  | 5 => CacheLevel_L6
  | 6 => CacheLevel_L7
  | _ => CacheLevel_L8
  end.
Definition CacheLevel_has (k : N) : bool :=
  match k with
  | _ => false
  end.
Lemma CacheLevel_codec : codec CacheLevel_parts eq.
Proof. apply (variant_codec U8 CacheLevel_tag CacheLevel_value CacheLevel_back CacheLevel_has); intros []; reflexivity. Qed.

Definition CacheLocation_back (k v : N) : CacheLocation :=
  match k with
  | 0 => CacheLocation_Internal
  | 1 => CacheLocation_External
  | 2 => CacheLocation_Reserved
  | _ => CacheLocation_Unknown
  end.
Definition CacheLocation_has (k : N) : bool :=
  match k with
  | _ => false
  end.
Lemma CacheLocation_codec : codec CacheLocation_parts eq.
Proof. apply (variant_codec U8 CacheLocation_tag CacheLocation_value CacheLocation_back CacheLocation_has); intros []; reflexivity. Qed.

Definition CacheOperationalMode_back (k v : N) : CacheOperationalMode :=
  match k with
  | 0 => CacheOperationalMode_WriteThrough
  | 1 => CacheOperationalMode_WriteBack
  | 2 => CacheOperationalMode_ValuesWithMemoryAddress
  | _ => CacheOperationalMode_Unknown
  end.
Definition CacheOperationalMode_has (k : N) : bool :=
  match k with
  | _ => false
  end.
Lemma CacheOperationalMode_codec : codec CacheOperationalMode_parts eq.
Proof. apply (variant_codec U8 CacheOperationalMode_tag CacheOperationalMode_value CacheOperationalMode_back CacheOperationalMode_has); intros []; reflexivity. Qed.

Definition CacheErrorCorrectionType_back (k v : N) : CacheErrorCorrectionType :=
  match k with
  | 0 => CacheErrorCorrectionType_Other
  | 1 => CacheErrorCorrectionType_Unknown
  | 2 => CacheErrorCorrectionType_None
  | 3 => CacheErrorCorrectionType_Parity
  | 4 => CacheErrorCorrectionType_SingleBitEcc
  | 5 => CacheErrorCorrectionType_MultiBitEcc
  | _ => CacheErrorCorrectionType_Undefined v
  end.
Definition CacheErrorCorrectionType_has (k : N) : bool :=
  match k with
  | 6 => true
  | _ => false
  end.
Lemma CacheErrorCorrectionType_codec : codec CacheErrorCorrectionType_parts eq.
Proof. apply (variant_codec U8 CacheErrorCorrectionType_tag CacheErrorCorrectionType_value CacheErrorCorrectionType_back CacheErrorCorrectionType_has); intros []; reflexivity. Qed.

Definition SystemCacheType_back (k v : N) : SystemCacheType :=
  match k with
  | 0 => SystemCacheType_Other
  | 1 => SystemCacheType_Unknown
  | 2 => SystemCacheType_Instruction
  | 3 => SystemCacheType_Data
  | 4 => SystemCacheType_Unified
  | _ => SystemCacheType_Undefined v
  end.
Definition SystemCacheType_has (k : N) : bool :=
  match k with
  | 5 => true
  | _ => false
  end.
Lemma SystemCacheType_codec : codec SystemCacheType_parts eq.
Proof. apply (variant_codec U8 SystemCacheType_tag SystemCacheType_value SystemCacheType_back SystemCacheType_has); intros []; reflexivity. Qed.

Definition CacheAssociativity_back (k v : N) : CacheAssociativity :=
  match k with
  | 0 => CacheAssociativity_Other
  | 1 => CacheAssociativity_Unknown
  | 2 => CacheAssociativity_DirectMapped
  | 3 => CacheAssociativity_TwowaySetAssociative
  | 4 => CacheAssociativity_FourWaySetAssociative
  | 5 => CacheAssociativity_FullyAssociative
  | 6 => CacheAssociativity_EightWaySetAssociative
  | 7 => CacheAssociativity_SixteenWaySetAssociative
  | 8 => CacheAssociativity_TwelveWaySetAssociative
  | 9 => CacheAssociativity_TwentyFourWaySetAssociative
  | 10 => CacheAssociativity_ThirtyTwoWaySetAssociative
  | 11 => CacheAssociativity_FourtyEightWaySetAssociative
  | 12 => CacheAssociativity_SixtyFourWaySetAssociative
  | 13 => CacheAssociativity_TwentyWaySetAssociative
  | _ => CacheAssociativity_Undefined v
  end.
Definition CacheAssociativity_has (k : N) : bool :=
  match k with
  | 14 => true
  | _ => false
  end.
Lemma CacheAssociativity_codec : codec CacheAssociativity_parts eq.
Proof. apply (variant_codec U8 CacheAssociativity_tag CacheAssociativity_value CacheAssociativity_back CacheAssociativity_has); intros []; reflexivity. Qed.

Definition ConnectorType_back (k v : N) : ConnectorType :=
  match k with
  | 0 => ConnectorType_None
  | 1 => ConnectorType_Centronics
  | 2 => ConnectorType_MiniCentronics
  | 3 => ConnectorType_Proprietary
  | 4 => ConnectorType_Db25PinMale
  | 5 => ConnectorType_Db25PinFemale
  | 6 => ConnectorType_Db15PinMale
  | 7 => ConnectorType_Db15PinFemale
  | 8 => ConnectorType_Db9PinMale
  | 9 => ConnectorType_Db9PinFemale
  | 10 => ConnectorType_Rj11
  | 11 => ConnectorType_Rj45
  | 12 => ConnectorType_MiniScsi
  | 13 => ConnectorType_MiniDin
  | 14 => ConnectorType_MicroDin
  | 15 => ConnectorType_Ps2
  | 16 => ConnectorType_Infrared
  | 17 => ConnectorType_HpHil
  | 18 => ConnectorType_AccessBus
  | 19 => ConnectorType_SsaScsi
  | 20 => ConnectorType_CircularDin8Male
  | 21 => ConnectorType_CircularDin8Female
  | 22 => ConnectorType_OnBoardIde
  | 23 => ConnectorType_OnBoardFloppy
  | 24 => ConnectorType_DualInline9
  | 25 => ConnectorType_DualInline25
  | 26 => ConnectorType_DualInline50
  | 27 => ConnectorType_DualInline68
  | 28 => ConnectorType_OnBoardSoundInputFromCdRom
  | 29 => ConnectorType_MiniCentronicsType14
  | 30 => ConnectorType_MiniCentronicsType26
  | 31 => ConnectorType_MiniJack
  | 32 => ConnectorType_Bnc
  | 33 => ConnectorType_Ieee1394
  | 34 => ConnectorType_SasSataPlugReceptacle
  | 35 => ConnectorType_UsbTypeCReceptacle
  | 36 => ConnectorType_Pc98
  | 37 => ConnectorType_Pc98Hireso
  | 38 => ConnectorType_PcH98
  | 39 => ConnectorType_Pc98Note
  | 40 => ConnectorType_Pc98Full
  | 41 => ConnectorType_Other
  | _ => ConnectorType_Undefined v
  end.
Definition ConnectorType_has (k : N) : bool :=
  match k with
  | 42 => true
  | _ => false
  end.
Lemma ConnectorType_codec : codec ConnectorType_parts eq.
Proof. apply (variant_codec U8 ConnectorType_tag ConnectorType_value ConnectorType_back ConnectorType_has); intros []; reflexivity. Qed.

Definition PortType_back (k v : N) : PortType :=
  match k with
  | 0 => PortType_None
  | 1 => PortType_ParallelPortXtAtCompatible
  | 2 => PortType_ParallelPortPs2
  | 3 => PortType_ParallelPortEcp
  | 4 => PortType_ParallelPortEpp
  | 5 => PortType_ParallelPortEcpEpp
  | 6 => PortType_SerialPortXtAtCompatible
  | 7 => PortType_SerialPort16450Compatible
  | 8 => PortType_SerialPort16550Compatible
  | 9 => PortType_SerialPort16550ACompatible
  | 10 => PortType_ScsiPort
  | 11 => PortType_MidiPort
  | 12 => PortType_JoyStickPort
  | 13 => PortType_KeyboardPort
  | 14 => PortType_MousePort
  | 15 => PortType_SsaScsi
  | 16 => PortType_Usb
  | 17 => PortType_FireWire
  | 18 => PortType_PcmciaType1
  | 19 => PortType_PcmciaType2
  | 20 => PortType_PcmciaType3
  | 21 => PortType_Cardbus
  | 22 => PortType_AccessBusPort
  | 23 => PortType_Scsi2
  | 24 => PortType_ScsiWide
  | 25 => PortType_Pc98
  | 26 => PortType_Pc98Hireso
  | 27 => PortType_PcH98
  | 28 => PortType_VideoPort
  | 29 => PortType_AudioPort
  | 30 => PortType_ModemPort
  | 31 => PortType_NetworkPort
  | 32 => PortType_Sata
  | 33 => PortType_Sas
  | 34 => PortType_MultiFunctionDisplayPort
  | 35 => PortType_Thunderbolt
  | 36 => PortType_Intel8251Compatible
  | 37 => PortType_Intel8251FifoCompatible
  | 38 => PortType_Other
  | _ => PortType_Undefined v
  end.
Definition PortType_has (k : N) : bool :=
  match k with
  | 39 => true
  | _ => false
  end.
Lemma PortType_codec : codec PortType_parts eq.
Proof. apply (variant_codec U8 PortType_tag PortType_value PortType_back PortType_has); intros []; reflexivity. Qed.

Definition SlotType_back (k v : N) : SlotType :=
  match k with
  | 0 => SlotType_Other
  | 1 => SlotType_Unknown
  | 2 => SlotType_Isa
  | 3 => SlotType_Mca
  | 4 => SlotType_Eisa
  | 5 => SlotType_Pci
  | 6 => SlotType_PcCard
  | 7 => SlotType_VlVesa
  | 8 => SlotType_Proprietary
  | 9 => SlotType_ProcessorCardSlot
  | 10 => SlotType_ProprietaryMemoryCardSlot
  | 11 => SlotType_IoRiserCardSlot
  | 12 => SlotType_Nubus
  | 13 => SlotType_Pci66Mhz
  | 14 => SlotType_Agp
  | 15 => SlotType_Agp2x
  | 16 => SlotType_Agp4x
  | 17 => SlotType_PciX
  | 18 => SlotType_Agp8x
  | 19 => SlotType_M2Socket1DP
  | 20 => SlotType_M2Socket1SD
  | 21 => SlotType_M2Socket2
  | 22 => SlotType_M2Socket3
  | 23 => SlotType_MxmType1
  | 24 => SlotType_MxmType2
  | 25 => SlotType_MxmType3
  | 26 => SlotType_MxmType3He
  | 27 => SlotType_MxmType4
  | 28 => SlotType_Mxm3TypeA
  | 29 => SlotType_Mxm3TypeB
  | 30 => SlotType_U2PciExpressGen2
  | 31 => SlotType_U2PciExpressGen3
  | 32 => SlotType_PciExpressMini52pin1
  | 33 => SlotType_PciExpressMini52pin2
  | 34 => SlotType_PciExpressMini76pin
  | 35 => SlotType_U2PciExpressGen4
  | 36 => SlotType_U2PciExpressGen5
  | 37 => SlotType_OcpNic3Small
  | 38 => SlotType_OcpNic3Large
  | 39 => SlotType_OcpNicPriorTo3
  | 40 => SlotType_CxlFlexbus1
  | 41 => SlotType_Pc98C20
  | 42 => SlotType_Pc98C24
  | 43 => SlotType_Pc98E
  | 44 => SlotType_Pc98LocalBus
  | 45 => SlotType_Pc98Card
  | 46 => SlotType_PciExpress
  | 47 => SlotType_PciExpressX1
  | 48 => SlotType_PciExpressX2
  | 49 => SlotType_PciExpressX4
  | 50 => SlotType_PciExpressX8
  | 51 => SlotType_PciExpressX16
  | 52 => SlotType_PciExpressGen2
  | 53 => SlotType_PciExpressGen2x1
  | 54 => SlotType_PciExpressGen2x2
  | 55 => SlotType_PciExpressGen2x4
  | 56 => SlotType_PciExpressGen2x8
  | 57 => SlotType_PciExpressGen2x16
  | 58 => SlotType_PciExpressGen3
  | 59 => SlotType_PciExpressGen3x1
  | 60 => SlotType_PciExpressGen3x2
  | 61 => SlotType_PciExpressGen3x4
  | 62 => SlotType_PciExpressGen3x8
  | 63 => SlotType_PciExpressGen3x16
  | 64 => SlotType_PciExpressGen4
  | 65 => SlotType_PciExpressGen4x1
  | 66 => SlotType_PciExpressGen4x2
  | 67 => SlotType_PciExpressGen4x4
  | 68 => SlotType_PciExpressGen4x8
  | 69 => SlotType_PciExpressGen4x16
  | 70 => SlotType_PciExpressGen5
  | 71 => SlotType_PciExpressGen5x1
  | 72 => SlotType_PciExpressGen5x2
  | 73 => SlotType_PciExpressGen5x4
  | 74 => SlotType_PciExpressGen5x8
  | 75 => SlotType_PciExpressGen5x16
  | 76 => SlotType_PciExpressGen6
  | 77 => SlotType_E1FormFactorSlot
  | 78 => SlotType_E3FormFactorSlot
  | _ => SlotType_Undefined v
  end.
Definition SlotType_has (k : N) : bool :=
  match k with
  | 79 => true
  | _ => false
  end.
Lemma SlotType_codec : codec SlotType_parts eq.
Proof. apply (variant_codec U8 SlotType_tag SlotType_value SlotType_back SlotType_has); intros []; reflexivity. Qed.

Definition SlotWidth_back (k v : N) : SlotWidth :=
  match k with
  | 0 => SlotWidth_Other
  | 1 => SlotWidth_Unknown
  | 2 => SlotWidth_Byte
  | 3 => SlotWidth_Word
  | 4 => SlotWidth_Dword
  | 5 => SlotWidth_Qword
  | 6 => SlotWidth_Dqword
  | 7 => SlotWidth_X1
  | 8 => SlotWidth_X2
  | 9 => SlotWidth_X4
  | 10 => SlotWidth_X8
  | 11 => SlotWidth_X12
  | 12 => SlotWidth_X16
  | 13 => SlotWidth_X32
  | _ => SlotWidth_Undefined v
  end.
Definition SlotWidth_has (k : N) : bool :=
  match k with
  | 14 => true
  | _ => false
  end.
Lemma SlotWidth_codec : codec SlotWidth_parts eq.
Proof. apply (variant_codec U8 SlotWidth_tag SlotWidth_value SlotWidth_back SlotWidth_has); intros []; reflexivity. Qed.

Definition CurrentUsage_back (k v : N) : CurrentUsage :=
  match k with
  | 0 => CurrentUsage_Other
  | 1 => CurrentUsage_Unknown
  | 2 => CurrentUsage_Available
  | 3 => CurrentUsage_InUse
  | 4 => CurrentUsage_Unavailable
  | _ => CurrentUsage_Undefined v
  end.
Definition CurrentUsage_has (k : N) : bool :=
  match k with
  | 5 => true
  | _ => false
  end.
Lemma CurrentUsage_codec : codec CurrentUsage_parts eq.
Proof. apply (variant_codec U8 CurrentUsage_tag CurrentUsage_value CurrentUsage_back CurrentUsage_has); intros []; reflexivity. Qed.

Definition SlotLength_back (k v : N) : SlotLength :=
  match k with
  | 0 => SlotLength_Other
  | 1 => SlotLength_Unknown
  | 2 => SlotLength_ShortLength
  | 3 => SlotLength_LongLength
  | 4 => SlotLength_DriveFormFactor2_5
  | 5 => SlotLength_DriveFormFactor3_5
  | _ => SlotLength_Undefined v
  end.
Definition SlotLength_has (k : N) : bool :=
  match k with
  | 6 => true
  | _ => false
  end.
Lemma SlotLength_codec : codec SlotLength_parts eq.
Proof. apply (variant_codec U8 SlotLength_tag SlotLength_value SlotLength_back SlotLength_has); intros []; reflexivity. Qed.

Definition EventLogType_back (k v : N) : EventLogType :=
  match k with
  | 0 => EventLogType_Reserved v
  | 1 => EventLogType_SingleBitEccMemoryError
  | 2 => EventLogType_MultiBitEccMemoryError
  | 3 => EventLogType_ParityMemoryError
  | 4 => EventLogType_BusTimeOut
  | 5 => EventLogType_IoChannelCheck
  | 6 => EventLogType_SoftwareNmi
  | 7 => EventLogType_PostMemoryResize
  | 8 => EventLogType_PostError
  | 9 => EventLogType_PciParityError
  | 10 => EventLogType_PciSystemError
  | 11 => EventLogType_CpuFailure
  | 12 => EventLogType_EisaFailSafeTimerTimeOut
  | 13 => EventLogType_CorrectableMemoryLogDisabled
  | 14 => EventLogType_LoggingDisabledForSpecificEventType
  | 15 => EventLogType_SystemLimitExceeded
  | 16 => EventLogType_AsynchronousHardwareTimerExpired
  | 17 => EventLogType_SystemConfigurationInformation
  | 18 => EventLogType_HardDiskInformation
  | 19 => EventLogType_SystemReconfigured
  | 20 => EventLogType_UncorrectableCpuComplexError
  | 21 => EventLogType_LogAreaReset
  | 22 => EventLogType_SystemBoot
  | 23 => EventLogType_Unused v
  | 24 => EventLogType_Available v
  | _ => EventLogType_EndOfLog
  end.
Definition EventLogType_has (k : N) : bool :=
  match k with
  | 0 | 23 | 24 => true
  | _ => false
  end.
Lemma EventLogType_codec : codec EventLogType_parts eq.
Proof. apply (variant_codec U8 EventLogType_tag EventLogType_value EventLogType_back EventLogType_has); intros []; reflexivity. Qed.

Definition LogHeaderFormat_back (k v : N) : LogHeaderFormat :=
  match k with
  | 0 => LogHeaderFormat_NoHeader
  | 1 => LogHeaderFormat_LogHeaderType1
  | 2 => LogHeaderFormat_Available v
  | _ => LogHeaderFormat_OemSpecific v
  end.
Definition LogHeaderFormat_has (k : N) : bool :=
  match k with
  | 2 | 3 => true
  | _ => false
  end.
Lemma LogHeaderFormat_codec : codec LogHeaderFormat_parts eq.
Proof. apply (variant_codec U8 LogHeaderFormat_tag LogHeaderFormat_value LogHeaderFormat_back LogHeaderFormat_has); intros []; reflexivity. Qed.

Definition MemoryArrayLocation_back (k v : N) : MemoryArrayLocation :=
  match k with
  | 0 => MemoryArrayLocation_Other
  | 1 => MemoryArrayLocation_Unknown
  | 2 => MemoryArrayLocation_SystemBoardOrMotherboard
  | 3 => MemoryArrayLocation_IsaAddOnCard
  | 4 => MemoryArrayLocation_EisaAddOnCard
  | 5 => MemoryArrayLocation_PciAddOnCard
  | 6 => MemoryArrayLocation_McaAddOnCard
  | 7 => MemoryArrayLocation_PcmciaAddOnCard
  | 8 => MemoryArrayLocation_ProprietaryAddOnCard
  | 9 => MemoryArrayLocation_NuBus
  | 10 => MemoryArrayLocation_Pc98c20AddOnCard
  | 11 => MemoryArrayLocation_Pc98c24AddOnCard
  | 12 => MemoryArrayLocation_Pc98eAddOnCard
  | 13 => MemoryArrayLocation_Pc98LocalBusAddOnCard
  | 14 => MemoryArrayLocation_CxlAddOnCard
  | _ => MemoryArrayLocation_Undefined v
  end.
Definition MemoryArrayLocation_has (k : N) : bool :=
  match k with
  | 15 => true
  | _ => false
  end.
Lemma MemoryArrayLocation_codec : codec MemoryArrayLocation_parts eq.
Proof. apply (variant_codec U8 MemoryArrayLocation_tag MemoryArrayLocation_value MemoryArrayLocation_back MemoryArrayLocation_has); intros []; reflexivity. Qed.

Definition MemoryArrayUse_back (k v : N) : MemoryArrayUse :=
  match k with
  | 0 => MemoryArrayUse_Other
  | 1 => MemoryArrayUse_Unknown
  | 2 => MemoryArrayUse_SystemMemory
  | 3 => MemoryArrayUse_VideoMemory
  | 4 => MemoryArrayUse_FlashMemory
  | 5 => MemoryArrayUse_NonVolatileRam
  | 6 => MemoryArrayUse_CacheMemory
  | _ => MemoryArrayUse_Undefined v
  end.
Definition MemoryArrayUse_has (k : N) : bool :=
  match k with
  | 7 => true
  | _ => false
  end.
Lemma MemoryArrayUse_codec : codec MemoryArrayUse_parts eq.
Proof. apply (variant_codec U8 MemoryArrayUse_tag MemoryArrayUse_value MemoryArrayUse_back MemoryArrayUse_has); intros []; reflexivity. Qed.

Definition MemoryArrayErrorCorrectionTypes_back (k v : N) : MemoryArrayErrorCorrectionTypes :=
  match k with
  | 0 => MemoryArrayErrorCorrectionTypes_Other
  | 1 => MemoryArrayErrorCorrectionTypes_Unknown
  | 2 => MemoryArrayErrorCorrectionTypes_None
  | 3 => MemoryArrayErrorCorrectionTypes_Parity
  | 4 => MemoryArrayErrorCorrectionTypes_SingleBitEcc
  | 5 => MemoryArrayErrorCorrectionTypes_MultiBitEcc
  | 6 => MemoryArrayErrorCorrectionTypes_CRC
  | _ => MemoryArrayErrorCorrectionTypes_Undefined v
  end.
Definition MemoryArrayErrorCorrectionTypes_has (k : N) : bool :=
  match k with
  | 7 => true
  | _ => false
  end.
Lemma MemoryArrayErrorCorrectionTypes_codec : codec MemoryArrayErrorCorrectionTypes_parts eq.
Proof. apply (variant_codec U8 MemoryArrayErrorCorrectionTypes_tag MemoryArrayErrorCorrectionTypes_value MemoryArrayErrorCorrectionTypes_back MemoryArrayErrorCorrectionTypes_has); intros []; reflexivity. Qed.

Definition MDErrorGranularity_back (k v : N) : MDErrorGranularity :=
  match k with
  | 0 => MDErrorGranularity_Other
  | 1 => MDErrorGranularity_Unknown
  | 2 => MDErrorGranularity_DeviceLevel
  | 3 => MDErrorGranularity_MemoryLevel
  | _ => MDErrorGranularity_Undefined v
  end.
Definition MDErrorGranularity_has (k : N) : bool :=
  match k with
  | 4 => true
  | _ => false
  end.
Lemma MDErrorGranularity_codec : codec MDErrorGranularity_parts eq.
Proof. apply (variant_codec U8 MDErrorGranularity_tag MDErrorGranularity_value MDErrorGranularity_back MDErrorGranularity_has); intros []; reflexivity. Qed.

Definition MDErrorOperation_back (k v : N) : MDErrorOperation :=
  match k with
  | 0 => MDErrorOperation_Other
  | 1 => MDErrorOperation_Unknown
  | 2 => MDErrorOperation_Read
  | 3 => MDErrorOperation_Write
  | 4 => MDErrorOperation_PartialWrite
  | _ => MDErrorOperation_Undefined v
  end.
Definition MDErrorOperation_has (k : N) : bool :=
  match k with
  | 5 => true
  | _ => false
  end.
Lemma MDErrorOperation_codec : codec MDErrorOperation_parts eq.
Proof. apply (variant_codec U8 MDErrorOperation_tag MDErrorOperation_value MDErrorOperation_back MDErrorOperation_has); intros []; reflexivity. Qed.

Definition MDErrorType_back (k v : N) : MDErrorType :=
  match k with
  | 0 => MDErrorType_Other
  | 1 => MDErrorType_Unknown
  | 2 => MDErrorType_Ok
  | 3 => MDErrorType_BadRead
  | 4 => MDErrorType_Parity
  | 5 => MDErrorType_SingleBit
  | 6 => MDErrorType_DoubleBit
  | 7 => MDErrorType_MultiBit
  | 8 => MDErrorType_Nibble
  | 9 => MDErrorType_Checksum
  | 10 => MDErrorType_Crc
  | 11 => MDErrorType_CorrectedSingleBit
  | 12 => MDErrorType_Corrected
  | 13 => MDErrorType_Uncorrectable
  | _ => MDErrorType_Undefined v
  end.
Definition MDErrorType_has (k : N) : bool :=
  match k with
  | 14 => true
  | _ => false
  end.
Lemma MDErrorType_codec : codec MDErrorType_parts eq.
Proof. apply (variant_codec U8 MDErrorType_tag MDErrorType_value MDErrorType_back MDErrorType_has); intros []; reflexivity. Qed.

Definition FormFactor_back (k v : N) : FormFactor :=
  match k with
  | 0 => FormFactor_Other
  | 1 => FormFactor_Unknown
  | 2 => FormFactor_Simm
  | 3 => FormFactor_Sip
  | 4 => FormFactor_Chip
  | 5 => FormFactor_Dip
  | 6 => FormFactor_Zip
  | 7 => FormFactor_ProprietaryCard
  | 8 => FormFactor_Dimm
  | 9 => FormFactor_Tsop
  | 10 => FormFactor_RowOfChips
  | 11 => FormFactor_Rimm
  | 12 => FormFactor_SoDimm
  | 13 => FormFactor_Srimm
  | 14 => FormFactor_FbDimm
  | _ => FormFactor_Undefined v
  end.
Definition FormFactor_has (k : N) : bool :=
  match k with
  | 15 => true
  | _ => false
  end.
Lemma FormFactor_codec : codec FormFactor_parts eq.
Proof. apply (variant_codec U8 FormFactor_tag FormFactor_value FormFactor_back FormFactor_has); intros []; reflexivity. Qed.

Definition MemoryTechnology_back (k v : N) : MemoryTechnology :=
  match k with
  | 0 => MemoryTechnology_Other
  | 1 => MemoryTechnology_Unknown
  | 2 => MemoryTechnology_Dram
  | 3 => MemoryTechnology_NvDimmN
  | 4 => MemoryTechnology_NvDimmF
  | 5 => MemoryTechnology_NvDimmP
  | 6 => MemoryTechnology_IntelOptane
  | _ => MemoryTechnology_Undefined v
  end.
Definition MemoryTechnology_has (k : N) : bool :=
  match k with
  | 7 => true
  | _ => false
  end.
Lemma MemoryTechnology_codec : codec MemoryTechnology_parts eq.
Proof. apply (variant_codec U8 MemoryTechnology_tag MemoryTechnology_value MemoryTechnology_back MemoryTechnology_has); intros []; reflexivity. Qed.

Definition MemoryType_back (k v : N) : MemoryType :=
  match k with
  | 0 => MemoryType_Other
  | 1 => MemoryType_Unknown
  | 2 => MemoryType_Dram
  | 3 => MemoryType_Edram
  | 4 => MemoryType_Vram
  | 5 => MemoryType_Sram
  | 6 => MemoryType_Ram
  | 7 => MemoryType_Rom
  | 8 => MemoryType_Flash
  | 9 => MemoryType_Eeprom
  | 10 => MemoryType_Feprom
  | 11 => MemoryType_Eprom
  | 12 => MemoryType_Cdram
  | 13 => MemoryType_ThreeDram
  | 14 => MemoryType_Sdram
  | 15 => MemoryType_Sgram
  | 16 => MemoryType_Rdram
  | 17 => MemoryType_Ddr
  | 18 => MemoryType_Ddr2
  | 19 => MemoryType_Ddr2FbDimm
  | 20 => MemoryType_Reserved
  | 21 => MemoryType_Ddr3
  | 22 => MemoryType_Fbd2
  | 23 => MemoryType_Ddr4
  | 24 => MemoryType_Ddr5
  | 25 => MemoryType_LpDdr
  | 26 => MemoryType_LpDdr2
  | 27 => MemoryType_LpDdr3
  | 28 => MemoryType_LpDdr4
  | 29 => MemoryType_LpDdr5
  | 30 => MemoryType_LogicalNonVolatileDevice
  | 31 => MemoryType_Hbm
  | 32 => MemoryType_Hbm2
  | _ => MemoryType_Undefined v
  end.
Definition MemoryType_has (k : N) : bool :=
  match k with
  | 33 => true
  | _ => false
  end.
Lemma MemoryType_codec : codec MemoryType_parts eq.
Proof. apply (variant_codec U8 MemoryType_tag MemoryType_value MemoryType_back MemoryType_has); intros []; reflexivity. Qed.

Definition MEErrorType_back (k v : N) : MEErrorType :=
  match k with
  | 0 => MEErrorType_Other
  | 1 => MEErrorType_Unknown
  | 2 => MEErrorType_Ok
  | 3 => MEErrorType_BadRead
  | 4 => MEErrorType_ParityError
  | 5 => MEErrorType_SingleBitError
  | 6 => MEErrorType_DoubleBitError
  | 7 => MEErrorType_MultiBitError
  | 8 => MEErrorType_NibbleError
  | 9 => MEErrorType_ChecksumError
  | 10 => MEErrorType_CrcError
  | 11 => MEErrorType_CorrectedSingleBitError
  | 12 => MEErrorType_CorrectedError
  | 13 => MEErrorType_UncorrectableError
  | _ => MEErrorType_Undefined v
  end.
Definition MEErrorType_has (k : N) : bool :=
  match k with
  | 14 => true
  | _ => false
  end.
Lemma MEErrorType_codec : codec MEErrorType_parts eq.
Proof. apply (variant_codec U8 MEErrorType_tag MEErrorType_value MEErrorType_back MEErrorType_has); intros []; reflexivity. Qed.

Definition MEErrorGranularity_back (k v : N) : MEErrorGranularity :=
  match k with
  | 0 => MEErrorGranularity_Other
  | 1 => MEErrorGranularity_Unknown
  | 2 => MEErrorGranularity_DeviceLevel
  | 3 => MEErrorGranularity_MemoryPartitionLevel
  | _ => MEErrorGranularity_Undefined v
  end.
Definition MEErrorGranularity_has (k : N) : bool :=
  match k with
  | 4 => true
  | _ => false
  end.
Lemma MEErrorGranularity_codec : codec MEErrorGranularity_parts eq.
Proof. apply (variant_codec U8 MEErrorGranularity_tag MEErrorGranularity_value MEErrorGranularity_back MEErrorGranularity_has); intros []; reflexivity. Qed.

Definition MEErrorOperation_back (k v : N) : MEErrorOperation :=
  match k with
  | 0 => MEErrorOperation_Other
  | 1 => MEErrorOperation_Unknown
  | 2 => MEErrorOperation_Read
  | 3 => MEErrorOperation_Write
  | 4 => MEErrorOperation_PartialWrite
  | _ => MEErrorOperation_Undefined v
  end.
Definition MEErrorOperation_has (k : N) : bool :=
  match k with
  | 5 => true
  | _ => false
  end.
Lemma MEErrorOperation_codec : codec MEErrorOperation_parts eq.
Proof. apply (variant_codec U8 MEErrorOperation_tag MEErrorOperation_value MEErrorOperation_back MEErrorOperation_has); intros []; reflexivity. Qed.

Definition PointingDeviceType_back (k v : N) : PointingDeviceType :=
  match k with
  | 0 => PointingDeviceType_Other
  | 1 => PointingDeviceType_Unknown
  | 2 => PointingDeviceType_Mouse
  | 3 => PointingDeviceType_TrackBall
  | 4 => PointingDeviceType_TrackPoint
  | 5 => PointingDeviceType_GlidePoint
  | 6 => PointingDeviceType_TouchPad
  | 7 => PointingDeviceType_TouchScreen
  | 8 => PointingDeviceType_OpticalSensor
  | _ => PointingDeviceType_Undefined v
  end.
Definition PointingDeviceType_has (k : N) : bool :=
  match k with
  | 9 => true
  | _ => false
  end.
Lemma PointingDeviceType_codec : codec PointingDeviceType_parts eq.
Proof. apply (variant_codec U8 PointingDeviceType_tag PointingDeviceType_value PointingDeviceType_back PointingDeviceType_has); intros []; reflexivity. Qed.

Definition PointingDeviceInterface_back (k v : N) : PointingDeviceInterface :=
  match k with
  | 0 => PointingDeviceInterface_Other
  | 1 => PointingDeviceInterface_Unknown
  | 2 => PointingDeviceInterface_Serial
  | 3 => PointingDeviceInterface_Ps2
  | 4 => PointingDeviceInterface_Infrared
  | 5 => PointingDeviceInterface_HpHil
  | 6 => PointingDeviceInterface_BusMouse
  | 7 => PointingDeviceInterface_Adb
  | 8 => PointingDeviceInterface_BusMouseDb9
  | 9 => PointingDeviceInterface_BusMouseMicroDin
  | 10 => PointingDeviceInterface_Usb
  | _ => PointingDeviceInterface_Undefined v
  end.
Definition PointingDeviceInterface_has (k : N) : bool :=
  match k with
  | 11 => true
  | _ => false
  end.
Lemma PointingDeviceInterface_codec : codec PointingDeviceInterface_parts eq.
Proof. apply (variant_codec U8 PointingDeviceInterface_tag PointingDeviceInterface_value PointingDeviceInterface_back PointingDeviceInterface_has); intros []; reflexivity. Qed.

Lemma SmbiosVersion_codec : codec SmbiosVersion_parts eq.
Proof. record_codec (then_codec (on_codec major (num_codec U8))
  (on_codec minor (num_codec U8))). Qed.

Lemma StructureStrings_codec : codec StructureStrings_parts eq.
Proof. record_codec (then_codec (on_codec bytes slice_codec)
  (on_codec start (num_codec Usize))). Qed.

Lemma Revision_codec : codec Revision_parts eq.
Proof. record_codec (then_codec (on_codec rev_major (num_codec U8))
  (on_codec rev_minor (num_codec U8))). Qed.

Lemma RomSize_codec : codec RomSize_parts eq.
Proof. record_codec (then_codec (on_codec basic (num_codec U8))
  (on_codec extended (option_codec (num_codec U16)))). Qed.

Lemma Bios_codec : codec Bios_parts eq.
Proof. record_codec (then_codec (on_codec bios_handle (num_codec U16))
  (then_codec (on_codec bios_vendor str_codec)
  (then_codec (on_codec bios_bios_version str_codec)
  (then_codec (on_codec bios_starting_address_segment (num_codec U16))
  (then_codec (on_codec bios_release_date str_codec)
  (then_codec (on_codec bios_rom_size RomSize_codec)
  (then_codec (on_codec bios_characteristics (num_codec U64))
  (then_codec (on_codec bios_characteristics_extension_1 (option_codec (num_codec U8)))
  (then_codec (on_codec bios_characteristics_extension_2 (option_codec (num_codec U8)))
  (then_codec (on_codec bios_revision (option_codec Revision_codec))
  (on_codec bios_firmware_revision (option_codec Revision_codec)))))))))))). Qed.

Lemma System_codec : codec System_parts eq.
Proof. record_codec (then_codec (on_codec system_handle (num_codec U16))
  (then_codec (on_codec system_manufacturer str_codec)
  (then_codec (on_codec system_product str_codec)
  (then_codec (on_codec system_version str_codec)
  (then_codec (on_codec system_serial str_codec)
  (then_codec (on_codec system_uuid (option_codec slice_codec))
  (then_codec (on_codec system_wakeup (option_codec WakeupType_codec))
  (then_codec (on_codec system_sku (option_codec str_codec))
  (on_codec system_family (option_codec str_codec)))))))))). Qed.

Lemma BaseBoard_codec : codec BaseBoard_parts eq.
Proof. record_codec (then_codec (on_codec baseboard_handle (num_codec U16))
  (then_codec (on_codec baseboard_manufacturer str_codec)
  (then_codec (on_codec baseboard_product str_codec)
  (then_codec (on_codec baseboard_version str_codec)
  (then_codec (on_codec baseboard_serial str_codec)
  (then_codec (on_codec baseboard_asset (option_codec str_codec))
  (then_codec (on_codec baseboard_feature_flags (option_codec (num_codec U8)))
  (then_codec (on_codec baseboard_location_in_chassis (option_codec str_codec))
  (then_codec (on_codec baseboard_chassis_handle (option_codec (num_codec U16)))
  (on_codec baseboard_board_type (option_codec BoardType_codec))))))))))). Qed.

Definition ContainedElementType_tag (x : ContainedElementType) : N :=
  match x with
  | CE_BoardType _ => 0
  | CE_InfoType _ => 1
  end.
Definition ContainedElementType_body (x : ContainedElementType) : list part :=
  match x with
  | CE_BoardType b => BoardType_parts b
  | CE_InfoType i => InfoType_parts i
  end.
Lemma ContainedElementType_codec : codec ContainedElementType_parts eq.
Proof.
  apply (codec_ext (fun x => Tag (ContainedElementType_tag x) :: ContainedElementType_body x)); [intros []; reflexivity|].
  apply cases_codec; [intros a b ->; reflexivity|].
  intros [] [] E; try discriminate E; clear E; cbn [ContainedElementType_body]; (split; intros l m);
    rewrite <- ?app_assoc; repeat first [rewrite (proj1 BoardType_codec)|rewrite (proj2 BoardType_codec)|rewrite (proj1 InfoType_codec)|rewrite (proj2 InfoType_codec)]; case_done.
Qed.

Lemma ContainedElement_codec : codec ContainedElement_parts eq.
Proof. record_codec (then_codec (on_codec cel_type ContainedElementType_codec)
  (then_codec (on_codec cel_minimum (num_codec U8))
  (on_codec cel_maximum (num_codec U8)))). Qed.

Definition Voltage_tag (x : Voltage) : N :=
  match x with
  | Voltage_Legacy _ => 0
  | Voltage_Current _ => 1
  | Voltage_Undefined _ => 2
  end.
Definition Voltage_body (x : Voltage) : list part :=
  match x with
  | Voltage_Legacy bits => (num U8) bits
  | Voltage_Current v => (num U8) v
  | Voltage_Undefined v => (num U8) v
  end.
Lemma Voltage_codec : codec Voltage_parts eq.
Proof.
  apply (codec_ext (fun x => Tag (Voltage_tag x) :: Voltage_body x)); [intros []; reflexivity|].
  apply cases_codec; [intros a b ->; reflexivity|].
  intros [] [] E; try discriminate E; clear E; cbn [Voltage_body]; (split; intros l m);
    rewrite <- ?app_assoc; repeat first [rewrite (proj1 (num_codec U8))|rewrite (proj2 (num_codec U8))]; case_done.
Qed.

Lemma Processor_codec : codec Processor_parts eq.
Proof. record_codec (then_codec (on_codec processor_handle (num_codec U16))
  (then_codec (on_codec processor_socket_designation str_codec)
  (then_codec (on_codec processor_processor_type ProcessorType_codec)
  (then_codec (on_codec processor_processor_family ProcessorFamily_codec)
  (then_codec (on_codec processor_processor_manufacturer str_codec)
  (then_codec (on_codec processor_processor_id (num_codec U64))
  (then_codec (on_codec processor_processor_version str_codec)
  (then_codec (on_codec processor_voltage Voltage_codec)
  (then_codec (on_codec processor_external_clock (num_codec U16))
  (then_codec (on_codec processor_max_speed (num_codec U16))
  (then_codec (on_codec processor_current_speed (num_codec U16))
  (then_codec (on_codec processor_status (num_codec U8))
  (then_codec (on_codec processor_processor_upgrade ProcessorUpgrade_codec)
  (then_codec (on_codec processor_l1_cache_handle (option_codec (num_codec U16)))
  (then_codec (on_codec processor_l2_cache_handle (option_codec (num_codec U16)))
  (then_codec (on_codec processor_l3_cache_handle (option_codec (num_codec U16)))
  (then_codec (on_codec processor_serial_number (option_codec str_codec))
  (then_codec (on_codec processor_asset_tag (option_codec str_codec))
  (then_codec (on_codec processor_part_number (option_codec str_codec))
  (then_codec (on_codec processor_core_count (option_codec (num_codec U16)))
  (then_codec (on_codec processor_core_enabled (option_codec (num_codec U16)))
  (then_codec (on_codec processor_thread_count (option_codec (num_codec U16)))
  (on_codec processor_processor_characteristics (option_codec (num_codec U16))))))))))))))))))))))))). Qed.

Lemma CacheConfiguration_codec : codec CacheConfiguration_parts eq.
Proof. record_codec (then_codec (on_codec level CacheLevel_codec)
  (then_codec (on_codec socketed flag_codec)
  (then_codec (on_codec location CacheLocation_codec)
  (then_codec (on_codec enabled_at_boot_time flag_codec)
  (on_codec operational_mode CacheOperationalMode_codec))))). Qed.

Definition CacheSize_tag (x : CacheSize) : N :=
  match x with
  | Granularity1K _ => 0
  | Granularity64K _ => 1
  end.
Definition CacheSize_body (x : CacheSize) : list part :=
  match x with
  | Granularity1K v => (num U16) v
  | Granularity64K v => (num U16) v
  end.
Lemma CacheSize_codec : codec CacheSize_parts eq.
Proof.
  apply (codec_ext (fun x => Tag (CacheSize_tag x) :: CacheSize_body x)); [intros []; reflexivity|].
  apply cases_codec; [intros a b ->; reflexivity|].
  intros [] [] E; try discriminate E; clear E; cbn [CacheSize_body]; (split; intros l m);
    rewrite <- ?app_assoc; repeat first [rewrite (proj1 (num_codec U16))|rewrite (proj2 (num_codec U16))]; case_done.
Qed.

Definition CacheSize2_tag (x : CacheSize2) : N :=
  match x with
  | Granularity1K_2 _ => 0
  | Granularity64K_2 _ => 1
  end.
Definition CacheSize2_body (x : CacheSize2) : list part :=
  match x with
  | Granularity1K_2 v => (num U32) v
  | Granularity64K_2 v => (num U32) v
  end.
Lemma CacheSize2_codec : codec CacheSize2_parts eq.
Proof.
  apply (codec_ext (fun x => Tag (CacheSize2_tag x) :: CacheSize2_body x)); [intros []; reflexivity|].
  apply cases_codec; [intros a b ->; reflexivity|].
  intros [] [] E; try discriminate E; clear E; cbn [CacheSize2_body]; (split; intros l m);
    rewrite <- ?app_assoc; repeat first [rewrite (proj1 (num_codec U32))|rewrite (proj2 (num_codec U32))]; case_done.
Qed.

Lemma Cache_codec : codec Cache_parts eq.
Proof. record_codec (then_codec (on_codec cache_handle (num_codec U16))
  (then_codec (on_codec cache_socket_designation str_codec)
  (then_codec (on_codec cache_cache_configuration CacheConfiguration_codec)
  (then_codec (on_codec cache_maximum_cache_size CacheSize_codec)
  (then_codec (on_codec cache_installed_size CacheSize_codec)
  (then_codec (on_codec cache_supported_sram_type (num_codec U16))
  (then_codec (on_codec cache_current_sram_type (num_codec U16))
  (then_codec (on_codec cache_cache_speed (option_codec (num_codec U8)))
  (then_codec (on_codec cache_error_correction_type (option_codec CacheErrorCorrectionType_codec))
  (then_codec (on_codec cache_system_cache_type (option_codec SystemCacheType_codec))
  (then_codec (on_codec cache_associativity (option_codec CacheAssociativity_codec))
  (then_codec (on_codec cache_maximum_cache_size_2 (option_codec CacheSize2_codec))
  (on_codec cache_installed_size_2 (option_codec CacheSize2_codec)))))))))))))). Qed.

Lemma PortConnector_codec : codec PortConnector_parts eq.
Proof. record_codec (then_codec (on_codec port_handle (num_codec U16))
  (then_codec (on_codec port_internal_reference_designator str_codec)
  (then_codec (on_codec port_internal_connector_type ConnectorType_codec)
  (then_codec (on_codec port_external_reference_designator str_codec)
  (then_codec (on_codec port_external_connector_type ConnectorType_codec)
  (on_codec port_port_type PortType_codec)))))). Qed.

Lemma DeviceAndFunctionNumber_codec : codec DeviceAndFunctionNumber_parts eq.
Proof. record_codec (then_codec (on_codec dev (num_codec U8))
  (on_codec fun_ (num_codec U8))). Qed.

Lemma Device_codec : codec Device_parts eq.
Proof. record_codec (then_codec (on_codec device_segment_group_number (num_codec U16))
  (then_codec (on_codec device_bus_number (num_codec U8))
  (then_codec (on_codec device_device_and_function_number DeviceAndFunctionNumber_codec)
  (on_codec device_data_bus_width (num_codec U8))))). Qed.

Lemma OemStrings_codec : codec OemStrings_parts eq.
Proof. record_codec (then_codec (on_codec oem_handle (num_codec U16))
  (on_codec oem_strings StructureStrings_codec)). Qed.

Lemma SystemConfigurationOptions_codec : codec SystemConfigurationOptions_parts eq.
Proof. record_codec (then_codec (on_codec options_handle (num_codec U16))
  (on_codec options_strings StructureStrings_codec)). Qed.

Lemma GroupItems_codec : codec GroupItems_parts eq.
Proof. record_codec (then_codec (on_codec gi_data slice_codec)
  (on_codec gi_index (num_codec Usize))). Qed.

Lemma GroupItem_codec : codec GroupItem_parts eq.
Proof. record_codec (then_codec (on_codec gi_type (num_codec U8))
  (on_codec gi_handle (num_codec U16))). Qed.

Lemma GroupAssociations_codec : codec GroupAssociations_parts eq.
Proof. record_codec (then_codec (on_codec group_handle (num_codec U16))
  (then_codec (on_codec group_group_name str_codec)
  (on_codec group_items GroupItems_codec))). Qed.

Definition SystemManagementType_tag (x : SystemManagementType) : N :=
  match x with
  | SMT_OutOfRangeVoltagePlus2_5Num1 => 0
  | SMT_OutOfRangeVoltagePlus2_5Num2 => 1
  | SMT_OutOfRangeVoltagePlus3_3 => 2
  | SMT_OutOfRangeVoltagePlus5 => 3
  | SMT_OutOfRangeVoltageMinus5 => 4
  | SMT_OutOfRangeVoltagePlus12 => 5
  | SMT_OutOfRangeVoltageMinus12 => 6
  | SMT_OutOfRangeVoltageReserved _ => 7
  | SMT_OutOfRangeTemperatureSystemBoard => 8
  | SMT_OutOfRangeTemperatureProcessor1 => 9
  | SMT_OutOfRangeTemperatureProcessor2 => 10
  | SMT_OutOfRangeTemperatureProcessor3 => 11
  | SMT_OutOfRangeTemperatureProcessor4 => 12
  | SMT_OutOfRangeTemperatureReserved _ => 13
  | SMT_OutOfRangeFan _ => 14
  | SMT_Reserved _ => 15
  | SMT_ChassisSecureSwitchActivated => 16
  | SMT_OutOfRangeSystemManagementProbe _ => 17
  | SMT_OemAssigned _ => 18
  end.
Definition SystemManagementType_body (x : SystemManagementType) : list part :=
  match x with
  | SMT_OutOfRangeVoltagePlus2_5Num1 => []
  | SMT_OutOfRangeVoltagePlus2_5Num2 => []
  | SMT_OutOfRangeVoltagePlus3_3 => []
  | SMT_OutOfRangeVoltagePlus5 => []
  | SMT_OutOfRangeVoltageMinus5 => []
  | SMT_OutOfRangeVoltagePlus12 => []
  | SMT_OutOfRangeVoltageMinus12 => []
  | SMT_OutOfRangeVoltageReserved v => (num U8) v
  | SMT_OutOfRangeTemperatureSystemBoard => []
  | SMT_OutOfRangeTemperatureProcessor1 => []
  | SMT_OutOfRangeTemperatureProcessor2 => []
  | SMT_OutOfRangeTemperatureProcessor3 => []
  | SMT_OutOfRangeTemperatureProcessor4 => []
  | SMT_OutOfRangeTemperatureReserved v => (num U8) v
  | SMT_OutOfRangeFan v => (num U8) v
  | SMT_Reserved v => (num U32) v
  | SMT_ChassisSecureSwitchActivated => []
  | SMT_OutOfRangeSystemManagementProbe v => (num U16) v
  | SMT_OemAssigned v => (num U32) v
  end.
Lemma SystemManagementType_codec : codec SystemManagementType_parts eq.
Proof.
  apply (codec_ext (fun x => Tag (SystemManagementType_tag x) :: SystemManagementType_body x)); [intros []; reflexivity|].
  apply cases_codec; [intros a b ->; reflexivity|].
  intros [] [] E; try discriminate E; clear E; cbn [SystemManagementType_body]; (split; intros l m);
    rewrite <- ?app_assoc; repeat first [rewrite (proj1 (num_codec U16))|rewrite (proj2 (num_codec U16))|rewrite (proj1 (num_codec U32))|rewrite (proj2 (num_codec U32))|rewrite (proj1 (num_codec U8))|rewrite (proj2 (num_codec U8))]; case_done.
Qed.

Definition VariableDataFormatType_tag (x : VariableDataFormatType) : N :=
  match x with
  | VDF_None => 0
  | VDF_Handle _ => 1
  | VDF_MultipleEvent _ => 2
  | VDF_MultipleEventHandle _ _ => 3
  | VDF_PostResults _ => 4
  | VDF_SystemManagementType _ => 5
  | VDF_MultipleEventSystemManagementType _ _ => 6
  | VDF_Unused _ => 7
  | VDF_OemAssigned _ => 8
  end.
Definition VariableDataFormatType_body (x : VariableDataFormatType) : list part :=
  match x with
  | VDF_None => []
  | VDF_Handle handle => (num U16) handle
  | VDF_MultipleEvent counter => (num U32) counter
  | VDF_MultipleEventHandle handle counter => (num U16) handle ++ (num U32) counter
  | VDF_PostResults v => (num U64) v
  | VDF_SystemManagementType t => SystemManagementType_parts t
  | VDF_MultipleEventSystemManagementType t counter => SystemManagementType_parts t ++ (num U32) counter
  | VDF_Unused v => (num U8) v
  | VDF_OemAssigned v => (num U8) v
  end.
Lemma VariableDataFormatType_codec : codec VariableDataFormatType_parts eq.
Proof.
  apply (codec_ext (fun x => Tag (VariableDataFormatType_tag x) :: VariableDataFormatType_body x)); [intros []; reflexivity|].
  apply cases_codec; [intros a b ->; reflexivity|].
  intros [] [] E; try discriminate E; clear E; cbn [VariableDataFormatType_body]; (split; intros l m);
    rewrite <- ?app_assoc; repeat first [rewrite (proj1 (num_codec U16))|rewrite (proj2 (num_codec U16))|rewrite (proj1 (num_codec U32))|rewrite (proj2 (num_codec U32))|rewrite (proj1 (num_codec U64))|rewrite (proj2 (num_codec U64))|rewrite (proj1 (num_codec U8))|rewrite (proj2 (num_codec U8))|rewrite (proj1 SystemManagementType_codec)|rewrite (proj2 SystemManagementType_codec)]; case_done.
Qed.

Lemma EventLogTypeDescriptor_codec : codec EventLogTypeDescriptor_parts eq.
Proof. record_codec (then_codec (on_codec log_type EventLogType_codec)
  (on_codec variable_data_format_type VariableDataFormatType_codec)). Qed.

Definition AccessMethod_tag (x : AccessMethod) : N :=
  match x with
  | AM_IndexedIoOne8bitIndexOne8bitData _ _ => 0
  | AM_IndexedIoTwo8bitIndexOne8bitData _ _ _ => 1
  | AM_IndexedIoOne16bitIndexOne8bitData _ _ => 2
  | AM_MemoryMappedPhysicaAddress _ => 3
  | AM_GeneralPurposeNonVolatileData _ => 4
  | AM_Available _ _ => 5
  | AM_OemSpecific _ _ => 6
  end.
Definition AccessMethod_body (x : AccessMethod) : list part :=
  match x with
  | AM_IndexedIoOne8bitIndexOne8bitData index data => (num U8) index ++ (num U8) data
  | AM_IndexedIoTwo8bitIndexOne8bitData index0 index1 data => slice [index0; index1] ++ (num U8) data
  | AM_IndexedIoOne16bitIndexOne8bitData index data => (num U16) index ++ (num U8) data
  | AM_MemoryMappedPhysicaAddress physical_address => (num U32) physical_address
  | AM_GeneralPurposeNonVolatileData gpnv_handle => (num U16) gpnv_handle
  | AM_Available method address => (num U8) method ++ (num U32) address
  | AM_OemSpecific method address => (num U8) method ++ (num U32) address
  end.
Lemma AccessMethod_codec : codec AccessMethod_parts eq.
Proof.
  apply (codec_ext (fun x => Tag (AccessMethod_tag x) :: AccessMethod_body x)); [intros []; reflexivity|].
  apply cases_codec; [intros a b ->; reflexivity|].
  intros [] [] E; try discriminate E; clear E; cbn [AccessMethod_body]; (split; intros l m);
    rewrite <- ?app_assoc; repeat first [rewrite (proj1 (num_codec U16))|rewrite (proj2 (num_codec U16))|rewrite (proj1 (num_codec U32))|rewrite (proj2 (num_codec U32))|rewrite (proj1 (num_codec U8))|rewrite (proj2 (num_codec U8))|rewrite (proj1 slice_codec)|rewrite (proj2 slice_codec)]; case_done.
Qed.

Lemma PhysicalMemoryArray_codec : codec PhysicalMemoryArray_parts eq.
Proof. record_codec (then_codec (on_codec array_handle (num_codec U16))
  (then_codec (on_codec array_location MemoryArrayLocation_codec)
  (then_codec (on_codec array_use MemoryArrayUse_codec)
  (then_codec (on_codec array_memory_error_correction MemoryArrayErrorCorrectionTypes_codec)
  (then_codec (on_codec array_maximum_capacity (option_codec (num_codec U32)))
  (then_codec (on_codec array_memory_error_information_handle (option_codec (num_codec U16)))
  (then_codec (on_codec array_number_of_memory_devices (num_codec U16))
  (on_codec array_extended_maximum_capacity (option_codec (num_codec U64)))))))))). Qed.

Lemma MemoryDevice_codec : codec MemoryDevice_parts eq.
Proof. record_codec (then_codec (on_codec memdev_handle (num_codec U16))
  (then_codec (on_codec memdev_physical_memory_handle (num_codec U16))
  (then_codec (on_codec memdev_memory_error_handle (option_codec (num_codec U16)))
  (then_codec (on_codec memdev_total_width (option_codec (num_codec U16)))
  (then_codec (on_codec memdev_data_width (option_codec (num_codec U16)))
  (then_codec (on_codec memdev_size (option_codec (num_codec U16)))
  (then_codec (on_codec memdev_form_factor FormFactor_codec)
  (then_codec (on_codec memdev_device_set (option_codec (num_codec U8)))
  (then_codec (on_codec memdev_device_locator str_codec)
  (then_codec (on_codec memdev_bank_locator str_codec)
  (then_codec (on_codec memdev_memory_type MemoryType_codec)
  (then_codec (on_codec memdev_type_detail (num_codec U16))
  (then_codec (on_codec memdev_speed (option_codec (num_codec U16)))
  (then_codec (on_codec memdev_manufacturer str_codec)
  (then_codec (on_codec memdev_serial str_codec)
  (then_codec (on_codec memdev_asset_tag str_codec)
  (then_codec (on_codec memdev_part_number str_codec)
  (then_codec (on_codec memdev_attributes (num_codec U8))
  (then_codec (on_codec memdev_extended_size (num_codec U32))
  (then_codec (on_codec memdev_configured_memory_speed (option_codec (num_codec U16)))
  (then_codec (on_codec memdev_minimum_voltage (option_codec (num_codec U16)))
  (then_codec (on_codec memdev_maximum_voltage (option_codec (num_codec U16)))
  (then_codec (on_codec memdev_configured_voltage (option_codec (num_codec U16)))
  (then_codec (on_codec memdev_memory_technology (option_codec MemoryTechnology_codec))
  (then_codec (on_codec memdev_operating_mode_capability (option_codec (num_codec U16)))
  (then_codec (on_codec memdev_firmware_version (option_codec str_codec))
  (then_codec (on_codec memdev_module_manufacturer (option_codec (num_codec U16)))
  (then_codec (on_codec memdev_module_product_id (option_codec (num_codec U16)))
  (then_codec (on_codec memdev_memory_subsystem_controller_manufacturer_id (option_codec (num_codec U16)))
  (then_codec (on_codec memdev_memory_subsystem_controller_product_id (option_codec (num_codec U16)))
  (then_codec (on_codec memdev_non_volatile_size (option_codec (num_codec U64)))
  (then_codec (on_codec memdev_volatile_size (option_codec (num_codec U64)))
  (then_codec (on_codec memdev_cache_size (option_codec (num_codec U64)))
  (then_codec (on_codec memdev_logical_size (option_codec (num_codec U64)))
  (then_codec (on_codec memdev_extended_speed (option_codec (num_codec U32)))
  (on_codec memdev_extended_configured_memory_speed (option_codec (num_codec U32)))))))))))))))))))))))))))))))))))))). Qed.

Lemma MemoryError32_codec : codec MemoryError32_parts eq.
Proof. record_codec (then_codec (on_codec me_handle (num_codec U16))
  (then_codec (on_codec me_error_type MEErrorType_codec)
  (then_codec (on_codec me_error_granularity MEErrorGranularity_codec)
  (then_codec (on_codec me_error_operation MEErrorOperation_codec)
  (then_codec (on_codec me_vendor_syndrome (num_codec U32))
  (then_codec (on_codec me_memory_array_error_address (num_codec U32))
  (then_codec (on_codec me_device_error_address (num_codec U32))
  (on_codec me_error_resolution (num_codec U32))))))))). Qed.

Lemma MemoryArrayMappedAddress_codec : codec MemoryArrayMappedAddress_parts eq.
Proof. record_codec (then_codec (on_codec ama_handle (num_codec U16))
  (then_codec (on_codec ama_starting_address (num_codec U32))
  (then_codec (on_codec ama_ending_address (num_codec U32))
  (then_codec (on_codec ama_memory_array_handle (num_codec U16))
  (then_codec (on_codec ama_partition_width (num_codec U8))
  (then_codec (on_codec ama_extended_starting_address (option_codec (num_codec U64)))
  (on_codec ama_extended_ending_address (option_codec (num_codec U64))))))))). Qed.

Lemma MemoryDeviceMappedAddress_codec : codec MemoryDeviceMappedAddress_parts eq.
Proof. record_codec (then_codec (on_codec dma_handle (num_codec U16))
  (then_codec (on_codec dma_starting_address (num_codec U32))
  (then_codec (on_codec dma_ending_address (num_codec U32))
  (then_codec (on_codec dma_memory_device_handle (num_codec U16))
  (then_codec (on_codec dma_memory_array_mapped_address_handle (num_codec U16))
  (then_codec (on_codec dma_partition_row_position (num_codec U8))
  (then_codec (on_codec dma_interleave_position (num_codec U8))
  (then_codec (on_codec dma_interleaved_data_depth (num_codec U8))
  (then_codec (on_codec dma_extended_starting_address (option_codec (num_codec U64)))
  (on_codec dma_extended_ending_address (option_codec (num_codec U64)))))))))))). Qed.

Lemma BuiltInPointingDevice_codec : codec BuiltInPointingDevice_parts eq.
Proof. record_codec (then_codec (on_codec pd_handle (num_codec U16))
  (then_codec (on_codec pd_type PointingDeviceType_codec)
  (then_codec (on_codec pd_interface PointingDeviceInterface_codec)
  (on_codec pd_number_of_buttons (num_codec U8))))). Qed.

Definition ManufactureDate_tag (x : ManufactureDate) : N :=
  match x with
  | MD_None => 0
  | MD_Basic _ => 1
  | MD_SmartBatteryDataSpecification _ _ _ => 2
  end.
Definition ManufactureDate_body (x : ManufactureDate) : list part :=
  match x with
  | MD_None => []
  | MD_Basic s => str s
  | MD_SmartBatteryDataSpecification year month date => (num U16) year ++ (num U8) month ++ (num U8) date
  end.
Lemma ManufactureDate_codec : codec ManufactureDate_parts eq.
Proof.
  apply (codec_ext (fun x => Tag (ManufactureDate_tag x) :: ManufactureDate_body x)); [intros []; reflexivity|].
  apply cases_codec; [intros a b ->; reflexivity|].
  intros [] [] E; try discriminate E; clear E; cbn [ManufactureDate_body]; (split; intros l m);
    rewrite <- ?app_assoc; repeat first [rewrite (proj1 (num_codec U16))|rewrite (proj2 (num_codec U16))|rewrite (proj1 (num_codec U8))|rewrite (proj2 (num_codec U8))|rewrite (proj1 str_codec)|rewrite (proj2 str_codec)]; case_done.
Qed.

Definition SerialNumber_tag (x : SerialNumber) : N :=
  match x with
  | SN_None => 0
  | SN_Basic _ => 1
  | SN_SmartBatteryDataSpecification _ => 2
  end.
Definition SerialNumber_body (x : SerialNumber) : list part :=
  match x with
  | SN_None => []
  | SN_Basic s => str s
  | SN_SmartBatteryDataSpecification word => (num U16) word
  end.
Lemma SerialNumber_codec : codec SerialNumber_parts eq.
Proof.
  apply (codec_ext (fun x => Tag (SerialNumber_tag x) :: SerialNumber_body x)); [intros []; reflexivity|].
  apply cases_codec; [intros a b ->; reflexivity|].
  intros [] [] E; try discriminate E; clear E; cbn [SerialNumber_body]; (split; intros l m);
    rewrite <- ?app_assoc; repeat first [rewrite (proj1 (num_codec U16))|rewrite (proj2 (num_codec U16))|rewrite (proj1 str_codec)|rewrite (proj2 str_codec)]; case_done.
Qed.

Definition DesignCapacity_tag (x : DesignCapacity) : N :=
  match x with
  | DC_Unknown => 0
  | DC_Data _ _ => 1
  end.
Definition DesignCapacity_body (x : DesignCapacity) : list part :=
  match x with
  | DC_Unknown => []
  | DC_Data value multiplier => (num U16) value ++ (num U8) multiplier
  end.
Lemma DesignCapacity_codec : codec DesignCapacity_parts eq.
Proof.
  apply (codec_ext (fun x => Tag (DesignCapacity_tag x) :: DesignCapacity_body x)); [intros []; reflexivity|].
  apply cases_codec; [intros a b ->; reflexivity|].
  intros [] [] E; try discriminate E; clear E; cbn [DesignCapacity_body]; (split; intros l m);
    rewrite <- ?app_assoc; repeat first [rewrite (proj1 (num_codec U16))|rewrite (proj2 (num_codec U16))|rewrite (proj1 (num_codec U8))|rewrite (proj2 (num_codec U8))]; case_done.
Qed.

Definition DeviceChemistry_tag (x : DeviceChemistry) : N :=
  match x with
  | Chem_Other => 0
  | Chem_Unknown => 1
  | Chem_LeadAcid => 2
  | Chem_NickelCadmium => 3
  | Chem_NickelMetalHydride => 4
  | Chem_LithiumIon => 5
  | Chem_ZincAir => 6
  | Chem_LithiumPolymer => 7
  | Chem_Undefined _ => 8
  | Chem_SmartBatteryDataSpecification _ => 9
  end.
Definition DeviceChemistry_body (x : DeviceChemistry) : list part :=
  match x with
  | Chem_Other => []
  | Chem_Unknown => []
  | Chem_LeadAcid => []
  | Chem_NickelCadmium => []
  | Chem_NickelMetalHydride => []
  | Chem_LithiumIon => []
  | Chem_ZincAir => []
  | Chem_LithiumPolymer => []
  | Chem_Undefined v => (num U8) v
  | Chem_SmartBatteryDataSpecification s => str s
  end.
Lemma DeviceChemistry_codec : codec DeviceChemistry_parts eq.
Proof.
  apply (codec_ext (fun x => Tag (DeviceChemistry_tag x) :: DeviceChemistry_body x)); [intros []; reflexivity|].
  apply cases_codec; [intros a b ->; reflexivity|].
  intros [] [] E; try discriminate E; clear E; cbn [DeviceChemistry_body]; (split; intros l m);
    rewrite <- ?app_assoc; repeat first [rewrite (proj1 (num_codec U8))|rewrite (proj2 (num_codec U8))|rewrite (proj1 str_codec)|rewrite (proj2 str_codec)]; case_done.
Qed.

Lemma PortableBattery_codec : codec PortableBattery_parts eq.
Proof. record_codec (then_codec (on_codec battery_handle (num_codec U16))
  (then_codec (on_codec battery_location str_codec)
  (then_codec (on_codec battery_manufacturer str_codec)
  (then_codec (on_codec battery_manufacture_date ManufactureDate_codec)
  (then_codec (on_codec battery_serial_number SerialNumber_codec)
  (then_codec (on_codec battery_device_name str_codec)
  (then_codec (on_codec battery_device_chemistry DeviceChemistry_codec)
  (then_codec (on_codec battery_design_capacity DesignCapacity_codec)
  (then_codec (on_codec battery_design_voltage (num_codec U16))
  (then_codec (on_codec battery_sbds_version_number str_codec)
  (then_codec (on_codec battery_maximum_error_in_battery_data (num_codec U8))
  (on_codec battery_oem_specific (option_codec (num_codec U32)))))))))))))). Qed.

Lemma Structures_codec : codec Structures_parts eq.
Proof. record_codec (then_codec (on_codec smbios_version SmbiosVersion_codec)
  (then_codec (on_codec smbios_len_ (num_codec U32))
  (then_codec (on_codec idx (num_codec U32))
  (on_codec buffer slice_codec)))). Qed.

Lemma EntryPointV2_codec : codec EntryPointV2_parts eq.
Proof. record_codec (then_codec (on_codec v2_signature (num_codec U32))
  (then_codec (on_codec v2_checksum (num_codec U8))
  (then_codec (on_codec v2_len (num_codec U8))
  (then_codec (on_codec v2_major (num_codec U8))
  (then_codec (on_codec v2_minor (num_codec U8))
  (then_codec (on_codec v2_struct_max (num_codec U16))
  (then_codec (on_codec v2_revision (num_codec U8))
  (then_codec (on_codec v2_formatted slice_codec)
  (then_codec (on_codec v2_dmi_signature slice_codec)
  (then_codec (on_codec v2_dmi_checksum (num_codec U8))
  (then_codec (on_codec v2_smbios_len (num_codec U16))
  (then_codec (on_codec v2_smbios_address (num_codec U32))
  (then_codec (on_codec v2_smbios_count (num_codec U16))
  (on_codec v2_bcd_revision (num_codec U8))))))))))))))). Qed.

Lemma EntryPointV3_codec : codec EntryPointV3_parts eq.
Proof. record_codec (then_codec (on_codec v3_signature slice_codec)
  (then_codec (on_codec v3_checksum (num_codec U8))
  (then_codec (on_codec v3_len (num_codec U8))
  (then_codec (on_codec v3_major (num_codec U8))
  (then_codec (on_codec v3_minor (num_codec U8))
  (then_codec (on_codec v3_docrev (num_codec U8))
  (then_codec (on_codec v3_revision (num_codec U8))
  (then_codec (on_codec v3_reserved (num_codec U8))
  (then_codec (on_codec v3_smbios_len_max (num_codec U32))
  (on_codec v3_smbios_address (num_codec U64))))))))))). Qed.

Definition EntryPoint_tag (x : EntryPoint) : N :=
  match x with
  | V2 _ => 0
  | V3 _ => 1
  end.
Definition EntryPoint_body (x : EntryPoint) : list part :=
  match x with
  | V2 p => EntryPointV2_parts p
  | V3 p => EntryPointV3_parts p
  end.
Lemma EntryPoint_codec : codec EntryPoint_parts eq.
Proof.
  apply (codec_ext (fun x => Tag (EntryPoint_tag x) :: EntryPoint_body x)); [intros []; reflexivity|].
  apply cases_codec; [intros a b ->; reflexivity|].
  intros [] [] E; try discriminate E; clear E; cbn [EntryPoint_body]; (split; intros l m);
    rewrite <- ?app_assoc; repeat first [rewrite (proj1 EntryPointV2_codec)|rewrite (proj2 EntryPointV2_codec)|rewrite (proj1 EntryPointV3_codec)|rewrite (proj2 EntryPointV3_codec)]; case_done.
Qed.

