(* Generated by tools/gen_eq.py from /repo/src; do not edit by hand.
   For every type with a derived `PartialEq` and `Hash`: the parts of a value, in the
   order of the declaration, which is the order in which the derived code compares
   and hashes them.  The discriminant of a variant is its place in the declaration. *)
From Coq Require Import String.
From Verif Require Import Base G_Enums M_Raw M_Entry M_Bios M_System M_BaseBoard M_Enclosure M_Processor M_Cache
  M_PortConnector M_SystemSlots M_Strings M_GroupAssociations M_SystemEventLog M_PhysicalMemoryArray M_MemoryDevice
  M_Memory M_PortableBattery M_Iter M_Hash M_Eq.
Local Open Scope N_scope.

(* src/lib.rs:688-713 `enum InfoType` *)
Definition InfoType_tag (x : InfoType) : N :=
  match x with
  | InfoType_Bios => 0
  | InfoType_System => 1
  | InfoType_BaseBoard => 2
  | InfoType_Enclosure => 3
  | InfoType_Processor => 4
  | InfoType_Cache => 5
  | InfoType_PortConnector => 6
  | InfoType_SystemSlots => 7
  | InfoType_OemStrings => 8
  | InfoType_SystemConfigurationOptions => 9
  | InfoType_GroupAssociations => 10
  | InfoType_SystemEventLog => 11
  | InfoType_BiosLanguage => 12
  | InfoType_PhysicalMemoryArray => 13
  | InfoType_MemoryDevice => 14
  | InfoType_MemoryError32 => 15
  | InfoType_MemoryArrayMappedAddress => 16
  | InfoType_MemoryDeviceMappedAddress => 17
  | InfoType_BuiltInPointingDevice => 18
  | InfoType_PortableBattery => 19
  | InfoType_SystemBoot => 20
  | InfoType_Oem _ => 21
  | InfoType_End => 22
  end.
Definition InfoType_value (x : InfoType) : option N :=
  match x with
  | InfoType_Oem v => Some v
  | _ => None
  end.
Definition InfoType_parts (x : InfoType) : list part := variant_parts U8 (InfoType_tag x) (InfoType_value x).

(* src/structures/001_system.rs:12-24 `enum WakeupType` *)
Definition WakeupType_tag (x : WakeupType) : N :=
  match x with
  | WakeupType_Reserved => 0
  | WakeupType_Other => 1
  | WakeupType_Unknown => 2
  | WakeupType_APM_Timer => 3
  | WakeupType_Modem_Ring => 4
  | WakeupType_LAN_Remote => 5
  | WakeupType_Power_Switch => 6
  | WakeupType_PCI_PME => 7
  | WakeupType_AC_Power_Restored => 8
  | WakeupType_Undefined _ => 9
  end.
Definition WakeupType_value (x : WakeupType) : option N :=
  match x with
  | WakeupType_Undefined v => Some v
  | _ => None
  end.
Definition WakeupType_parts (x : WakeupType) : list part := variant_parts U8 (WakeupType_tag x) (WakeupType_value x).

(* src/structures/002_baseboard.rs:13-29 `enum BoardType` *)
Definition BoardType_tag (x : BoardType) : N :=
  match x with
  | BoardType_Unknown => 0
  | BoardType_Other => 1
  | BoardType_ServerBlade => 2
  | BoardType_ConnectivitySwitch => 3
  | BoardType_SystemManagementModule => 4
  | BoardType_ProcessorModule => 5
  | BoardType_IoModule => 6
  | BoardType_MemoryModule => 7
  | BoardType_DaughterBoard => 8
  | BoardType_MotherBoard => 9
  | BoardType_ProcessorMemoryModule => 10
  | BoardType_ProcessorIoModule => 11
  | BoardType_InterconnectBoard => 12
  | BoardType_Undefined _ => 13
  end.
Definition BoardType_value (x : BoardType) : option N :=
  match x with
  | BoardType_Undefined v => Some v
  | _ => None
  end.
Definition BoardType_parts (x : BoardType) : list part := variant_parts U8 (BoardType_tag x) (BoardType_value x).

(* src/structures/003_enclosure.rs:56-108 `enum EnclosureType` *)
Definition EnclosureType_tag (x : EnclosureType) : N :=
  match x with
  | EnclosureType_Other => 0
  | EnclosureType_Unknown => 1
  | EnclosureType_Desktop => 2
  | EnclosureType_LowProfileDesktop => 3
  | EnclosureType_PizzaBox => 4
  | EnclosureType_MiniTower => 5
  | EnclosureType_Tower => 6
  | EnclosureType_Portable => 7
  | EnclosureType_Laptop => 8
  | EnclosureType_Notebook => 9
  | EnclosureType_HandHeld => 10
  | EnclosureType_DockingStation => 11
  | EnclosureType_AllInOne => 12
  | EnclosureType_SubNotebook => 13
  | EnclosureType_SpaceSaving => 14
  | EnclosureType_LunchBox => 15
  | EnclosureType_MainServerChassis => 16
  | EnclosureType_ExpansionChassis => 17
  | EnclosureType_SubChassis => 18
  | EnclosureType_BusExpansionChassis => 19
  | EnclosureType_PeripheralChassis => 20
  | EnclosureType_RaidChassis => 21
  | EnclosureType_RackMountChassis => 22
  | EnclosureType_SealedCasePc => 23
  | EnclosureType_MultiSystemChassis => 24
  | EnclosureType_CompactPci => 25
  | EnclosureType_AdvancedTca => 26
  | EnclosureType_Blade => 27
  | EnclosureType_BladeEnclosure => 28
  | EnclosureType_Tablet => 29
  | EnclosureType_Convertible => 30
  | EnclosureType_Detachable => 31
  | EnclosureType_IotGateway => 32
  | EnclosureType_EmbeddedPc => 33
  | EnclosureType_MiniPc => 34
  | EnclosureType_StickPc => 35
  | EnclosureType_Undefined _ => 36
  end.
Definition EnclosureType_value (x : EnclosureType) : option N :=
  match x with
  | EnclosureType_Undefined v => Some v
  | _ => None
  end.
Definition EnclosureType_parts (x : EnclosureType) : list part := variant_parts U8 (EnclosureType_tag x) (EnclosureType_value x).

(* src/structures/003_enclosure.rs:111-120 `enum State` *)
Definition State_tag (x : State) : N :=
  match x with
  | State_Other => 0
  | State_Unknown => 1
  | State_Safe => 2
  | State_Warning => 3
  | State_Critical => 4
  | State_NonRecoverable => 5
  | State_Undefined _ => 6
  end.
Definition State_value (x : State) : option N :=
  match x with
  | State_Undefined v => Some v
  | _ => None
  end.
Definition State_parts (x : State) : list part := variant_parts U8 (State_tag x) (State_value x).

(* src/structures/003_enclosure.rs:123-131 `enum SecurityStatus` *)
Definition SecurityStatus_tag (x : SecurityStatus) : N :=
  match x with
  | SecurityStatus_Other => 0
  | SecurityStatus_Unknown => 1
  | SecurityStatus_None => 2
  | SecurityStatus_ExternalInterfaceLockedOut => 3
  | SecurityStatus_ExternalInterfaceEnabled => 4
  | SecurityStatus_Undefined _ => 5
  end.
Definition SecurityStatus_value (x : SecurityStatus) : option N :=
  match x with
  | SecurityStatus_Undefined v => Some v
  | _ => None
  end.
Definition SecurityStatus_parts (x : SecurityStatus) : list part := variant_parts U8 (SecurityStatus_tag x) (SecurityStatus_value x).

(* src/structures/004_processor.rs:17-26 `enum ProcessorType` *)
Definition ProcessorType_tag (x : ProcessorType) : N :=
  match x with
  | ProcessorType_Other => 0
  | ProcessorType_Unknown => 1
  | ProcessorType_CentralProcessor => 2
  | ProcessorType_MathProcessor => 3
  | ProcessorType_DspProcessor => 4
  | ProcessorType_VideoProcessor => 5
  | ProcessorType_Undefined _ => 6
  end.
Definition ProcessorType_value (x : ProcessorType) : option N :=
  match x with
  | ProcessorType_Undefined v => Some v
  | _ => None
  end.
Definition ProcessorType_parts (x : ProcessorType) : list part := variant_parts U8 (ProcessorType_tag x) (ProcessorType_value x).

(* src/structures/004_processor.rs:135-379 `enum ProcessorFamily` *)
Definition ProcessorFamily_tag (x : ProcessorFamily) : N :=
  match x with
  | ProcessorFamily_Other => 0
  | ProcessorFamily_Unknown => 1
  | ProcessorFamily_Intel8086 => 2
  | ProcessorFamily_Intel80286 => 3
  | ProcessorFamily_Intel386Processor => 4
  | ProcessorFamily_Intel486Processor => 5
  | ProcessorFamily_Intel8087 => 6
  | ProcessorFamily_Intel80287 => 7
  | ProcessorFamily_Intel80387 => 8
  | ProcessorFamily_Intel80487 => 9
  | ProcessorFamily_IntelPentiumProcessor => 10
  | ProcessorFamily_PentiumProProcessor => 11
  | ProcessorFamily_PentiumIIProcessor => 12
  | ProcessorFamily_PentiumProcessorWithMMXTechnology => 13
  | ProcessorFamily_IntelCeleronProcessor => 14
  | ProcessorFamily_PentiumIIXeonProcessor => 15
  | ProcessorFamily_PentiumIIIProcessor => 16
  | ProcessorFamily_M1Family => 17
  | ProcessorFamily_M2Family => 18
  | ProcessorFamily_IntelCeleronMProcessor => 19
  | ProcessorFamily_IntelPentium4HTProcessor => 20
  | ProcessorFamily_AMDDuronProcessorFamily => 21
  | ProcessorFamily_K5Family => 22
  | ProcessorFamily_K6Family => 23
  | ProcessorFamily_K62 => 24
  | ProcessorFamily_K63 => 25
  | ProcessorFamily_AMDAthlonProcessorFamily => 26
  | ProcessorFamily_AMD29000Family => 27
  | ProcessorFamily_K62Plus => 28
  | ProcessorFamily_PowerPCFamily => 29
  | ProcessorFamily_PowerPC601 => 30
  | ProcessorFamily_PowerPC603 => 31
  | ProcessorFamily_PowerPC603Plus => 32
  | ProcessorFamily_PowerPC604 => 33
  | ProcessorFamily_PowerPC620 => 34
  | ProcessorFamily_PowerPCX704 => 35
  | ProcessorFamily_PowerPC750 => 36
  | ProcessorFamily_IntelCoreDuoProcessor => 37
  | ProcessorFamily_IntelCoreDuoMobileProcessor => 38
  | ProcessorFamily_IntelCoreSoloMobileProcessor => 39
  | ProcessorFamily_IntelAtomProcessor => 40
  | ProcessorFamily_IntelCoreMProcessor => 41
  | ProcessorFamily_IntelCoreM3Processor => 42
  | ProcessorFamily_IntelCoreM5Processor => 43
  | ProcessorFamily_IntelCoreM7Processor => 44
  | ProcessorFamily_AlphaFamily => 45
  | ProcessorFamily_Alpha21064 => 46
  | ProcessorFamily_Alpha21066 => 47
  | ProcessorFamily_Alpha21164 => 48
  | ProcessorFamily_Alpha21164PC => 49
  | ProcessorFamily_Alpha21164a => 50
  | ProcessorFamily_Alpha21264 => 51
  | ProcessorFamily_Alpha21364 => 52
  | ProcessorFamily_AMDTurionIIUltraDualCoreMobileMProcessorFamily => 53
  | ProcessorFamily_AMDTurionIIDualCoreMobileMProcessorFamily => 54
  | ProcessorFamily_AMDAthlonIIDualCoreMProcessorFamily => 55
  | ProcessorFamily_AMDOpteron6100SeriesProcessor => 56
  | ProcessorFamily_AMDOpteron4100SeriesProcessor => 57
  | ProcessorFamily_AMDOpteron6200SeriesProcessor => 58
  | ProcessorFamily_AMDOpteron4200SeriesProcessor => 59
  | ProcessorFamily_AMDFXSeriesProcessor => 60
  | ProcessorFamily_MIPSFamily => 61
  | ProcessorFamily_MIPSR4000 => 62
  | ProcessorFamily_MIPSR4200 => 63
  | ProcessorFamily_MIPSR4400 => 64
  | ProcessorFamily_MIPSR4600 => 65
  | ProcessorFamily_MIPSR10000 => 66
  | ProcessorFamily_AMDCSeriesProcessor => 67
  | ProcessorFamily_AMDESeriesProcessor => 68
  | ProcessorFamily_AMDASeriesProcessor => 69
  | ProcessorFamily_AMDGSeriesProcessor => 70
  | ProcessorFamily_AMDZSeriesProcessor => 71
  | ProcessorFamily_AMDRSeriesProcessor => 72
  | ProcessorFamily_AMDOpteron4300SeriesProcessor => 73
  | ProcessorFamily_AMDOpteron6300SeriesProcessor => 74
  | ProcessorFamily_AMDOpteron3300SeriesProcessor => 75
  | ProcessorFamily_AMDFireProSeriesProcessor => 76
  | ProcessorFamily_SPARCFamily => 77
  | ProcessorFamily_SuperSPARC => 78
  | ProcessorFamily_MicroSPARCII => 79
  | ProcessorFamily_MicroSPARCIIep => 80
  | ProcessorFamily_UltraSPARC => 81
  | ProcessorFamily_UltraSPARCII => 82
  | ProcessorFamily_UltraSPARCIii => 83
  | ProcessorFamily_UltraSPARCIII => 84
  | ProcessorFamily_UltraSPARCIIIi => 85
  | ProcessorFamily_Motorola68040Family => 86
  | ProcessorFamily_Motorola68xxx => 87
  | ProcessorFamily_Motorola68000 => 88
  | ProcessorFamily_Motorola68010 => 89
  | ProcessorFamily_Motorola68020 => 90
  | ProcessorFamily_Motorola68030 => 91
  | ProcessorFamily_AMDAthlonX4QuadCoreProcessorFamily => 92
  | ProcessorFamily_AMDOpteronX1000SeriesProcessor => 93
  | ProcessorFamily_AMDOpteronX2000SeriesAPU => 94
  | ProcessorFamily_AMDOpteronASeriesProcessor => 95
  | ProcessorFamily_AMDOpteronX3000SeriesAPU => 96
  | ProcessorFamily_AMDZenProcessorFamily => 97
  | ProcessorFamily_HobbitFamily => 98
  | ProcessorFamily_CrusoeTM5000Family => 99
  | ProcessorFamily_CrusoeTM3000Family => 100
  | ProcessorFamily_EfficeonTM8000Family => 101
  | ProcessorFamily_Weitek => 102
  | ProcessorFamily_AvailableForAssignment => 103
  | ProcessorFamily_ItaniumProcessor => 104
  | ProcessorFamily_AMDAthlon64ProcessorFamily => 105
  | ProcessorFamily_AMDOpteronProcessorFamily => 106
  | ProcessorFamily_AMDSempronProcessorFamily => 107
  | ProcessorFamily_AMDTurion64MobileTechnology => 108
  | ProcessorFamily_DualCoreAMDOpteronProcessorFamily => 109
  | ProcessorFamily_AMDAthlon64X2DualCoreProcessorFamily => 110
  | ProcessorFamily_AMDTurion64X2MobileTechnology => 111
  | ProcessorFamily_QuadCoreAMDOpteronProcessorFamily => 112
  | ProcessorFamily_ThirdGenerationAMDOpteronProcessorFamily => 113
  | ProcessorFamily_AMDPhenomFXQuadCoreProcessorFamily => 114
  | ProcessorFamily_AMDPhenomX4QuadCoreProcessorFamily => 115
  | ProcessorFamily_AMDPhenomX2DualCoreProcessorFamily => 116
  | ProcessorFamily_AMDAthlonX2DualCoreProcessorFamily => 117
  | ProcessorFamily_PARISCFamily => 118
  | ProcessorFamily_PARISC8500 => 119
  | ProcessorFamily_PARISC8000 => 120
  | ProcessorFamily_PARISC7300LC => 121
  | ProcessorFamily_PARISC7200 => 122
  | ProcessorFamily_PARISC7100LC => 123
  | ProcessorFamily_PARISC7100 => 124
  | ProcessorFamily_V30Family => 125
  | ProcessorFamily_QuadCoreIntelXeonProcessor3200Series => 126
  | ProcessorFamily_DualCoreIntelXeonProcessor3000Series => 127
  | ProcessorFamily_QuadCoreIntelXeonProcessor5300Series => 128
  | ProcessorFamily_DualCoreIntelXeonProcessor5100Series => 129
  | ProcessorFamily_DualCoreIntelXeonProcessor5000Series => 130
  | ProcessorFamily_DualCoreIntelXeonProcessorLV => 131
  | ProcessorFamily_DualCoreIntelXeonProcessorULV => 132
  | ProcessorFamily_DualCoreIntelXeonProcessor7100Series => 133
  | ProcessorFamily_QuadCoreIntelXeonProcessor5400Series => 134
  | ProcessorFamily_QuadCoreIntelXeonProcessor => 135
  | ProcessorFamily_DualCoreIntelXeonProcessor5200Series => 136
  | ProcessorFamily_DualCoreIntelXeonProcessor7200Series => 137
  | ProcessorFamily_QuadCoreIntelXeonProcessor7300Series => 138
  | ProcessorFamily_QuadCoreIntelXeonProcessor7400Series => 139
  | ProcessorFamily_MultiCoreIntelXeonProcessor7400Series => 140
  | ProcessorFamily_PentiumIIIXeonProcessor => 141
  | ProcessorFamily_PentiumIIIProcessorWithIntelSpeedStepTechnology => 142
  | ProcessorFamily_Pentium4Processor => 143
  | ProcessorFamily_IntelXeonProcessor => 144
  | ProcessorFamily_AS400Family => 145
  | ProcessorFamily_IntelXeonProcessorMP => 146
  | ProcessorFamily_AMDAthlonXPProcessorFamily => 147
  | ProcessorFamily_AMDAthlonMPProcessorFamily => 148
  | ProcessorFamily_IntelItanium2Processor => 149
  | ProcessorFamily_IntelPentiumMProcessor => 150
  | ProcessorFamily_IntelCeleronDProcessor => 151
  | ProcessorFamily_IntelPentiumDProcessor => 152
  | ProcessorFamily_IntelPentiumProcessorExtremeEdition => 153
  | ProcessorFamily_IntelCoreSoloProcessor => 154
  | ProcessorFamily_Ambiguous => 155
  | ProcessorFamily_IntelCore2DuoProcessor => 156
  | ProcessorFamily_IntelCore2SoloProcessor => 157
  | ProcessorFamily_IntelCore2ExtremeProcessor => 158
  | ProcessorFamily_IntelCore2QuadProcessor => 159
  | ProcessorFamily_IntelCore2ExtremeMobileProcessor => 160
  | ProcessorFamily_IntelCore2DuoMobileProcessor => 161
  | ProcessorFamily_IntelCore2SoloMobileProcessor => 162
  | ProcessorFamily_IntelCoreI7Processor => 163
  | ProcessorFamily_DualCoreIntelCeleronProcessor => 164
  | ProcessorFamily_IBM390Family => 165
  | ProcessorFamily_G4 => 166
  | ProcessorFamily_G5 => 167
  | ProcessorFamily_ESA390G6 => 168
  | ProcessorFamily_ZArchitectureBase => 169
  | ProcessorFamily_IntelCoreI5Processor => 170
  | ProcessorFamily_IntelCoreI3Processor => 171
  | ProcessorFamily_IntelCoreI9Processor => 172
  | ProcessorFamily_VIAC7MProcessorFamily => 173
  | ProcessorFamily_VIAC7DProcessorFamily => 174
  | ProcessorFamily_VIAC7ProcessorFamily => 175
  | ProcessorFamily_VIAEdenProcessorFamily => 176
  | ProcessorFamily_MultiCoreIntelXeonProcessor => 177
  | ProcessorFamily_DualCoreIntelXeonProcessor3xxxSeries => 178
  | ProcessorFamily_QuadCoreIntelXeonProcessor3xxxSeries => 179
  | ProcessorFamily_VIANanoProcessorFamily => 180
  | ProcessorFamily_DualCoreIntelXeonProcessor5xxxSeries => 181
  | ProcessorFamily_QuadCoreIntelXeonProcessor5xxxSeries => 182
  | ProcessorFamily_DualCoreIntelXeonProcessor7xxxSeries => 183
  | ProcessorFamily_QuadCoreIntelXeonProcessor7xxxSeries => 184
  | ProcessorFamily_MultiCoreIntelXeonProcessor7xxxSeries => 185
  | ProcessorFamily_MultiCoreIntelXeonProcessor3400Series => 186
  | ProcessorFamily_AMDOpteron3000SeriesProcessor => 187
  | ProcessorFamily_AMDSempronIIProcessor => 188
  | ProcessorFamily_EmbeddedAMDOpteronQuadCoreProcessorFamily => 189
  | ProcessorFamily_AMDPhenomTripleCoreProcessorFamily => 190
  | ProcessorFamily_AMDTurionUltraDualCoreMobileProcessorFamily => 191
  | ProcessorFamily_AMDTurionDualCoreMobileProcessorFamily => 192
  | ProcessorFamily_AMDAthlonDualCoreProcessorFamily => 193
  | ProcessorFamily_AMDSempronSIProcessorFamily => 194
  | ProcessorFamily_AMDPhenomIIProcessorFamily => 195
  | ProcessorFamily_AMDAthlonIIProcessorFamily => 196
  | ProcessorFamily_SixCoreAMDOpteronProcessorFamily => 197
  | ProcessorFamily_AMDSempronMProcessorFamily => 198
  | ProcessorFamily_I860 => 199
  | ProcessorFamily_I960 => 200
  | ProcessorFamily_ARMv7 => 201
  | ProcessorFamily_ARMv8 => 202
  | ProcessorFamily_ARMv9 => 203
  | ProcessorFamily_SH3 => 204
  | ProcessorFamily_SH4 => 205
  | ProcessorFamily_ARM => 206
  | ProcessorFamily_StrongARM => 207
  | ProcessorFamily_Cyrix6x86 => 208
  | ProcessorFamily_MediaGX => 209
  | ProcessorFamily_MII => 210
  | ProcessorFamily_WinChip => 211
  | ProcessorFamily_DSP => 212
  | ProcessorFamily_VideoProcessor => 213
  | ProcessorFamily_RISCVRV32 => 214
  | ProcessorFamily_RISCVRV64 => 215
  | ProcessorFamily_RISCVRV128 => 216
  | ProcessorFamily_Available _ => 217
  | ProcessorFamily_NotUsed _ => 218
  | ProcessorFamily_ForFutureUse => 219
  | ProcessorFamily_ProcessorFamily2 => 220
  | ProcessorFamily_OutOfSpec => 221
  end.
Definition ProcessorFamily_value (x : ProcessorFamily) : option N :=
  match x with
  | ProcessorFamily_Available v => Some v
  | ProcessorFamily_NotUsed v => Some v
  | _ => None
  end.
Definition ProcessorFamily_parts (x : ProcessorFamily) : list part := variant_parts U16 (ProcessorFamily_tag x) (ProcessorFamily_value x).

(* src/structures/004_processor.rs:403-468 `enum ProcessorUpgrade` *)
Definition ProcessorUpgrade_tag (x : ProcessorUpgrade) : N :=
  match x with
  | ProcessorUpgrade_Other => 0
  | ProcessorUpgrade_Unknown => 1
  | ProcessorUpgrade_DaughterBoard => 2
  | ProcessorUpgrade_ZIFSocket => 3
  | ProcessorUpgrade_ReplaceablePiggyBack => 4
  | ProcessorUpgrade_None => 5
  | ProcessorUpgrade_LIFSocket => 6
  | ProcessorUpgrade_Slot1 => 7
  | ProcessorUpgrade_Slot2 => 8
  | ProcessorUpgrade_Socket370 => 9
  | ProcessorUpgrade_SlotA => 10
  | ProcessorUpgrade_SlotM => 11
  | ProcessorUpgrade_Socket423 => 12
  | ProcessorUpgrade_SocketA => 13
  | ProcessorUpgrade_Socket478 => 14
  | ProcessorUpgrade_Socket754 => 15
  | ProcessorUpgrade_Socket940 => 16
  | ProcessorUpgrade_Socket939 => 17
  | ProcessorUpgrade_SocketmPGA604 => 18
  | ProcessorUpgrade_SocketLGA771 => 19
  | ProcessorUpgrade_SocketLGA775 => 20
  | ProcessorUpgrade_SocketS1 => 21
  | ProcessorUpgrade_SocketAM2 => 22
  | ProcessorUpgrade_SocketF => 23
  | ProcessorUpgrade_SocketLGA1366 => 24
  | ProcessorUpgrade_SocketG34 => 25
  | ProcessorUpgrade_SocketAM3 => 26
  | ProcessorUpgrade_SocketC32 => 27
  | ProcessorUpgrade_SocketLGA1156 => 28
  | ProcessorUpgrade_SocketLGA1567 => 29
  | ProcessorUpgrade_SocketPGA988A => 30
  | ProcessorUpgrade_SocketBGA1288 => 31
  | ProcessorUpgrade_SocketrPGA988B => 32
  | ProcessorUpgrade_SocketBGA1023 => 33
  | ProcessorUpgrade_SocketBGA1224 => 34
  | ProcessorUpgrade_SocketLGA1155 => 35
  | ProcessorUpgrade_SocketLGA1356 => 36
  | ProcessorUpgrade_SocketLGA2011 => 37
  | ProcessorUpgrade_SocketFS1 => 38
  | ProcessorUpgrade_SocketFS2 => 39
  | ProcessorUpgrade_SocketFM1 => 40
  | ProcessorUpgrade_SocketFM2 => 41
  | ProcessorUpgrade_SocketLGA2011Three => 42
  | ProcessorUpgrade_SocketLGA1356Three => 43
  | ProcessorUpgrade_SocketLGA1150 => 44
  | ProcessorUpgrade_SocketBGA1168 => 45
  | ProcessorUpgrade_SocketBGA1234 => 46
  | ProcessorUpgrade_SocketBGA1364 => 47
  | ProcessorUpgrade_SocketAM4 => 48
  | ProcessorUpgrade_SocketLGA1151 => 49
  | ProcessorUpgrade_SocketBGA1356 => 50
  | ProcessorUpgrade_SocketBGA1440 => 51
  | ProcessorUpgrade_SocketBGA1515 => 52
  | ProcessorUpgrade_SocketLGA3647 => 53
  | ProcessorUpgrade_SocketSP3 => 54
  | ProcessorUpgrade_SocketSP3r2 => 55
  | ProcessorUpgrade_SocketLGA2066 => 56
  | ProcessorUpgrade_SocketBGA1392 => 57
  | ProcessorUpgrade_SocketBGA1510 => 58
  | ProcessorUpgrade_SocketBGA1528 => 59
  | ProcessorUpgrade_SocketLGA4189 => 60
  | ProcessorUpgrade_SocketLGA1200 => 61
  | ProcessorUpgrade_Undefined _ => 62
  end.
Definition ProcessorUpgrade_value (x : ProcessorUpgrade) : option N :=
  match x with
  | ProcessorUpgrade_Undefined v => Some v
  | _ => None
  end.
Definition ProcessorUpgrade_parts (x : ProcessorUpgrade) : list part := variant_parts U8 (ProcessorUpgrade_tag x) (ProcessorUpgrade_value x).

(* src/structures/007_cache.rs:66-76 `enum CacheLevel` *)
Definition CacheLevel_tag (x : CacheLevel) : N :=
  match x with
  | CacheLevel_L1 => 0
  | CacheLevel_L2 => 1
  | CacheLevel_L3 => 2
  | CacheLevel_L4 => 3
  | CacheLevel_L5 => 4
  | CacheLevel_L6 => 5
  | CacheLevel_L7 => 6
  | CacheLevel_L8 => 7
  end.
Definition CacheLevel_value (x : CacheLevel) : option N :=
  match x with
  | _ => None
  end.
Definition CacheLevel_parts (x : CacheLevel) : list part := variant_parts U8 (CacheLevel_tag x) (CacheLevel_value x).

(* src/structures/007_cache.rs:78-84 `enum CacheLocation` *)
Definition CacheLocation_tag (x : CacheLocation) : N :=
  match x with
  | CacheLocation_Internal => 0
  | CacheLocation_External => 1
  | CacheLocation_Reserved => 2
  | CacheLocation_Unknown => 3
  end.
Definition CacheLocation_value (x : CacheLocation) : option N :=
  match x with
  | _ => None
  end.
Definition CacheLocation_parts (x : CacheLocation) : list part := variant_parts U8 (CacheLocation_tag x) (CacheLocation_value x).

(* src/structures/007_cache.rs:86-92 `enum CacheOperationalMode` *)
Definition CacheOperationalMode_tag (x : CacheOperationalMode) : N :=
  match x with
  | CacheOperationalMode_WriteThrough => 0
  | CacheOperationalMode_WriteBack => 1
  | CacheOperationalMode_ValuesWithMemoryAddress => 2
  | CacheOperationalMode_Unknown => 3
  end.
Definition CacheOperationalMode_value (x : CacheOperationalMode) : option N :=
  match x with
  | _ => None
  end.
Definition CacheOperationalMode_parts (x : CacheOperationalMode) : list part := variant_parts U8 (CacheOperationalMode_tag x) (CacheOperationalMode_value x).

(* src/structures/007_cache.rs:116-125 `enum CacheErrorCorrectionType` *)
Definition CacheErrorCorrectionType_tag (x : CacheErrorCorrectionType) : N :=
  match x with
  | CacheErrorCorrectionType_Other => 0
  | CacheErrorCorrectionType_Unknown => 1
  | CacheErrorCorrectionType_None => 2
  | CacheErrorCorrectionType_Parity => 3
  | CacheErrorCorrectionType_SingleBitEcc => 4
  | CacheErrorCorrectionType_MultiBitEcc => 5
  | CacheErrorCorrectionType_Undefined _ => 6
  end.
Definition CacheErrorCorrectionType_value (x : CacheErrorCorrectionType) : option N :=
  match x with
  | CacheErrorCorrectionType_Undefined v => Some v
  | _ => None
  end.
Definition CacheErrorCorrectionType_parts (x : CacheErrorCorrectionType) : list part := variant_parts U8 (CacheErrorCorrectionType_tag x) (CacheErrorCorrectionType_value x).

(* src/structures/007_cache.rs:132-140 `enum SystemCacheType` *)
Definition SystemCacheType_tag (x : SystemCacheType) : N :=
  match x with
  | SystemCacheType_Other => 0
  | SystemCacheType_Unknown => 1
  | SystemCacheType_Instruction => 2
  | SystemCacheType_Data => 3
  | SystemCacheType_Unified => 4
  | SystemCacheType_Undefined _ => 5
  end.
Definition SystemCacheType_value (x : SystemCacheType) : option N :=
  match x with
  | SystemCacheType_Undefined v => Some v
  | _ => None
  end.
Definition SystemCacheType_parts (x : SystemCacheType) : list part := variant_parts U8 (SystemCacheType_tag x) (SystemCacheType_value x).

(* src/structures/007_cache.rs:143-160 `enum CacheAssociativity` *)
Definition CacheAssociativity_tag (x : CacheAssociativity) : N :=
  match x with
  | CacheAssociativity_Other => 0
  | CacheAssociativity_Unknown => 1
  | CacheAssociativity_DirectMapped => 2
  | CacheAssociativity_TwowaySetAssociative => 3
  | CacheAssociativity_FourWaySetAssociative => 4
  | CacheAssociativity_FullyAssociative => 5
  | CacheAssociativity_EightWaySetAssociative => 6
  | CacheAssociativity_SixteenWaySetAssociative => 7
  | CacheAssociativity_TwelveWaySetAssociative => 8
  | CacheAssociativity_TwentyFourWaySetAssociative => 9
  | CacheAssociativity_ThirtyTwoWaySetAssociative => 10
  | CacheAssociativity_FourtyEightWaySetAssociative => 11
  | CacheAssociativity_SixtyFourWaySetAssociative => 12
  | CacheAssociativity_TwentyWaySetAssociative => 13
  | CacheAssociativity_Undefined _ => 14
  end.
Definition CacheAssociativity_value (x : CacheAssociativity) : option N :=
  match x with
  | CacheAssociativity_Undefined v => Some v
  | _ => None
  end.
Definition CacheAssociativity_parts (x : CacheAssociativity) : list part := variant_parts U8 (CacheAssociativity_tag x) (CacheAssociativity_value x).

(* src/structures/008_port_connector.rs:37-82 `enum ConnectorType` *)
Definition ConnectorType_tag (x : ConnectorType) : N :=
  match x with
  | ConnectorType_None => 0
  | ConnectorType_Centronics => 1
  | ConnectorType_MiniCentronics => 2
  | ConnectorType_Proprietary => 3
  | ConnectorType_Db25PinMale => 4
  | ConnectorType_Db25PinFemale => 5
  | ConnectorType_Db15PinMale => 6
  | ConnectorType_Db15PinFemale => 7
  | ConnectorType_Db9PinMale => 8
  | ConnectorType_Db9PinFemale => 9
  | ConnectorType_Rj11 => 10
  | ConnectorType_Rj45 => 11
  | ConnectorType_MiniScsi => 12
  | ConnectorType_MiniDin => 13
  | ConnectorType_MicroDin => 14
  | ConnectorType_Ps2 => 15
  | ConnectorType_Infrared => 16
  | ConnectorType_HpHil => 17
  | ConnectorType_AccessBus => 18
  | ConnectorType_SsaScsi => 19
  | ConnectorType_CircularDin8Male => 20
  | ConnectorType_CircularDin8Female => 21
  | ConnectorType_OnBoardIde => 22
  | ConnectorType_OnBoardFloppy => 23
  | ConnectorType_DualInline9 => 24
  | ConnectorType_DualInline25 => 25
  | ConnectorType_DualInline50 => 26
  | ConnectorType_DualInline68 => 27
  | ConnectorType_OnBoardSoundInputFromCdRom => 28
  | ConnectorType_MiniCentronicsType14 => 29
  | ConnectorType_MiniCentronicsType26 => 30
  | ConnectorType_MiniJack => 31
  | ConnectorType_Bnc => 32
  | ConnectorType_Ieee1394 => 33
  | ConnectorType_SasSataPlugReceptacle => 34
  | ConnectorType_UsbTypeCReceptacle => 35
  | ConnectorType_Pc98 => 36
  | ConnectorType_Pc98Hireso => 37
  | ConnectorType_PcH98 => 38
  | ConnectorType_Pc98Note => 39
  | ConnectorType_Pc98Full => 40
  | ConnectorType_Other => 41
  | ConnectorType_Undefined _ => 42
  end.
Definition ConnectorType_value (x : ConnectorType) : option N :=
  match x with
  | ConnectorType_Undefined v => Some v
  | _ => None
  end.
Definition ConnectorType_parts (x : ConnectorType) : list part := variant_parts U8 (ConnectorType_tag x) (ConnectorType_value x).

(* src/structures/008_port_connector.rs:84-126 `enum PortType` *)
Definition PortType_tag (x : PortType) : N :=
  match x with
  | PortType_None => 0
  | PortType_ParallelPortXtAtCompatible => 1
  | PortType_ParallelPortPs2 => 2
  | PortType_ParallelPortEcp => 3
  | PortType_ParallelPortEpp => 4
  | PortType_ParallelPortEcpEpp => 5
  | PortType_SerialPortXtAtCompatible => 6
  | PortType_SerialPort16450Compatible => 7
  | PortType_SerialPort16550Compatible => 8
  | PortType_SerialPort16550ACompatible => 9
  | PortType_ScsiPort => 10
  | PortType_MidiPort => 11
  | PortType_JoyStickPort => 12
  | PortType_KeyboardPort => 13
  | PortType_MousePort => 14
  | PortType_SsaScsi => 15
  | PortType_Usb => 16
  | PortType_FireWire => 17
  | PortType_PcmciaType1 => 18
  | PortType_PcmciaType2 => 19
  | PortType_PcmciaType3 => 20
  | PortType_Cardbus => 21
  | PortType_AccessBusPort => 22
  | PortType_Scsi2 => 23
  | PortType_ScsiWide => 24
  | PortType_Pc98 => 25
  | PortType_Pc98Hireso => 26
  | PortType_PcH98 => 27
  | PortType_VideoPort => 28
  | PortType_AudioPort => 29
  | PortType_ModemPort => 30
  | PortType_NetworkPort => 31
  | PortType_Sata => 32
  | PortType_Sas => 33
  | PortType_MultiFunctionDisplayPort => 34
  | PortType_Thunderbolt => 35
  | PortType_Intel8251Compatible => 36
  | PortType_Intel8251FifoCompatible => 37
  | PortType_Other => 38
  | PortType_Undefined _ => 39
  end.
Definition PortType_value (x : PortType) : option N :=
  match x with
  | PortType_Undefined v => Some v
  | _ => None
  end.
Definition PortType_parts (x : PortType) : list part := variant_parts U8 (PortType_tag x) (PortType_value x).

(* src/structures/009_system_slots.rs:72-235 `enum SlotType` *)
Definition SlotType_tag (x : SlotType) : N :=
  match x with
  | SlotType_Other => 0
  | SlotType_Unknown => 1
  | SlotType_Isa => 2
  | SlotType_Mca => 3
  | SlotType_Eisa => 4
  | SlotType_Pci => 5
  | SlotType_PcCard => 6
  | SlotType_VlVesa => 7
  | SlotType_Proprietary => 8
  | SlotType_ProcessorCardSlot => 9
  | SlotType_ProprietaryMemoryCardSlot => 10
  | SlotType_IoRiserCardSlot => 11
  | SlotType_Nubus => 12
  | SlotType_Pci66Mhz => 13
  | SlotType_Agp => 14
  | SlotType_Agp2x => 15
  | SlotType_Agp4x => 16
  | SlotType_PciX => 17
  | SlotType_Agp8x => 18
  | SlotType_M2Socket1DP => 19
  | SlotType_M2Socket1SD => 20
  | SlotType_M2Socket2 => 21
  | SlotType_M2Socket3 => 22
  | SlotType_MxmType1 => 23
  | SlotType_MxmType2 => 24
  | SlotType_MxmType3 => 25
  | SlotType_MxmType3He => 26
  | SlotType_MxmType4 => 27
  | SlotType_Mxm3TypeA => 28
  | SlotType_Mxm3TypeB => 29
  | SlotType_U2PciExpressGen2 => 30
  | SlotType_U2PciExpressGen3 => 31
  | SlotType_PciExpressMini52pin1 => 32
  | SlotType_PciExpressMini52pin2 => 33
  | SlotType_PciExpressMini76pin => 34
  | SlotType_U2PciExpressGen4 => 35
  | SlotType_U2PciExpressGen5 => 36
  | SlotType_OcpNic3Small => 37
  | SlotType_OcpNic3Large => 38
  | SlotType_OcpNicPriorTo3 => 39
  | SlotType_CxlFlexbus1 => 40
  | SlotType_Pc98C20 => 41
  | SlotType_Pc98C24 => 42
  | SlotType_Pc98E => 43
  | SlotType_Pc98LocalBus => 44
  | SlotType_Pc98Card => 45
  | SlotType_PciExpress => 46
  | SlotType_PciExpressX1 => 47
  | SlotType_PciExpressX2 => 48
  | SlotType_PciExpressX4 => 49
  | SlotType_PciExpressX8 => 50
  | SlotType_PciExpressX16 => 51
  | SlotType_PciExpressGen2 => 52
  | SlotType_PciExpressGen2x1 => 53
  | SlotType_PciExpressGen2x2 => 54
  | SlotType_PciExpressGen2x4 => 55
  | SlotType_PciExpressGen2x8 => 56
  | SlotType_PciExpressGen2x16 => 57
  | SlotType_PciExpressGen3 => 58
  | SlotType_PciExpressGen3x1 => 59
  | SlotType_PciExpressGen3x2 => 60
  | SlotType_PciExpressGen3x4 => 61
  | SlotType_PciExpressGen3x8 => 62
  | SlotType_PciExpressGen3x16 => 63
  | SlotType_PciExpressGen4 => 64
  | SlotType_PciExpressGen4x1 => 65
  | SlotType_PciExpressGen4x2 => 66
  | SlotType_PciExpressGen4x4 => 67
  | SlotType_PciExpressGen4x8 => 68
  | SlotType_PciExpressGen4x16 => 69
  | SlotType_PciExpressGen5 => 70
  | SlotType_PciExpressGen5x1 => 71
  | SlotType_PciExpressGen5x2 => 72
  | SlotType_PciExpressGen5x4 => 73
  | SlotType_PciExpressGen5x8 => 74
  | SlotType_PciExpressGen5x16 => 75
  | SlotType_PciExpressGen6 => 76
  | SlotType_E1FormFactorSlot => 77
  | SlotType_E3FormFactorSlot => 78
  | SlotType_Undefined _ => 79
  end.
Definition SlotType_value (x : SlotType) : option N :=
  match x with
  | SlotType_Undefined v => Some v
  | _ => None
  end.
Definition SlotType_parts (x : SlotType) : list part := variant_parts U8 (SlotType_tag x) (SlotType_value x).

(* src/structures/009_system_slots.rs:237-266 `enum SlotWidth` *)
Definition SlotWidth_tag (x : SlotWidth) : N :=
  match x with
  | SlotWidth_Other => 0
  | SlotWidth_Unknown => 1
  | SlotWidth_Byte => 2
  | SlotWidth_Word => 3
  | SlotWidth_Dword => 4
  | SlotWidth_Qword => 5
  | SlotWidth_Dqword => 6
  | SlotWidth_X1 => 7
  | SlotWidth_X2 => 8
  | SlotWidth_X4 => 9
  | SlotWidth_X8 => 10
  | SlotWidth_X12 => 11
  | SlotWidth_X16 => 12
  | SlotWidth_X32 => 13
  | SlotWidth_Undefined _ => 14
  end.
Definition SlotWidth_value (x : SlotWidth) : option N :=
  match x with
  | SlotWidth_Undefined v => Some v
  | _ => None
  end.
Definition SlotWidth_parts (x : SlotWidth) : list part := variant_parts U8 (SlotWidth_tag x) (SlotWidth_value x).

(* src/structures/009_system_slots.rs:268-278 `enum CurrentUsage` *)
Definition CurrentUsage_tag (x : CurrentUsage) : N :=
  match x with
  | CurrentUsage_Other => 0
  | CurrentUsage_Unknown => 1
  | CurrentUsage_Available => 2
  | CurrentUsage_InUse => 3
  | CurrentUsage_Unavailable => 4
  | CurrentUsage_Undefined _ => 5
  end.
Definition CurrentUsage_value (x : CurrentUsage) : option N :=
  match x with
  | CurrentUsage_Undefined v => Some v
  | _ => None
  end.
Definition CurrentUsage_parts (x : CurrentUsage) : list part := variant_parts U8 (CurrentUsage_tag x) (CurrentUsage_value x).

(* src/structures/009_system_slots.rs:280-291 `enum SlotLength` *)
Definition SlotLength_tag (x : SlotLength) : N :=
  match x with
  | SlotLength_Other => 0
  | SlotLength_Unknown => 1
  | SlotLength_ShortLength => 2
  | SlotLength_LongLength => 3
  | SlotLength_DriveFormFactor2_5 => 4
  | SlotLength_DriveFormFactor3_5 => 5
  | SlotLength_Undefined _ => 6
  end.
Definition SlotLength_value (x : SlotLength) : option N :=
  match x with
  | SlotLength_Undefined v => Some v
  | _ => None
  end.
Definition SlotLength_parts (x : SlotLength) : list part := variant_parts U8 (SlotLength_tag x) (SlotLength_value x).

(* src/structures/015_system_event_log/log_record_format.rs:51-108 `enum EventLogType` *)
Definition EventLogType_tag (x : EventLogType) : N :=
  match x with
  | EventLogType_Reserved _ => 0
  | EventLogType_SingleBitEccMemoryError => 1
  | EventLogType_MultiBitEccMemoryError => 2
  | EventLogType_ParityMemoryError => 3
  | EventLogType_BusTimeOut => 4
  | EventLogType_IoChannelCheck => 5
  | EventLogType_SoftwareNmi => 6
  | EventLogType_PostMemoryResize => 7
  | EventLogType_PostError => 8
  | EventLogType_PciParityError => 9
  | EventLogType_PciSystemError => 10
  | EventLogType_CpuFailure => 11
  | EventLogType_EisaFailSafeTimerTimeOut => 12
  | EventLogType_CorrectableMemoryLogDisabled => 13
  | EventLogType_LoggingDisabledForSpecificEventType => 14
  | EventLogType_SystemLimitExceeded => 15
  | EventLogType_AsynchronousHardwareTimerExpired => 16
  | EventLogType_SystemConfigurationInformation => 17
  | EventLogType_HardDiskInformation => 18
  | EventLogType_SystemReconfigured => 19
  | EventLogType_UncorrectableCpuComplexError => 20
  | EventLogType_LogAreaReset => 21
  | EventLogType_SystemBoot => 22
  | EventLogType_Unused _ => 23
  | EventLogType_Available _ => 24
  | EventLogType_EndOfLog => 25
  end.
Definition EventLogType_value (x : EventLogType) : option N :=
  match x with
  | EventLogType_Reserved v => Some v
  | EventLogType_Unused v => Some v
  | EventLogType_Available v => Some v
  | _ => None
  end.
Definition EventLogType_parts (x : EventLogType) : list part := variant_parts U8 (EventLogType_tag x) (EventLogType_value x).

(* src/structures/015_system_event_log/mod.rs:84-94 `enum LogHeaderFormat` *)
Definition LogHeaderFormat_tag (x : LogHeaderFormat) : N :=
  match x with
  | LogHeaderFormat_NoHeader => 0
  | LogHeaderFormat_LogHeaderType1 => 1
  | LogHeaderFormat_Available _ => 2
  | LogHeaderFormat_OemSpecific _ => 3
  end.
Definition LogHeaderFormat_value (x : LogHeaderFormat) : option N :=
  match x with
  | LogHeaderFormat_Available v => Some v
  | LogHeaderFormat_OemSpecific v => Some v
  | _ => None
  end.
Definition LogHeaderFormat_parts (x : LogHeaderFormat) : list part := variant_parts U8 (LogHeaderFormat_tag x) (LogHeaderFormat_value x).

(* src/structures/016_physical_memory_array.rs:11-30 `enum MemoryArrayLocation` *)
Definition MemoryArrayLocation_tag (x : MemoryArrayLocation) : N :=
  match x with
  | MemoryArrayLocation_Other => 0
  | MemoryArrayLocation_Unknown => 1
  | MemoryArrayLocation_SystemBoardOrMotherboard => 2
  | MemoryArrayLocation_IsaAddOnCard => 3
  | MemoryArrayLocation_EisaAddOnCard => 4
  | MemoryArrayLocation_PciAddOnCard => 5
  | MemoryArrayLocation_McaAddOnCard => 6
  | MemoryArrayLocation_PcmciaAddOnCard => 7
  | MemoryArrayLocation_ProprietaryAddOnCard => 8
  | MemoryArrayLocation_NuBus => 9
  | MemoryArrayLocation_Pc98c20AddOnCard => 10
  | MemoryArrayLocation_Pc98c24AddOnCard => 11
  | MemoryArrayLocation_Pc98eAddOnCard => 12
  | MemoryArrayLocation_Pc98LocalBusAddOnCard => 13
  | MemoryArrayLocation_CxlAddOnCard => 14
  | MemoryArrayLocation_Undefined _ => 15
  end.
Definition MemoryArrayLocation_value (x : MemoryArrayLocation) : option N :=
  match x with
  | MemoryArrayLocation_Undefined v => Some v
  | _ => None
  end.
Definition MemoryArrayLocation_parts (x : MemoryArrayLocation) : list part := variant_parts U8 (MemoryArrayLocation_tag x) (MemoryArrayLocation_value x).

(* src/structures/016_physical_memory_array.rs:78-89 `enum MemoryArrayUse` *)
Definition MemoryArrayUse_tag (x : MemoryArrayUse) : N :=
  match x with
  | MemoryArrayUse_Other => 0
  | MemoryArrayUse_Unknown => 1
  | MemoryArrayUse_SystemMemory => 2
  | MemoryArrayUse_VideoMemory => 3
  | MemoryArrayUse_FlashMemory => 4
  | MemoryArrayUse_NonVolatileRam => 5
  | MemoryArrayUse_CacheMemory => 6
  | MemoryArrayUse_Undefined _ => 7
  end.
Definition MemoryArrayUse_value (x : MemoryArrayUse) : option N :=
  match x with
  | MemoryArrayUse_Undefined v => Some v
  | _ => None
  end.
Definition MemoryArrayUse_parts (x : MemoryArrayUse) : list part := variant_parts U8 (MemoryArrayUse_tag x) (MemoryArrayUse_value x).

(* src/structures/016_physical_memory_array.rs:121-132 `enum MemoryArrayErrorCorrectionTypes` *)
Definition MemoryArrayErrorCorrectionTypes_tag (x : MemoryArrayErrorCorrectionTypes) : N :=
  match x with
  | MemoryArrayErrorCorrectionTypes_Other => 0
  | MemoryArrayErrorCorrectionTypes_Unknown => 1
  | MemoryArrayErrorCorrectionTypes_None => 2
  | MemoryArrayErrorCorrectionTypes_Parity => 3
  | MemoryArrayErrorCorrectionTypes_SingleBitEcc => 4
  | MemoryArrayErrorCorrectionTypes_MultiBitEcc => 5
  | MemoryArrayErrorCorrectionTypes_CRC => 6
  | MemoryArrayErrorCorrectionTypes_Undefined _ => 7
  end.
Definition MemoryArrayErrorCorrectionTypes_value (x : MemoryArrayErrorCorrectionTypes) : option N :=
  match x with
  | MemoryArrayErrorCorrectionTypes_Undefined v => Some v
  | _ => None
  end.
Definition MemoryArrayErrorCorrectionTypes_parts (x : MemoryArrayErrorCorrectionTypes) : list part := variant_parts U8 (MemoryArrayErrorCorrectionTypes_tag x) (MemoryArrayErrorCorrectionTypes_value x).

(* src/structures/017_memory_device.rs:16-23 `enum ErrorGranularity` *)
Definition MDErrorGranularity_tag (x : MDErrorGranularity) : N :=
  match x with
  | MDErrorGranularity_Other => 0
  | MDErrorGranularity_Unknown => 1
  | MDErrorGranularity_DeviceLevel => 2
  | MDErrorGranularity_MemoryLevel => 3
  | MDErrorGranularity_Undefined _ => 4
  end.
Definition MDErrorGranularity_value (x : MDErrorGranularity) : option N :=
  match x with
  | MDErrorGranularity_Undefined v => Some v
  | _ => None
  end.
Definition MDErrorGranularity_parts (x : MDErrorGranularity) : list part := variant_parts U8 (MDErrorGranularity_tag x) (MDErrorGranularity_value x).

(* src/structures/017_memory_device.rs:37-45 `enum ErrorOperation` *)
Definition MDErrorOperation_tag (x : MDErrorOperation) : N :=
  match x with
  | MDErrorOperation_Other => 0
  | MDErrorOperation_Unknown => 1
  | MDErrorOperation_Read => 2
  | MDErrorOperation_Write => 3
  | MDErrorOperation_PartialWrite => 4
  | MDErrorOperation_Undefined _ => 5
  end.
Definition MDErrorOperation_value (x : MDErrorOperation) : option N :=
  match x with
  | MDErrorOperation_Undefined v => Some v
  | _ => None
  end.
Definition MDErrorOperation_parts (x : MDErrorOperation) : list part := variant_parts U8 (MDErrorOperation_tag x) (MDErrorOperation_value x).

(* src/structures/017_memory_device.rs:60-77 `enum ErrorType` *)
Definition MDErrorType_tag (x : MDErrorType) : N :=
  match x with
  | MDErrorType_Other => 0
  | MDErrorType_Unknown => 1
  | MDErrorType_Ok => 2
  | MDErrorType_BadRead => 3
  | MDErrorType_Parity => 4
  | MDErrorType_SingleBit => 5
  | MDErrorType_DoubleBit => 6
  | MDErrorType_MultiBit => 7
  | MDErrorType_Nibble => 8
  | MDErrorType_Checksum => 9
  | MDErrorType_Crc => 10
  | MDErrorType_CorrectedSingleBit => 11
  | MDErrorType_Corrected => 12
  | MDErrorType_Uncorrectable => 13
  | MDErrorType_Undefined _ => 14
  end.
Definition MDErrorType_value (x : MDErrorType) : option N :=
  match x with
  | MDErrorType_Undefined v => Some v
  | _ => None
  end.
Definition MDErrorType_parts (x : MDErrorType) : list part := variant_parts U8 (MDErrorType_tag x) (MDErrorType_value x).

(* src/structures/017_memory_device.rs:101-120 `enum FormFactor` *)
Definition FormFactor_tag (x : FormFactor) : N :=
  match x with
  | FormFactor_Other => 0
  | FormFactor_Unknown => 1
  | FormFactor_Simm => 2
  | FormFactor_Sip => 3
  | FormFactor_Chip => 4
  | FormFactor_Dip => 5
  | FormFactor_Zip => 6
  | FormFactor_ProprietaryCard => 7
  | FormFactor_Dimm => 8
  | FormFactor_Tsop => 9
  | FormFactor_RowOfChips => 10
  | FormFactor_Rimm => 11
  | FormFactor_SoDimm => 12
  | FormFactor_Srimm => 13
  | FormFactor_FbDimm => 14
  | FormFactor_Undefined _ => 15
  end.
Definition FormFactor_value (x : FormFactor) : option N :=
  match x with
  | FormFactor_Undefined v => Some v
  | _ => None
  end.
Definition FormFactor_parts (x : FormFactor) : list part := variant_parts U8 (FormFactor_tag x) (FormFactor_value x).

(* src/structures/017_memory_device.rs:146-157 `enum MemoryTechnology` *)
Definition MemoryTechnology_tag (x : MemoryTechnology) : N :=
  match x with
  | MemoryTechnology_Other => 0
  | MemoryTechnology_Unknown => 1
  | MemoryTechnology_Dram => 2
  | MemoryTechnology_NvDimmN => 3
  | MemoryTechnology_NvDimmF => 4
  | MemoryTechnology_NvDimmP => 5
  | MemoryTechnology_IntelOptane => 6
  | MemoryTechnology_Undefined _ => 7
  end.
Definition MemoryTechnology_value (x : MemoryTechnology) : option N :=
  match x with
  | MemoryTechnology_Undefined v => Some v
  | _ => None
  end.
Definition MemoryTechnology_parts (x : MemoryTechnology) : list part := variant_parts U8 (MemoryTechnology_tag x) (MemoryTechnology_value x).

(* src/structures/017_memory_device.rs:174-211 `enum Type` *)
Definition MemoryType_tag (x : MemoryType) : N :=
  match x with
  | MemoryType_Other => 0
  | MemoryType_Unknown => 1
  | MemoryType_Dram => 2
  | MemoryType_Edram => 3
  | MemoryType_Vram => 4
  | MemoryType_Sram => 5
  | MemoryType_Ram => 6
  | MemoryType_Rom => 7
  | MemoryType_Flash => 8
  | MemoryType_Eeprom => 9
  | MemoryType_Feprom => 10
  | MemoryType_Eprom => 11
  | MemoryType_Cdram => 12
  | MemoryType_ThreeDram => 13
  | MemoryType_Sdram => 14
  | MemoryType_Sgram => 15
  | MemoryType_Rdram => 16
  | MemoryType_Ddr => 17
  | MemoryType_Ddr2 => 18
  | MemoryType_Ddr2FbDimm => 19
  | MemoryType_Reserved => 20
  | MemoryType_Ddr3 => 21
  | MemoryType_Fbd2 => 22
  | MemoryType_Ddr4 => 23
  | MemoryType_Ddr5 => 24
  | MemoryType_LpDdr => 25
  | MemoryType_LpDdr2 => 26
  | MemoryType_LpDdr3 => 27
  | MemoryType_LpDdr4 => 28
  | MemoryType_LpDdr5 => 29
  | MemoryType_LogicalNonVolatileDevice => 30
  | MemoryType_Hbm => 31
  | MemoryType_Hbm2 => 32
  | MemoryType_Undefined _ => 33
  end.
Definition MemoryType_value (x : MemoryType) : option N :=
  match x with
  | MemoryType_Undefined v => Some v
  | _ => None
  end.
Definition MemoryType_parts (x : MemoryType) : list part := variant_parts U8 (MemoryType_tag x) (MemoryType_value x).

(* src/structures/018_memory_error_32.rs:39-56 `enum ErrorType` *)
Definition MEErrorType_tag (x : MEErrorType) : N :=
  match x with
  | MEErrorType_Other => 0
  | MEErrorType_Unknown => 1
  | MEErrorType_Ok => 2
  | MEErrorType_BadRead => 3
  | MEErrorType_ParityError => 4
  | MEErrorType_SingleBitError => 5
  | MEErrorType_DoubleBitError => 6
  | MEErrorType_MultiBitError => 7
  | MEErrorType_NibbleError => 8
  | MEErrorType_ChecksumError => 9
  | MEErrorType_CrcError => 10
  | MEErrorType_CorrectedSingleBitError => 11
  | MEErrorType_CorrectedError => 12
  | MEErrorType_UncorrectableError => 13
  | MEErrorType_Undefined _ => 14
  end.
Definition MEErrorType_value (x : MEErrorType) : option N :=
  match x with
  | MEErrorType_Undefined v => Some v
  | _ => None
  end.
Definition MEErrorType_parts (x : MEErrorType) : list part := variant_parts U8 (MEErrorType_tag x) (MEErrorType_value x).

(* src/structures/018_memory_error_32.rs:59-68 `enum ErrorGranularity` *)
Definition MEErrorGranularity_tag (x : MEErrorGranularity) : N :=
  match x with
  | MEErrorGranularity_Other => 0
  | MEErrorGranularity_Unknown => 1
  | MEErrorGranularity_DeviceLevel => 2
  | MEErrorGranularity_MemoryPartitionLevel => 3
  | MEErrorGranularity_Undefined _ => 4
  end.
Definition MEErrorGranularity_value (x : MEErrorGranularity) : option N :=
  match x with
  | MEErrorGranularity_Undefined v => Some v
  | _ => None
  end.
Definition MEErrorGranularity_parts (x : MEErrorGranularity) : list part := variant_parts U8 (MEErrorGranularity_tag x) (MEErrorGranularity_value x).

(* src/structures/018_memory_error_32.rs:71-80 `enum ErrorOperation` *)
Definition MEErrorOperation_tag (x : MEErrorOperation) : N :=
  match x with
  | MEErrorOperation_Other => 0
  | MEErrorOperation_Unknown => 1
  | MEErrorOperation_Read => 2
  | MEErrorOperation_Write => 3
  | MEErrorOperation_PartialWrite => 4
  | MEErrorOperation_Undefined _ => 5
  end.
Definition MEErrorOperation_value (x : MEErrorOperation) : option N :=
  match x with
  | MEErrorOperation_Undefined v => Some v
  | _ => None
  end.
Definition MEErrorOperation_parts (x : MEErrorOperation) : list part := variant_parts U8 (MEErrorOperation_tag x) (MEErrorOperation_value x).

(* src/structures/021_built_in_pointing_device.rs:28-40 `enum Type` *)
Definition PointingDeviceType_tag (x : PointingDeviceType) : N :=
  match x with
  | PointingDeviceType_Other => 0
  | PointingDeviceType_Unknown => 1
  | PointingDeviceType_Mouse => 2
  | PointingDeviceType_TrackBall => 3
  | PointingDeviceType_TrackPoint => 4
  | PointingDeviceType_GlidePoint => 5
  | PointingDeviceType_TouchPad => 6
  | PointingDeviceType_TouchScreen => 7
  | PointingDeviceType_OpticalSensor => 8
  | PointingDeviceType_Undefined _ => 9
  end.
Definition PointingDeviceType_value (x : PointingDeviceType) : option N :=
  match x with
  | PointingDeviceType_Undefined v => Some v
  | _ => None
  end.
Definition PointingDeviceType_parts (x : PointingDeviceType) : list part := variant_parts U8 (PointingDeviceType_tag x) (PointingDeviceType_value x).

(* src/structures/021_built_in_pointing_device.rs:42-63 `enum Interface` *)
Definition PointingDeviceInterface_tag (x : PointingDeviceInterface) : N :=
  match x with
  | PointingDeviceInterface_Other => 0
  | PointingDeviceInterface_Unknown => 1
  | PointingDeviceInterface_Serial => 2
  | PointingDeviceInterface_Ps2 => 3
  | PointingDeviceInterface_Infrared => 4
  | PointingDeviceInterface_HpHil => 5
  | PointingDeviceInterface_BusMouse => 6
  | PointingDeviceInterface_Adb => 7
  | PointingDeviceInterface_BusMouseDb9 => 8
  | PointingDeviceInterface_BusMouseMicroDin => 9
  | PointingDeviceInterface_Usb => 10
  | PointingDeviceInterface_Undefined _ => 11
  end.
Definition PointingDeviceInterface_value (x : PointingDeviceInterface) : option N :=
  match x with
  | PointingDeviceInterface_Undefined v => Some v
  | _ => None
  end.
Definition PointingDeviceInterface_parts (x : PointingDeviceInterface) : list part := variant_parts U8 (PointingDeviceInterface_tag x) (PointingDeviceInterface_value x).

(* src/lib.rs:290-294 `struct SmbiosVersion` *)
Definition SmbiosVersion_parts (x : SmbiosVersion) : list part :=
  (num U8) (major x) ++
  (num U8) (minor x).

(* src/lib.rs:570-578 `struct RawStructure` *)
Definition RawStructure_parts (x : RawStructure) : list part :=
  SmbiosVersion_parts (version x) ++
  InfoType_parts (info x) ++
  (num U8) (length_ x) ++
  (num U16) (handle x) ++
  slice (data x) ++
  slice (strings x).

(* src/lib.rs:661-665 `struct StructureStrings` *)
Definition StructureStrings_parts (x : StructureStrings) : list part :=
  slice (bytes x) ++
  (num Usize) (start x).

(* src/structures/000_bios.rs:56-60 `struct BiosRevision` *)
Definition Revision_parts (x : Revision) : list part :=
  (num U8) (rev_major x) ++
  (num U8) (rev_minor x).

(* src/structures/000_bios.rs:71-78 `struct RomSize` *)
Definition RomSize_parts (x : RomSize) : list part :=
  (num U8) (basic x) ++
  (option_parts (num U16)) (extended x).

(* src/structures/000_bios.rs:11-39 `struct Bios` *)
Definition Bios_parts (x : Bios) : list part :=
  (num U16) (bios_handle x) ++
  str (bios_vendor x) ++
  str (bios_bios_version x) ++
  (num U16) (bios_starting_address_segment x) ++
  str (bios_release_date x) ++
  RomSize_parts (bios_rom_size x) ++
  (num U64) (bios_characteristics x) ++
  (option_parts (num U8)) (bios_characteristics_extension_1 x) ++
  (option_parts (num U8)) (bios_characteristics_extension_2 x) ++
  (option_parts Revision_parts) (bios_revision x) ++
  (option_parts Revision_parts) (bios_firmware_revision x).

(* src/structures/001_system.rs:47-58 `struct System` *)
Definition System_parts (x : System) : list part :=
  (num U16) (system_handle x) ++
  str (system_manufacturer x) ++
  str (system_product x) ++
  str (system_version x) ++
  str (system_serial x) ++
  (option_parts slice) (system_uuid x) ++
  (option_parts WakeupType_parts) (system_wakeup x) ++
  (option_parts str) (system_sku x) ++
  (option_parts str) (system_family x).

(* src/structures/002_baseboard.rs:90-102 `struct BaseBoard` *)
Definition BaseBoard_parts (x : BaseBoard) : list part :=
  (num U16) (baseboard_handle x) ++
  str (baseboard_manufacturer x) ++
  str (baseboard_product x) ++
  str (baseboard_version x) ++
  str (baseboard_serial x) ++
  (option_parts str) (baseboard_asset x) ++
  (option_parts (num U8)) (baseboard_feature_flags x) ++
  (option_parts str) (baseboard_location_in_chassis x) ++
  (option_parts (num U16)) (baseboard_chassis_handle x) ++
  (option_parts BoardType_parts) (baseboard_board_type x).

(* src/structures/003_enclosure.rs:158-162 `enum ContainedElementType` *)
Definition ContainedElementType_parts (x : ContainedElementType) : list part :=
  match x with
  | CE_BoardType b => Tag 0 :: BoardType_parts b
  | CE_InfoType i => Tag 1 :: InfoType_parts i
  end.

(* src/structures/003_enclosure.rs:143-154 `struct ContainedElement` *)
Definition ContainedElement_parts (x : ContainedElement) : list part :=
  ContainedElementType_parts (cel_type x) ++
  (num U8) (cel_minimum x) ++
  (num U8) (cel_maximum x).

(* src/structures/003_enclosure.rs:15-53 `struct Enclosure` *)
Definition Enclosure_parts (x : Enclosure) : list part :=
  (num U16) (enclosure_handle x) ++
  str (enclosure_manufacturer x) ++
  flag (enclosure_chassis_lock x) ++
  EnclosureType_parts (enclosure_enclosure_type x) ++
  str (enclosure_version x) ++
  str (enclosure_serial_number x) ++
  str (enclosure_asset_tag_number x) ++
  (option_parts State_parts) (enclosure_boot_up_state x) ++
  (option_parts State_parts) (enclosure_power_supply_state x) ++
  (option_parts State_parts) (enclosure_thermal_state x) ++
  (option_parts SecurityStatus_parts) (enclosure_security_status x) ++
  (option_parts (num U32)) (enclosure_oem_defined x) ++
  (option_parts (num U8)) (enclosure_height x) ++
  (option_parts (num U8)) (enclosure_power_cords_number x) ++
  (option_parts elements) (enclosure_contained_elements x) ++
  (option_parts str) (enclosure_sku_number x).

(* src/structures/004_processor.rs:386-391 `enum Voltage` *)
Definition Voltage_parts (x : Voltage) : list part :=
  match x with
  | Voltage_Legacy bits => Tag 0 :: (num U8) bits
  | Voltage_Current v => Tag 1 :: (num U8) v
  | Voltage_Undefined v => Tag 2 :: (num U8) v
  end.

(* src/structures/004_processor.rs:75-126 `struct Processor` *)
Definition Processor_parts (x : Processor) : list part :=
  (num U16) (processor_handle x) ++
  str (processor_socket_designation x) ++
  ProcessorType_parts (processor_processor_type x) ++
  ProcessorFamily_parts (processor_processor_family x) ++
  str (processor_processor_manufacturer x) ++
  (num U64) (processor_processor_id x) ++
  str (processor_processor_version x) ++
  Voltage_parts (processor_voltage x) ++
  (num U16) (processor_external_clock x) ++
  (num U16) (processor_max_speed x) ++
  (num U16) (processor_current_speed x) ++
  (num U8) (processor_status x) ++
  ProcessorUpgrade_parts (processor_processor_upgrade x) ++
  (option_parts (num U16)) (processor_l1_cache_handle x) ++
  (option_parts (num U16)) (processor_l2_cache_handle x) ++
  (option_parts (num U16)) (processor_l3_cache_handle x) ++
  (option_parts str) (processor_serial_number x) ++
  (option_parts str) (processor_asset_tag x) ++
  (option_parts str) (processor_part_number x) ++
  (option_parts (num U16)) (processor_core_count x) ++
  (option_parts (num U16)) (processor_core_enabled x) ++
  (option_parts (num U16)) (processor_thread_count x) ++
  (option_parts (num U16)) (processor_processor_characteristics x).

(* src/structures/007_cache.rs:52-64 `struct CacheConfiguration` *)
Definition CacheConfiguration_parts (x : CacheConfiguration) : list part :=
  CacheLevel_parts (level x) ++
  flag (socketed x) ++
  CacheLocation_parts (location x) ++
  flag (enabled_at_boot_time x) ++
  CacheOperationalMode_parts (operational_mode x).

(* src/structures/007_cache.rs:95-99 `enum CacheSize` *)
Definition CacheSize_parts (x : CacheSize) : list part :=
  match x with
  | Granularity1K v => Tag 0 :: (num U16) v
  | Granularity64K v => Tag 1 :: (num U16) v
  end.

(* src/structures/007_cache.rs:163-167 `enum CacheSize2` *)
Definition CacheSize2_parts (x : CacheSize2) : list part :=
  match x with
  | Granularity1K_2 v => Tag 0 :: (num U32) v
  | Granularity64K_2 v => Tag 1 :: (num U32) v
  end.

(* src/structures/007_cache.rs:18-50 `struct Cache` *)
Definition Cache_parts (x : Cache) : list part :=
  (num U16) (cache_handle x) ++
  str (cache_socket_designation x) ++
  CacheConfiguration_parts (cache_cache_configuration x) ++
  CacheSize_parts (cache_maximum_cache_size x) ++
  CacheSize_parts (cache_installed_size x) ++
  (num U16) (cache_supported_sram_type x) ++
  (num U16) (cache_current_sram_type x) ++
  (option_parts (num U8)) (cache_cache_speed x) ++
  (option_parts CacheErrorCorrectionType_parts) (cache_error_correction_type x) ++
  (option_parts SystemCacheType_parts) (cache_system_cache_type x) ++
  (option_parts CacheAssociativity_parts) (cache_associativity x) ++
  (option_parts CacheSize2_parts) (cache_maximum_cache_size_2 x) ++
  (option_parts CacheSize2_parts) (cache_installed_size_2 x).

(* src/structures/008_port_connector.rs:18-34 `struct PortConnector` *)
Definition PortConnector_parts (x : PortConnector) : list part :=
  (num U16) (port_handle x) ++
  str (port_internal_reference_designator x) ++
  ConnectorType_parts (port_internal_connector_type x) ++
  str (port_external_reference_designator x) ++
  ConnectorType_parts (port_external_connector_type x) ++
  PortType_parts (port_port_type x).

(* src/structures/009_system_slots.rs:313-314 `struct DeviceAndFunctionNumber` *)
Definition DeviceAndFunctionNumber_parts (x : DeviceAndFunctionNumber) : list part :=
  (num U8) (dev x) ++
  (num U8) (fun_ x).

(* src/structures/009_system_slots.rs:299-311 `struct Device` *)
Definition Device_parts (x : Device) : list part :=
  (num U16) (device_segment_group_number x) ++
  (num U8) (device_bus_number x) ++
  DeviceAndFunctionNumber_parts (device_device_and_function_number x) ++
  (num U8) (device_data_bus_width x).

(* src/structures/009_system_slots.rs:21-70 `struct SystemSlots` *)
Definition SystemSlots_parts (x : SystemSlots) : list part :=
  (num U16) (slots_handle x) ++
  str (slots_slot_designation x) ++
  SlotType_parts (slots_slot_type x) ++
  SlotWidth_parts (slots_slot_data_bus_width x) ++
  CurrentUsage_parts (slots_current_usage x) ++
  SlotLength_parts (slots_slot_length x) ++
  (num U16) (slots_slot_id x) ++
  (num U8) (slots_slot_characteristics_1 x) ++
  (option_parts (num U8)) (slots_slot_characteristics_2 x) ++
  (option_parts (num U16)) (slots_segment_group_number x) ++
  (option_parts (num U8)) (slots_bus_number x) ++
  (option_parts DeviceAndFunctionNumber_parts) (slots_device_and_function_number x) ++
  (option_parts (num U8)) (slots_data_bus_width x) ++
  (option_parts peers) (slots_peer_devices x) ++
  (option_parts (num U8)) (slots_slot_information x) ++
  (option_parts SlotWidth_parts) (slots_slot_physical_width x) ++
  (option_parts (num U16)) (slots_slot_pitch x).

(* src/structures/011_oem_strings.rs:9-15 `struct OemStrings` *)
Definition OemStrings_parts (x : OemStrings) : list part :=
  (num U16) (oem_handle x) ++
  StructureStrings_parts (oem_strings x).

(* src/structures/012_system_configuration_options.rs:13-19 `struct SystemConfigurationOptions` *)
Definition SystemConfigurationOptions_parts (x : SystemConfigurationOptions) : list part :=
  (num U16) (options_handle x) ++
  StructureStrings_parts (options_strings x).

(* src/structures/013_bios_language.rs:22-26 `struct InstallableLanguages` *)
Definition InstallableLanguages_parts (x : InstallableLanguages) : list part :=
  RawStructure_parts (il_structure x) ++
  (num U8) (il_index x).

(* src/structures/013_bios_language.rs:9-19 `struct BiosLanguage` *)
Definition BiosLanguage_parts (x : BiosLanguage) : list part :=
  (num U16) (language_handle x) ++
  InstallableLanguages_parts (language_installable_languages x) ++
  (option_parts (num U8)) (language_flags x) ++
  (num U8) (language_current_language x).

(* src/structures/014_group_associations.rs:26-30 `struct GroupItems` *)
Definition GroupItems_parts (x : GroupItems) : list part :=
  slice (gi_data x) ++
  (num Usize) (gi_index x).

(* src/structures/014_group_associations.rs:33-39 `struct GroupItem` *)
Definition GroupItem_parts (x : GroupItem) : list part :=
  (num U8) (gi_type x) ++
  (num U16) (gi_handle x).

(* src/structures/014_group_associations.rs:15-23 `struct GroupAssociations` *)
Definition GroupAssociations_parts (x : GroupAssociations) : list part :=
  (num U16) (group_handle x) ++
  str (group_group_name x) ++
  GroupItems_parts (group_items x).

(* src/structures/015_system_event_log/log_record_format.rs:177-218 `enum SystemManagementType` *)
Definition SystemManagementType_parts (x : SystemManagementType) : list part :=
  match x with
  | SMT_OutOfRangeVoltagePlus2_5Num1 => Tag 0 :: []
  | SMT_OutOfRangeVoltagePlus2_5Num2 => Tag 1 :: []
  | SMT_OutOfRangeVoltagePlus3_3 => Tag 2 :: []
  | SMT_OutOfRangeVoltagePlus5 => Tag 3 :: []
  | SMT_OutOfRangeVoltageMinus5 => Tag 4 :: []
  | SMT_OutOfRangeVoltagePlus12 => Tag 5 :: []
  | SMT_OutOfRangeVoltageMinus12 => Tag 6 :: []
  | SMT_OutOfRangeVoltageReserved v => Tag 7 :: (num U8) v
  | SMT_OutOfRangeTemperatureSystemBoard => Tag 8 :: []
  | SMT_OutOfRangeTemperatureProcessor1 => Tag 9 :: []
  | SMT_OutOfRangeTemperatureProcessor2 => Tag 10 :: []
  | SMT_OutOfRangeTemperatureProcessor3 => Tag 11 :: []
  | SMT_OutOfRangeTemperatureProcessor4 => Tag 12 :: []
  | SMT_OutOfRangeTemperatureReserved v => Tag 13 :: (num U8) v
  | SMT_OutOfRangeFan v => Tag 14 :: (num U8) v
  | SMT_Reserved v => Tag 15 :: (num U32) v
  | SMT_ChassisSecureSwitchActivated => Tag 16 :: []
  | SMT_OutOfRangeSystemManagementProbe v => Tag 17 :: (num U16) v
  | SMT_OemAssigned v => Tag 18 :: (num U32) v
  end.

(* src/structures/015_system_event_log/log_record_format.rs:116-142 `enum VariableDataFormatType` *)
Definition VariableDataFormatType_parts (x : VariableDataFormatType) : list part :=
  match x with
  | VDF_None => Tag 0 :: []
  | VDF_Handle handle => Tag 1 :: (num U16) handle
  | VDF_MultipleEvent counter => Tag 2 :: (num U32) counter
  | VDF_MultipleEventHandle handle counter => Tag 3 :: (num U16) handle ++ (num U32) counter
  | VDF_PostResults v => Tag 4 :: (num U64) v
  | VDF_SystemManagementType t => Tag 5 :: SystemManagementType_parts t
  | VDF_MultipleEventSystemManagementType t counter => Tag 6 :: SystemManagementType_parts t ++ (num U32) counter
  | VDF_Unused v => Tag 7 :: (num U8) v
  | VDF_OemAssigned v => Tag 8 :: (num U8) v
  end.

(* src/structures/015_system_event_log/mod.rs:148-152 `struct EventLogTypeDescriptor` *)
Definition EventLogTypeDescriptor_parts (x : EventLogTypeDescriptor) : list part :=
  EventLogType_parts (log_type x) ++
  VariableDataFormatType_parts (variable_data_format_type x).

(* src/structures/015_system_event_log/mod.rs:58-74 `enum AccessMethod` *)
Definition AccessMethod_parts (x : AccessMethod) : list part :=
  match x with
  | AM_IndexedIoOne8bitIndexOne8bitData index data => Tag 0 :: (num U8) index ++ (num U8) data
  | AM_IndexedIoTwo8bitIndexOne8bitData index0 index1 data => Tag 1 :: slice [index0; index1] ++ (num U8) data
  | AM_IndexedIoOne16bitIndexOne8bitData index data => Tag 2 :: (num U16) index ++ (num U8) data
  | AM_MemoryMappedPhysicaAddress physical_address => Tag 3 :: (num U32) physical_address
  | AM_GeneralPurposeNonVolatileData gpnv_handle => Tag 4 :: (num U16) gpnv_handle
  | AM_Available method address => Tag 5 :: (num U8) method ++ (num U32) address
  | AM_OemSpecific method address => Tag 6 :: (num U8) method ++ (num U32) address
  end.

(* src/structures/015_system_event_log/mod.rs:29-53 `struct SystemEventLog` *)
Definition SystemEventLog_parts (x : SystemEventLog) : list part :=
  (num U16) (log_handle x) ++
  (num U16) (log_log_area_length x) ++
  (num U16) (log_log_header_start_offset x) ++
  (num U16) (log_log_data_start_offset x) ++
  AccessMethod_parts (log_access_method x) ++
  (num U8) (log_log_status x) ++
  (num U32) (log_log_change_token x) ++
  (option_parts LogHeaderFormat_parts) (log_log_header_format x) ++
  (option_parts descriptors) (log_descriptors x).

(* src/structures/016_physical_memory_array.rs:168-195 `struct PhysicalMemoryArray` *)
Definition PhysicalMemoryArray_parts (x : PhysicalMemoryArray) : list part :=
  (num U16) (array_handle x) ++
  MemoryArrayLocation_parts (array_location x) ++
  MemoryArrayUse_parts (array_use x) ++
  MemoryArrayErrorCorrectionTypes_parts (array_memory_error_correction x) ++
  (option_parts (num U32)) (array_maximum_capacity x) ++
  (option_parts (num U16)) (array_memory_error_information_handle x) ++
  (num U16) (array_number_of_memory_devices x) ++
  (option_parts (num U64)) (array_extended_maximum_capacity x).

(* src/structures/017_memory_device.rs:301-378 `struct MemoryDevice` *)
Definition MemoryDevice_parts (x : MemoryDevice) : list part :=
  (num U16) (memdev_handle x) ++
  (num U16) (memdev_physical_memory_handle x) ++
  (option_parts (num U16)) (memdev_memory_error_handle x) ++
  (option_parts (num U16)) (memdev_total_width x) ++
  (option_parts (num U16)) (memdev_data_width x) ++
  (option_parts (num U16)) (memdev_size x) ++
  FormFactor_parts (memdev_form_factor x) ++
  (option_parts (num U8)) (memdev_device_set x) ++
  str (memdev_device_locator x) ++
  str (memdev_bank_locator x) ++
  MemoryType_parts (memdev_memory_type x) ++
  (num U16) (memdev_type_detail x) ++
  (option_parts (num U16)) (memdev_speed x) ++
  str (memdev_manufacturer x) ++
  str (memdev_serial x) ++
  str (memdev_asset_tag x) ++
  str (memdev_part_number x) ++
  (num U8) (memdev_attributes x) ++
  (num U32) (memdev_extended_size x) ++
  (option_parts (num U16)) (memdev_configured_memory_speed x) ++
  (option_parts (num U16)) (memdev_minimum_voltage x) ++
  (option_parts (num U16)) (memdev_maximum_voltage x) ++
  (option_parts (num U16)) (memdev_configured_voltage x) ++
  (option_parts MemoryTechnology_parts) (memdev_memory_technology x) ++
  (option_parts (num U16)) (memdev_operating_mode_capability x) ++
  (option_parts str) (memdev_firmware_version x) ++
  (option_parts (num U16)) (memdev_module_manufacturer x) ++
  (option_parts (num U16)) (memdev_module_product_id x) ++
  (option_parts (num U16)) (memdev_memory_subsystem_controller_manufacturer_id x) ++
  (option_parts (num U16)) (memdev_memory_subsystem_controller_product_id x) ++
  (option_parts (num U64)) (memdev_non_volatile_size x) ++
  (option_parts (num U64)) (memdev_volatile_size x) ++
  (option_parts (num U64)) (memdev_cache_size x) ++
  (option_parts (num U64)) (memdev_logical_size x) ++
  (option_parts (num U32)) (memdev_extended_speed x) ++
  (option_parts (num U32)) (memdev_extended_configured_memory_speed x).

(* src/structures/018_memory_error_32.rs:14-35 `struct MemoryError32` *)
Definition MemoryError32_parts (x : MemoryError32) : list part :=
  (num U16) (me_handle x) ++
  MEErrorType_parts (me_error_type x) ++
  MEErrorGranularity_parts (me_error_granularity x) ++
  MEErrorOperation_parts (me_error_operation x) ++
  (num U32) (me_vendor_syndrome x) ++
  (num U32) (me_memory_array_error_address x) ++
  (num U32) (me_device_error_address x) ++
  (num U32) (me_error_resolution x).

(* src/structures/019_memory_array_mapped_address.rs:13-50 `struct MemoryArrayMappedAddress` *)
Definition MemoryArrayMappedAddress_parts (x : MemoryArrayMappedAddress) : list part :=
  (num U16) (ama_handle x) ++
  (num U32) (ama_starting_address x) ++
  (num U32) (ama_ending_address x) ++
  (num U16) (ama_memory_array_handle x) ++
  (num U8) (ama_partition_width x) ++
  (option_parts (num U64)) (ama_extended_starting_address x) ++
  (option_parts (num U64)) (ama_extended_ending_address x).

(* src/structures/020_memory_device_mapped_address.rs:13-63 `struct MemoryDeviceMappedAddress` *)
Definition MemoryDeviceMappedAddress_parts (x : MemoryDeviceMappedAddress) : list part :=
  (num U16) (dma_handle x) ++
  (num U32) (dma_starting_address x) ++
  (num U32) (dma_ending_address x) ++
  (num U16) (dma_memory_device_handle x) ++
  (num U16) (dma_memory_array_mapped_address_handle x) ++
  (num U8) (dma_partition_row_position x) ++
  (num U8) (dma_interleave_position x) ++
  (num U8) (dma_interleaved_data_depth x) ++
  (option_parts (num U64)) (dma_extended_starting_address x) ++
  (option_parts (num U64)) (dma_extended_ending_address x).

(* src/structures/021_built_in_pointing_device.rs:16-25 `struct BuiltInPointingDevice` *)
Definition BuiltInPointingDevice_parts (x : BuiltInPointingDevice) : list part :=
  (num U16) (pd_handle x) ++
  PointingDeviceType_parts (pd_type x) ++
  PointingDeviceInterface_parts (pd_interface x) ++
  (num U8) (pd_number_of_buttons x).

(* src/structures/022_portable_battery.rs:46-51 `enum ManufactureDate` *)
Definition ManufactureDate_parts (x : ManufactureDate) : list part :=
  match x with
  | MD_None => Tag 0 :: []
  | MD_Basic s => Tag 1 :: str s
  | MD_SmartBatteryDataSpecification year month date => Tag 2 :: (num U16) year ++ (num U8) month ++ (num U8) date
  end.

(* src/structures/022_portable_battery.rs:54-59 `enum SerialNumber` *)
Definition SerialNumber_parts (x : SerialNumber) : list part :=
  match x with
  | SN_None => Tag 0 :: []
  | SN_Basic s => Tag 1 :: str s
  | SN_SmartBatteryDataSpecification word => Tag 2 :: (num U16) word
  end.

(* src/structures/022_portable_battery.rs:62-66 `enum DesignCapacity` *)
Definition DesignCapacity_parts (x : DesignCapacity) : list part :=
  match x with
  | DC_Unknown => Tag 0 :: []
  | DC_Data value multiplier => Tag 1 :: (num U16) value ++ (num U8) multiplier
  end.

(* src/structures/022_portable_battery.rs:70-89 `enum DeviceChemistry` *)
Definition DeviceChemistry_parts (x : DeviceChemistry) : list part :=
  match x with
  | Chem_Other => Tag 0 :: []
  | Chem_Unknown => Tag 1 :: []
  | Chem_LeadAcid => Tag 2 :: []
  | Chem_NickelCadmium => Tag 3 :: []
  | Chem_NickelMetalHydride => Tag 4 :: []
  | Chem_LithiumIon => Tag 5 :: []
  | Chem_ZincAir => Tag 6 :: []
  | Chem_LithiumPolymer => Tag 7 :: []
  | Chem_Undefined v => Tag 8 :: (num U8) v
  | Chem_SmartBatteryDataSpecification s => Tag 9 :: str s
  end.

(* src/structures/022_portable_battery.rs:16-43 `struct PortableBattery` *)
Definition PortableBattery_parts (x : PortableBattery) : list part :=
  (num U16) (battery_handle x) ++
  str (battery_location x) ++
  str (battery_manufacturer x) ++
  ManufactureDate_parts (battery_manufacture_date x) ++
  SerialNumber_parts (battery_serial_number x) ++
  str (battery_device_name x) ++
  DeviceChemistry_parts (battery_device_chemistry x) ++
  DesignCapacity_parts (battery_design_capacity x) ++
  (num U16) (battery_design_voltage x) ++
  str (battery_sbds_version_number x) ++
  (num U8) (battery_maximum_error_in_battery_data x) ++
  (option_parts (num U32)) (battery_oem_specific x).

(* src/lib.rs:365-388 `enum Structure` *)
Definition Structure_parts (x : Structure) : list part :=
  match x with
  | SBios s => Tag 0 :: Bios_parts s
  | SSystem s => Tag 1 :: System_parts s
  | SBaseBoard s => Tag 2 :: BaseBoard_parts s
  | SEnclosure s => Tag 3 :: Enclosure_parts s
  | SProcessor s => Tag 4 :: Processor_parts s
  | SCache s => Tag 5 :: Cache_parts s
  | SPortConnector s => Tag 6 :: PortConnector_parts s
  | SSystemSlots s => Tag 7 :: SystemSlots_parts s
  | SOemStrings s => Tag 8 :: OemStrings_parts s
  | SSystemConfigurationOptions s => Tag 9 :: SystemConfigurationOptions_parts s
  | SBiosLanguage s => Tag 10 :: BiosLanguage_parts s
  | SGroupAssociations s => Tag 11 :: GroupAssociations_parts s
  | SSystemEventLog s => Tag 12 :: SystemEventLog_parts s
  | SMemoryDevice s => Tag 13 :: MemoryDevice_parts s
  | SMemoryError32 s => Tag 14 :: MemoryError32_parts s
  | SMemoryArrayMappedAddress s => Tag 15 :: MemoryArrayMappedAddress_parts s
  | SMemoryDeviceMappedAddress s => Tag 16 :: MemoryDeviceMappedAddress_parts s
  | SBuiltInPointingDevice s => Tag 17 :: BuiltInPointingDevice_parts s
  | SPortableBattery s => Tag 18 :: PortableBattery_parts s
  | SPhysicalMemoryArray s => Tag 19 :: PhysicalMemoryArray_parts s
  | SOther s => Tag 20 :: RawStructure_parts s
  end.

(* src/lib.rs:356-362 `struct Structures` *)
Definition Structures_parts (x : Structures) : list part :=
  SmbiosVersion_parts (smbios_version x) ++
  (num U32) (smbios_len_ x) ++
  (num U32) (idx x) ++
  slice (buffer x).

(* src/lib.rs:252-268 `struct EntryPointV2` *)
Definition EntryPointV2_parts (x : EntryPointV2) : list part :=
  (num U32) (v2_signature x) ++
  (num U8) (v2_checksum x) ++
  (num U8) (v2_len x) ++
  (num U8) (v2_major x) ++
  (num U8) (v2_minor x) ++
  (num U16) (v2_struct_max x) ++
  (num U8) (v2_revision x) ++
  slice (v2_formatted x) ++
  slice (v2_dmi_signature x) ++
  (num U8) (v2_dmi_checksum x) ++
  (num U16) (v2_smbios_len x) ++
  (num U32) (v2_smbios_address x) ++
  (num U16) (v2_smbios_count x) ++
  (num U8) (v2_bcd_revision x).

(* src/lib.rs:275-287 `struct EntryPointV3` *)
Definition EntryPointV3_parts (x : EntryPointV3) : list part :=
  slice (v3_signature x) ++
  (num U8) (v3_checksum x) ++
  (num U8) (v3_len x) ++
  (num U8) (v3_major x) ++
  (num U8) (v3_minor x) ++
  (num U8) (v3_docrev x) ++
  (num U8) (v3_revision x) ++
  (num U8) (v3_reserved x) ++
  (num U32) (v3_smbios_len_max x) ++
  (num U64) (v3_smbios_address x).

(* src/lib.rs:99-103 `enum EntryPoint` *)
Definition EntryPoint_parts (x : EntryPoint) : list part :=
  match x with
  | V2 p => Tag 0 :: EntryPointV2_parts p
  | V3 p => Tag 1 :: EntryPointV3_parts p
  end.

(* `==` and `hash` of the types a caller gets from the library *)
Definition Structure_eq (a b : Structure) : bool := derived_eq (Structure_parts a) (Structure_parts b).
Definition Structure_hash (a : Structure) : list call := derived_hash (Structure_parts a).
Definition RawStructure_eq (a b : RawStructure) : bool := derived_eq (RawStructure_parts a) (RawStructure_parts b).
Definition RawStructure_hash (a : RawStructure) : list call := derived_hash (RawStructure_parts a).
Definition InfoType_eq (a b : InfoType) : bool := derived_eq (InfoType_parts a) (InfoType_parts b).
Definition InfoType_hash (a : InfoType) : list call := derived_hash (InfoType_parts a).
Definition SmbiosVersion_eq (a b : SmbiosVersion) : bool := derived_eq (SmbiosVersion_parts a) (SmbiosVersion_parts b).
Definition SmbiosVersion_hash (a : SmbiosVersion) : list call := derived_hash (SmbiosVersion_parts a).
Definition EntryPoint_eq (a b : EntryPoint) : bool := derived_eq (EntryPoint_parts a) (EntryPoint_parts b).
Definition EntryPoint_hash (a : EntryPoint) : list call := derived_hash (EntryPoint_parts a).
Definition Structures_eq (a b : Structures) : bool := derived_eq (Structures_parts a) (Structures_parts b).
Definition Structures_hash (a : Structures) : list call := derived_hash (Structures_parts a).
Definition StructureStrings_eq (a b : StructureStrings) : bool := derived_eq (StructureStrings_parts a) (StructureStrings_parts b).
Definition StructureStrings_hash (a : StructureStrings) : list call := derived_hash (StructureStrings_parts a).
Definition ContainedElement_eq (a b : ContainedElement) : bool := derived_eq (ContainedElement_parts a) (ContainedElement_parts b).
Definition ContainedElement_hash (a : ContainedElement) : list call := derived_hash (ContainedElement_parts a).
Definition Device_eq (a b : Device) : bool := derived_eq (Device_parts a) (Device_parts b).
Definition Device_hash (a : Device) : list call := derived_hash (Device_parts a).
Definition GroupItem_eq (a b : GroupItem) : bool := derived_eq (GroupItem_parts a) (GroupItem_parts b).
Definition GroupItem_hash (a : GroupItem) : list call := derived_hash (GroupItem_parts a).
Definition EventLogTypeDescriptor_eq (a b : EventLogTypeDescriptor) : bool := derived_eq (EventLogTypeDescriptor_parts a) (EventLogTypeDescriptor_parts b).
Definition EventLogTypeDescriptor_hash (a : EventLogTypeDescriptor) : list call := derived_hash (EventLogTypeDescriptor_parts a).
