(* The conversions of G_Enums agree with the tables of S_Enums, and lose no
   information. *)
From Coq Require Import ZArith Lia ZifyBool ZifyNat ZifyN.
From Verif Require Import Base G_Enums S_Enums.
Local Open Scope N_scope.

Ltac by_code k :=
  repeat match goal with
  | |- context [?x =? ?v] => destruct (N.eqb_spec x v); [subst x; reflexivity|]
  end.

(* first case of a chain of comparisons *)
Lemma named_cons {A} k k' (a : A) rest : named ((k', a) :: rest) k = if k =? k' then Some a else named rest k.
Proof. reflexivity. Qed.

Lemma WakeupType_from_meaning k : WakeupType_from k = meaning WakeupType_codes WakeupType_Undefined k.
Proof.
  unfold WakeupType_from, meaning, WakeupType_codes. cbn [named]. by_code k. reflexivity.
Qed.

Definition WakeupType_number (x : WakeupType) : N :=
  match x with
  | WakeupType_Reserved => 0 | WakeupType_Other => 1 | WakeupType_Unknown => 2 | WakeupType_APM_Timer => 3
  | WakeupType_Modem_Ring => 4 | WakeupType_LAN_Remote => 5 | WakeupType_Power_Switch => 6
  | WakeupType_PCI_PME => 7 | WakeupType_AC_Power_Restored => 8 | WakeupType_Undefined v => v
  end.

Lemma WakeupType_number_from k : WakeupType_number (WakeupType_from k) = k.
Proof.
  intros. unfold WakeupType_from.
  repeat match goal with
  | |- context [k =? ?v] => destruct (N.eqb_spec k v); [subst k; reflexivity || contradiction|]
  end.
  cbn [orb]. repeat match goal with |- context [if ?b then _ else _] => destruct b eqn:? end; try reflexivity; cbn; lia.
Qed.

Lemma BoardType_from_meaning k : BoardType_from k = meaning BoardType_codes BoardType_Undefined k.
Proof.
  unfold BoardType_from, meaning, BoardType_codes. cbn [named]. by_code k. reflexivity.
Qed.

Definition BoardType_number (x : BoardType) : N :=
  match x with
  | BoardType_Unknown => 1 | BoardType_Other => 2 | BoardType_ServerBlade => 3
  | BoardType_ConnectivitySwitch => 4 | BoardType_SystemManagementModule => 5
  | BoardType_ProcessorModule => 6 | BoardType_IoModule => 7 | BoardType_MemoryModule => 8
  | BoardType_DaughterBoard => 9 | BoardType_MotherBoard => 10 | BoardType_ProcessorMemoryModule => 11
  | BoardType_ProcessorIoModule => 12 | BoardType_InterconnectBoard => 13 | BoardType_Undefined v => v
  end.

Lemma BoardType_number_from k : BoardType_number (BoardType_from k) = k.
Proof.
  intros. unfold BoardType_from.
  repeat match goal with
  | |- context [k =? ?v] => destruct (N.eqb_spec k v); [subst k; reflexivity || contradiction|]
  end.
  cbn [orb]. repeat match goal with |- context [if ?b then _ else _] => destruct b eqn:? end; try reflexivity; cbn; lia.
Qed.

Lemma EnclosureType_from_meaning k : EnclosureType_from k = meaning EnclosureType_codes EnclosureType_Undefined k.
Proof.
  unfold EnclosureType_from, meaning, EnclosureType_codes. cbn [named]. by_code k. reflexivity.
Qed.

Definition EnclosureType_number (x : EnclosureType) : N :=
  match x with
  | EnclosureType_Other => 1 | EnclosureType_Unknown => 2 | EnclosureType_Desktop => 3
  | EnclosureType_LowProfileDesktop => 4 | EnclosureType_PizzaBox => 5 | EnclosureType_MiniTower => 6
  | EnclosureType_Tower => 7 | EnclosureType_Portable => 8 | EnclosureType_Laptop => 9
  | EnclosureType_Notebook => 10 | EnclosureType_HandHeld => 11 | EnclosureType_DockingStation => 12
  | EnclosureType_AllInOne => 13 | EnclosureType_SubNotebook => 14 | EnclosureType_SpaceSaving => 15
  | EnclosureType_LunchBox => 16 | EnclosureType_MainServerChassis => 17
  | EnclosureType_ExpansionChassis => 18 | EnclosureType_SubChassis => 19
  | EnclosureType_BusExpansionChassis => 20 | EnclosureType_PeripheralChassis => 21
  | EnclosureType_RaidChassis => 22 | EnclosureType_RackMountChassis => 23 | EnclosureType_SealedCasePc => 24
  | EnclosureType_MultiSystemChassis => 25 | EnclosureType_CompactPci => 26 | EnclosureType_AdvancedTca => 27
  | EnclosureType_Blade => 28 | EnclosureType_BladeEnclosure => 29 | EnclosureType_Tablet => 30
  | EnclosureType_Convertible => 31 | EnclosureType_Detachable => 32 | EnclosureType_IotGateway => 33
  | EnclosureType_EmbeddedPc => 34 | EnclosureType_MiniPc => 35 | EnclosureType_StickPc => 36
  | EnclosureType_Undefined v => v
  end.

Lemma EnclosureType_number_from k : EnclosureType_number (EnclosureType_from k) = k.
Proof.
  intros. unfold EnclosureType_from.
  repeat match goal with
  | |- context [k =? ?v] => destruct (N.eqb_spec k v); [subst k; reflexivity || contradiction|]
  end.
  cbn [orb]. repeat match goal with |- context [if ?b then _ else _] => destruct b eqn:? end; try reflexivity; cbn; lia.
Qed.

Lemma State_from_meaning k : State_from k = meaning State_codes State_Undefined k.
Proof.
  unfold State_from, meaning, State_codes. cbn [named]. by_code k. reflexivity.
Qed.

Definition State_number (x : State) : N :=
  match x with
  | State_Other => 1 | State_Unknown => 2 | State_Safe => 3 | State_Warning => 4 | State_Critical => 5
  | State_NonRecoverable => 6 | State_Undefined v => v
  end.

Lemma State_number_from k : State_number (State_from k) = k.
Proof.
  intros. unfold State_from.
  repeat match goal with
  | |- context [k =? ?v] => destruct (N.eqb_spec k v); [subst k; reflexivity || contradiction|]
  end.
  cbn [orb]. repeat match goal with |- context [if ?b then _ else _] => destruct b eqn:? end; try reflexivity; cbn; lia.
Qed.

Lemma SecurityStatus_from_meaning k : SecurityStatus_from k = meaning SecurityStatus_codes SecurityStatus_Undefined k.
Proof.
  unfold SecurityStatus_from, meaning, SecurityStatus_codes. cbn [named]. by_code k. reflexivity.
Qed.

Definition SecurityStatus_number (x : SecurityStatus) : N :=
  match x with
  | SecurityStatus_Other => 1 | SecurityStatus_Unknown => 2 | SecurityStatus_None => 3
  | SecurityStatus_ExternalInterfaceLockedOut => 4 | SecurityStatus_ExternalInterfaceEnabled => 5
  | SecurityStatus_Undefined v => v
  end.

Lemma SecurityStatus_number_from k : SecurityStatus_number (SecurityStatus_from k) = k.
Proof.
  intros. unfold SecurityStatus_from.
  repeat match goal with
  | |- context [k =? ?v] => destruct (N.eqb_spec k v); [subst k; reflexivity || contradiction|]
  end.
  cbn [orb]. repeat match goal with |- context [if ?b then _ else _] => destruct b eqn:? end; try reflexivity; cbn; lia.
Qed.

Lemma ProcessorType_from_meaning k : ProcessorType_from k = meaning ProcessorType_codes ProcessorType_Undefined k.
Proof.
  unfold ProcessorType_from, meaning, ProcessorType_codes. cbn [named]. by_code k. reflexivity.
Qed.

Definition ProcessorType_number (x : ProcessorType) : N :=
  match x with
  | ProcessorType_Other => 1 | ProcessorType_Unknown => 2 | ProcessorType_CentralProcessor => 3
  | ProcessorType_MathProcessor => 4 | ProcessorType_DspProcessor => 5 | ProcessorType_VideoProcessor => 6
  | ProcessorType_Undefined v => v
  end.

Lemma ProcessorType_number_from k : ProcessorType_number (ProcessorType_from k) = k.
Proof.
  intros. unfold ProcessorType_from.
  repeat match goal with
  | |- context [k =? ?v] => destruct (N.eqb_spec k v); [subst k; reflexivity || contradiction|]
  end.
  cbn [orb]. repeat match goal with |- context [if ?b then _ else _] => destruct b eqn:? end; try reflexivity; cbn; lia.
Qed.

Lemma ProcessorFamily_from_meaning k : k < 65536 -> ProcessorFamily_from k = meaning ProcessorFamily_codes ProcessorFamily_other k.
Proof.
  intros Hk. unfold ProcessorFamily_from, meaning, ProcessorFamily_codes, ProcessorFamily_other. cbn [named].
  repeat match goal with
  | |- context [k =? ?v] => destruct (N.eqb_spec k v); [subst k; reflexivity|]
  end.
  cbn [orb].
  repeat match goal with |- context [if ?b then _ else _] => destruct b eqn:?; cbn [orb andb] end; try reflexivity; exfalso; lia.
Qed.

Definition ProcessorFamily_number (x : ProcessorFamily) : N :=
  match x with
  | ProcessorFamily_Other => 1 | ProcessorFamily_Unknown => 2 | ProcessorFamily_Intel8086 => 3
  | ProcessorFamily_Intel80286 => 4 | ProcessorFamily_Intel386Processor => 5
  | ProcessorFamily_Intel486Processor => 6 | ProcessorFamily_Intel8087 => 7 | ProcessorFamily_Intel80287 => 8
  | ProcessorFamily_Intel80387 => 9 | ProcessorFamily_Intel80487 => 10
  | ProcessorFamily_IntelPentiumProcessor => 11 | ProcessorFamily_PentiumProProcessor => 12
  | ProcessorFamily_PentiumIIProcessor => 13 | ProcessorFamily_PentiumProcessorWithMMXTechnology => 14
  | ProcessorFamily_IntelCeleronProcessor => 15 | ProcessorFamily_PentiumIIXeonProcessor => 16
  | ProcessorFamily_PentiumIIIProcessor => 17 | ProcessorFamily_M1Family => 18
  | ProcessorFamily_M2Family => 19 | ProcessorFamily_IntelCeleronMProcessor => 20
  | ProcessorFamily_IntelPentium4HTProcessor => 21 | ProcessorFamily_AMDDuronProcessorFamily => 24
  | ProcessorFamily_K5Family => 25 | ProcessorFamily_K6Family => 26 | ProcessorFamily_K62 => 27
  | ProcessorFamily_K63 => 28 | ProcessorFamily_AMDAthlonProcessorFamily => 29
  | ProcessorFamily_AMD29000Family => 30 | ProcessorFamily_K62Plus => 31
  | ProcessorFamily_PowerPCFamily => 32 | ProcessorFamily_PowerPC601 => 33 | ProcessorFamily_PowerPC603 => 34
  | ProcessorFamily_PowerPC603Plus => 35 | ProcessorFamily_PowerPC604 => 36
  | ProcessorFamily_PowerPC620 => 37 | ProcessorFamily_PowerPCX704 => 38 | ProcessorFamily_PowerPC750 => 39
  | ProcessorFamily_IntelCoreDuoProcessor => 40 | ProcessorFamily_IntelCoreDuoMobileProcessor => 41
  | ProcessorFamily_IntelCoreSoloMobileProcessor => 42 | ProcessorFamily_IntelAtomProcessor => 43
  | ProcessorFamily_IntelCoreMProcessor => 44 | ProcessorFamily_IntelCoreM3Processor => 45
  | ProcessorFamily_IntelCoreM5Processor => 46 | ProcessorFamily_IntelCoreM7Processor => 47
  | ProcessorFamily_AlphaFamily => 48 | ProcessorFamily_Alpha21064 => 49 | ProcessorFamily_Alpha21066 => 50
  | ProcessorFamily_Alpha21164 => 51 | ProcessorFamily_Alpha21164PC => 52 | ProcessorFamily_Alpha21164a => 53
  | ProcessorFamily_Alpha21264 => 54 | ProcessorFamily_Alpha21364 => 55
  | ProcessorFamily_AMDTurionIIUltraDualCoreMobileMProcessorFamily => 56
  | ProcessorFamily_AMDTurionIIDualCoreMobileMProcessorFamily => 57
  | ProcessorFamily_AMDAthlonIIDualCoreMProcessorFamily => 58
  | ProcessorFamily_AMDOpteron6100SeriesProcessor => 59 | ProcessorFamily_AMDOpteron4100SeriesProcessor => 60
  | ProcessorFamily_AMDOpteron6200SeriesProcessor => 61 | ProcessorFamily_AMDOpteron4200SeriesProcessor => 62
  | ProcessorFamily_AMDFXSeriesProcessor => 63 | ProcessorFamily_MIPSFamily => 64
  | ProcessorFamily_MIPSR4000 => 65 | ProcessorFamily_MIPSR4200 => 66 | ProcessorFamily_MIPSR4400 => 67
  | ProcessorFamily_MIPSR4600 => 68 | ProcessorFamily_MIPSR10000 => 69
  | ProcessorFamily_AMDCSeriesProcessor => 70 | ProcessorFamily_AMDESeriesProcessor => 71
  | ProcessorFamily_AMDASeriesProcessor => 72 | ProcessorFamily_AMDGSeriesProcessor => 73
  | ProcessorFamily_AMDZSeriesProcessor => 74 | ProcessorFamily_AMDRSeriesProcessor => 75
  | ProcessorFamily_AMDOpteron4300SeriesProcessor => 76 | ProcessorFamily_AMDOpteron6300SeriesProcessor => 77
  | ProcessorFamily_AMDOpteron3300SeriesProcessor => 78 | ProcessorFamily_AMDFireProSeriesProcessor => 79
  | ProcessorFamily_SPARCFamily => 80 | ProcessorFamily_SuperSPARC => 81 | ProcessorFamily_MicroSPARCII => 82
  | ProcessorFamily_MicroSPARCIIep => 83 | ProcessorFamily_UltraSPARC => 84
  | ProcessorFamily_UltraSPARCII => 85 | ProcessorFamily_UltraSPARCIii => 86
  | ProcessorFamily_UltraSPARCIII => 87 | ProcessorFamily_UltraSPARCIIIi => 88
  | ProcessorFamily_Motorola68040Family => 96 | ProcessorFamily_Motorola68xxx => 97
  | ProcessorFamily_Motorola68000 => 98 | ProcessorFamily_Motorola68010 => 99
  | ProcessorFamily_Motorola68020 => 100 | ProcessorFamily_Motorola68030 => 101
  | ProcessorFamily_AMDAthlonX4QuadCoreProcessorFamily => 102
  | ProcessorFamily_AMDOpteronX1000SeriesProcessor => 103 | ProcessorFamily_AMDOpteronX2000SeriesAPU => 104
  | ProcessorFamily_AMDOpteronASeriesProcessor => 105 | ProcessorFamily_AMDOpteronX3000SeriesAPU => 106
  | ProcessorFamily_AMDZenProcessorFamily => 107 | ProcessorFamily_HobbitFamily => 112
  | ProcessorFamily_CrusoeTM5000Family => 120 | ProcessorFamily_CrusoeTM3000Family => 121
  | ProcessorFamily_EfficeonTM8000Family => 122 | ProcessorFamily_Weitek => 128
  | ProcessorFamily_AvailableForAssignment => 0 | ProcessorFamily_ItaniumProcessor => 130
  | ProcessorFamily_AMDAthlon64ProcessorFamily => 131 | ProcessorFamily_AMDOpteronProcessorFamily => 132
  | ProcessorFamily_AMDSempronProcessorFamily => 133 | ProcessorFamily_AMDTurion64MobileTechnology => 134
  | ProcessorFamily_DualCoreAMDOpteronProcessorFamily => 135
  | ProcessorFamily_AMDAthlon64X2DualCoreProcessorFamily => 136
  | ProcessorFamily_AMDTurion64X2MobileTechnology => 137
  | ProcessorFamily_QuadCoreAMDOpteronProcessorFamily => 138
  | ProcessorFamily_ThirdGenerationAMDOpteronProcessorFamily => 139
  | ProcessorFamily_AMDPhenomFXQuadCoreProcessorFamily => 140
  | ProcessorFamily_AMDPhenomX4QuadCoreProcessorFamily => 141
  | ProcessorFamily_AMDPhenomX2DualCoreProcessorFamily => 142
  | ProcessorFamily_AMDAthlonX2DualCoreProcessorFamily => 143 | ProcessorFamily_PARISCFamily => 144
  | ProcessorFamily_PARISC8500 => 145 | ProcessorFamily_PARISC8000 => 146
  | ProcessorFamily_PARISC7300LC => 147 | ProcessorFamily_PARISC7200 => 148
  | ProcessorFamily_PARISC7100LC => 149 | ProcessorFamily_PARISC7100 => 150
  | ProcessorFamily_V30Family => 160 | ProcessorFamily_QuadCoreIntelXeonProcessor3200Series => 161
  | ProcessorFamily_DualCoreIntelXeonProcessor3000Series => 162
  | ProcessorFamily_QuadCoreIntelXeonProcessor5300Series => 163
  | ProcessorFamily_DualCoreIntelXeonProcessor5100Series => 164
  | ProcessorFamily_DualCoreIntelXeonProcessor5000Series => 165
  | ProcessorFamily_DualCoreIntelXeonProcessorLV => 166
  | ProcessorFamily_DualCoreIntelXeonProcessorULV => 167
  | ProcessorFamily_DualCoreIntelXeonProcessor7100Series => 168
  | ProcessorFamily_QuadCoreIntelXeonProcessor5400Series => 169
  | ProcessorFamily_QuadCoreIntelXeonProcessor => 170
  | ProcessorFamily_DualCoreIntelXeonProcessor5200Series => 171
  | ProcessorFamily_DualCoreIntelXeonProcessor7200Series => 172
  | ProcessorFamily_QuadCoreIntelXeonProcessor7300Series => 173
  | ProcessorFamily_QuadCoreIntelXeonProcessor7400Series => 174
  | ProcessorFamily_MultiCoreIntelXeonProcessor7400Series => 175
  | ProcessorFamily_PentiumIIIXeonProcessor => 176
  | ProcessorFamily_PentiumIIIProcessorWithIntelSpeedStepTechnology => 177
  | ProcessorFamily_Pentium4Processor => 178 | ProcessorFamily_IntelXeonProcessor => 179
  | ProcessorFamily_AS400Family => 180 | ProcessorFamily_IntelXeonProcessorMP => 181
  | ProcessorFamily_AMDAthlonXPProcessorFamily => 182 | ProcessorFamily_AMDAthlonMPProcessorFamily => 183
  | ProcessorFamily_IntelItanium2Processor => 184 | ProcessorFamily_IntelPentiumMProcessor => 185
  | ProcessorFamily_IntelCeleronDProcessor => 186 | ProcessorFamily_IntelPentiumDProcessor => 187
  | ProcessorFamily_IntelPentiumProcessorExtremeEdition => 188
  | ProcessorFamily_IntelCoreSoloProcessor => 189 | ProcessorFamily_Ambiguous => 190
  | ProcessorFamily_IntelCore2DuoProcessor => 191 | ProcessorFamily_IntelCore2SoloProcessor => 192
  | ProcessorFamily_IntelCore2ExtremeProcessor => 193 | ProcessorFamily_IntelCore2QuadProcessor => 194
  | ProcessorFamily_IntelCore2ExtremeMobileProcessor => 195
  | ProcessorFamily_IntelCore2DuoMobileProcessor => 196
  | ProcessorFamily_IntelCore2SoloMobileProcessor => 197 | ProcessorFamily_IntelCoreI7Processor => 198
  | ProcessorFamily_DualCoreIntelCeleronProcessor => 199 | ProcessorFamily_IBM390Family => 200
  | ProcessorFamily_G4 => 201 | ProcessorFamily_G5 => 202 | ProcessorFamily_ESA390G6 => 203
  | ProcessorFamily_ZArchitectureBase => 204 | ProcessorFamily_IntelCoreI5Processor => 205
  | ProcessorFamily_IntelCoreI3Processor => 206 | ProcessorFamily_IntelCoreI9Processor => 207
  | ProcessorFamily_VIAC7MProcessorFamily => 210 | ProcessorFamily_VIAC7DProcessorFamily => 211
  | ProcessorFamily_VIAC7ProcessorFamily => 212 | ProcessorFamily_VIAEdenProcessorFamily => 213
  | ProcessorFamily_MultiCoreIntelXeonProcessor => 214
  | ProcessorFamily_DualCoreIntelXeonProcessor3xxxSeries => 215
  | ProcessorFamily_QuadCoreIntelXeonProcessor3xxxSeries => 216
  | ProcessorFamily_VIANanoProcessorFamily => 217
  | ProcessorFamily_DualCoreIntelXeonProcessor5xxxSeries => 218
  | ProcessorFamily_QuadCoreIntelXeonProcessor5xxxSeries => 219
  | ProcessorFamily_DualCoreIntelXeonProcessor7xxxSeries => 221
  | ProcessorFamily_QuadCoreIntelXeonProcessor7xxxSeries => 222
  | ProcessorFamily_MultiCoreIntelXeonProcessor7xxxSeries => 223
  | ProcessorFamily_MultiCoreIntelXeonProcessor3400Series => 224
  | ProcessorFamily_AMDOpteron3000SeriesProcessor => 228 | ProcessorFamily_AMDSempronIIProcessor => 229
  | ProcessorFamily_EmbeddedAMDOpteronQuadCoreProcessorFamily => 230
  | ProcessorFamily_AMDPhenomTripleCoreProcessorFamily => 231
  | ProcessorFamily_AMDTurionUltraDualCoreMobileProcessorFamily => 232
  | ProcessorFamily_AMDTurionDualCoreMobileProcessorFamily => 233
  | ProcessorFamily_AMDAthlonDualCoreProcessorFamily => 234
  | ProcessorFamily_AMDSempronSIProcessorFamily => 235 | ProcessorFamily_AMDPhenomIIProcessorFamily => 236
  | ProcessorFamily_AMDAthlonIIProcessorFamily => 237
  | ProcessorFamily_SixCoreAMDOpteronProcessorFamily => 238
  | ProcessorFamily_AMDSempronMProcessorFamily => 239 | ProcessorFamily_I860 => 250
  | ProcessorFamily_I960 => 251 | ProcessorFamily_ARMv7 => 256 | ProcessorFamily_ARMv8 => 257
  | ProcessorFamily_ARMv9 => 258 | ProcessorFamily_SH3 => 260 | ProcessorFamily_SH4 => 261
  | ProcessorFamily_ARM => 280 | ProcessorFamily_StrongARM => 281 | ProcessorFamily_Cyrix6x86 => 300
  | ProcessorFamily_MediaGX => 301 | ProcessorFamily_MII => 302 | ProcessorFamily_WinChip => 320
  | ProcessorFamily_DSP => 350 | ProcessorFamily_VideoProcessor => 500 | ProcessorFamily_RISCVRV32 => 512
  | ProcessorFamily_RISCVRV64 => 513 | ProcessorFamily_RISCVRV128 => 514 | ProcessorFamily_Available v => v
  | ProcessorFamily_NotUsed v => v | ProcessorFamily_ForFutureUse => 65534
  | ProcessorFamily_ProcessorFamily2 => 254 | ProcessorFamily_OutOfSpec => 0
  end.

Lemma ProcessorFamily_number_from k : ProcessorFamily_number (ProcessorFamily_from k) = k.
Proof.
  intros. unfold ProcessorFamily_from.
  repeat match goal with
  | |- context [k =? ?v] => destruct (N.eqb_spec k v); [subst k; reflexivity || contradiction|]
  end.
  cbn [orb]. repeat match goal with |- context [if ?b then _ else _] => destruct b eqn:? end; try reflexivity; cbn; lia.
Qed.

Lemma ProcessorUpgrade_from_meaning k : ProcessorUpgrade_from k = meaning ProcessorUpgrade_codes ProcessorUpgrade_Undefined k.
Proof.
  unfold ProcessorUpgrade_from, meaning, ProcessorUpgrade_codes. cbn [named]. by_code k. reflexivity.
Qed.

Definition ProcessorUpgrade_number (x : ProcessorUpgrade) : N :=
  match x with
  | ProcessorUpgrade_Other => 1 | ProcessorUpgrade_Unknown => 2 | ProcessorUpgrade_DaughterBoard => 3
  | ProcessorUpgrade_ZIFSocket => 4 | ProcessorUpgrade_ReplaceablePiggyBack => 5 | ProcessorUpgrade_None => 6
  | ProcessorUpgrade_LIFSocket => 7 | ProcessorUpgrade_Slot1 => 8 | ProcessorUpgrade_Slot2 => 9
  | ProcessorUpgrade_Socket370 => 10 | ProcessorUpgrade_SlotA => 11 | ProcessorUpgrade_SlotM => 12
  | ProcessorUpgrade_Socket423 => 13 | ProcessorUpgrade_SocketA => 14 | ProcessorUpgrade_Socket478 => 15
  | ProcessorUpgrade_Socket754 => 16 | ProcessorUpgrade_Socket940 => 17 | ProcessorUpgrade_Socket939 => 18
  | ProcessorUpgrade_SocketmPGA604 => 19 | ProcessorUpgrade_SocketLGA771 => 20
  | ProcessorUpgrade_SocketLGA775 => 21 | ProcessorUpgrade_SocketS1 => 22 | ProcessorUpgrade_SocketAM2 => 23
  | ProcessorUpgrade_SocketF => 24 | ProcessorUpgrade_SocketLGA1366 => 25 | ProcessorUpgrade_SocketG34 => 26
  | ProcessorUpgrade_SocketAM3 => 27 | ProcessorUpgrade_SocketC32 => 28
  | ProcessorUpgrade_SocketLGA1156 => 29 | ProcessorUpgrade_SocketLGA1567 => 30
  | ProcessorUpgrade_SocketPGA988A => 31 | ProcessorUpgrade_SocketBGA1288 => 32
  | ProcessorUpgrade_SocketrPGA988B => 33 | ProcessorUpgrade_SocketBGA1023 => 34
  | ProcessorUpgrade_SocketBGA1224 => 35 | ProcessorUpgrade_SocketLGA1155 => 36
  | ProcessorUpgrade_SocketLGA1356 => 37 | ProcessorUpgrade_SocketLGA2011 => 38
  | ProcessorUpgrade_SocketFS1 => 39 | ProcessorUpgrade_SocketFS2 => 40 | ProcessorUpgrade_SocketFM1 => 41
  | ProcessorUpgrade_SocketFM2 => 42 | ProcessorUpgrade_SocketLGA2011Three => 43
  | ProcessorUpgrade_SocketLGA1356Three => 44 | ProcessorUpgrade_SocketLGA1150 => 45
  | ProcessorUpgrade_SocketBGA1168 => 46 | ProcessorUpgrade_SocketBGA1234 => 47
  | ProcessorUpgrade_SocketBGA1364 => 48 | ProcessorUpgrade_SocketAM4 => 49
  | ProcessorUpgrade_SocketLGA1151 => 50 | ProcessorUpgrade_SocketBGA1356 => 51
  | ProcessorUpgrade_SocketBGA1440 => 52 | ProcessorUpgrade_SocketBGA1515 => 53
  | ProcessorUpgrade_SocketLGA3647 => 54 | ProcessorUpgrade_SocketSP3 => 55
  | ProcessorUpgrade_SocketSP3r2 => 56 | ProcessorUpgrade_SocketLGA2066 => 57
  | ProcessorUpgrade_SocketBGA1392 => 58 | ProcessorUpgrade_SocketBGA1510 => 59
  | ProcessorUpgrade_SocketBGA1528 => 60 | ProcessorUpgrade_SocketLGA4189 => 61
  | ProcessorUpgrade_SocketLGA1200 => 62 | ProcessorUpgrade_Undefined v => v
  end.

Lemma ProcessorUpgrade_number_from k : ProcessorUpgrade_number (ProcessorUpgrade_from k) = k.
Proof.
  intros. unfold ProcessorUpgrade_from.
  repeat match goal with
  | |- context [k =? ?v] => destruct (N.eqb_spec k v); [subst k; reflexivity || contradiction|]
  end.
  cbn [orb]. repeat match goal with |- context [if ?b then _ else _] => destruct b eqn:? end; try reflexivity; cbn; lia.
Qed.

Lemma CacheLevel_from_named k : CacheLevel_from k = match named CacheLevel_codes k with Some x => Val x | None => Panic end.
Proof.
  unfold CacheLevel_from, CacheLevel_codes. cbn [named]. by_code k. reflexivity.
Qed.

Definition CacheLevel_number (x : CacheLevel) : N :=
  match x with
  | CacheLevel_L1 => 0 | CacheLevel_L2 => 1 | CacheLevel_L3 => 2 | CacheLevel_L4 => 3 | CacheLevel_L5 => 4
  | CacheLevel_L6 => 5 | CacheLevel_L7 => 6 | CacheLevel_L8 => 7
  end.

Lemma CacheLevel_number_from k x : CacheLevel_from k = Val x -> CacheLevel_number x = k.
Proof.
  unfold CacheLevel_from.
  repeat match goal with |- context [k =? ?v] => destruct (N.eqb_spec k v); [subst k; intros [= <-]; reflexivity|] end.
  discriminate.
Qed.

Lemma CacheLocation_from_named k : CacheLocation_from k = match named CacheLocation_codes k with Some x => Val x | None => Panic end.
Proof.
  unfold CacheLocation_from, CacheLocation_codes. cbn [named]. by_code k. reflexivity.
Qed.

Definition CacheLocation_number (x : CacheLocation) : N :=
  match x with
  | CacheLocation_Internal => 0 | CacheLocation_External => 1 | CacheLocation_Reserved => 2
  | CacheLocation_Unknown => 3
  end.

Lemma CacheLocation_number_from k x : CacheLocation_from k = Val x -> CacheLocation_number x = k.
Proof.
  unfold CacheLocation_from.
  repeat match goal with |- context [k =? ?v] => destruct (N.eqb_spec k v); [subst k; intros [= <-]; reflexivity|] end.
  discriminate.
Qed.

Lemma CacheOperationalMode_from_named k : CacheOperationalMode_from k = match named CacheOperationalMode_codes k with Some x => Val x | None => Panic end.
Proof.
  unfold CacheOperationalMode_from, CacheOperationalMode_codes. cbn [named]. by_code k. reflexivity.
Qed.

Definition CacheOperationalMode_number (x : CacheOperationalMode) : N :=
  match x with
  | CacheOperationalMode_WriteThrough => 0 | CacheOperationalMode_WriteBack => 1
  | CacheOperationalMode_ValuesWithMemoryAddress => 2 | CacheOperationalMode_Unknown => 3
  end.

Lemma CacheOperationalMode_number_from k x : CacheOperationalMode_from k = Val x -> CacheOperationalMode_number x = k.
Proof.
  unfold CacheOperationalMode_from.
  repeat match goal with |- context [k =? ?v] => destruct (N.eqb_spec k v); [subst k; intros [= <-]; reflexivity|] end.
  discriminate.
Qed.

Lemma CacheErrorCorrectionType_from_meaning k : CacheErrorCorrectionType_from k = meaning CacheErrorCorrectionType_codes CacheErrorCorrectionType_Undefined k.
Proof.
  unfold CacheErrorCorrectionType_from, meaning, CacheErrorCorrectionType_codes. cbn [named]. by_code k. reflexivity.
Qed.

Definition CacheErrorCorrectionType_number (x : CacheErrorCorrectionType) : N :=
  match x with
  | CacheErrorCorrectionType_Other => 1 | CacheErrorCorrectionType_Unknown => 2
  | CacheErrorCorrectionType_None => 3 | CacheErrorCorrectionType_Parity => 4
  | CacheErrorCorrectionType_SingleBitEcc => 5 | CacheErrorCorrectionType_MultiBitEcc => 6
  | CacheErrorCorrectionType_Undefined v => v
  end.

Lemma CacheErrorCorrectionType_number_from k : CacheErrorCorrectionType_number (CacheErrorCorrectionType_from k) = k.
Proof.
  intros. unfold CacheErrorCorrectionType_from.
  repeat match goal with
  | |- context [k =? ?v] => destruct (N.eqb_spec k v); [subst k; reflexivity || contradiction|]
  end.
  cbn [orb]. repeat match goal with |- context [if ?b then _ else _] => destruct b eqn:? end; try reflexivity; cbn; lia.
Qed.

Lemma SystemCacheType_from_meaning k : SystemCacheType_from k = meaning SystemCacheType_codes SystemCacheType_Undefined k.
Proof.
  unfold SystemCacheType_from, meaning, SystemCacheType_codes. cbn [named]. by_code k. reflexivity.
Qed.

Definition SystemCacheType_number (x : SystemCacheType) : N :=
  match x with
  | SystemCacheType_Other => 1 | SystemCacheType_Unknown => 2 | SystemCacheType_Instruction => 3
  | SystemCacheType_Data => 4 | SystemCacheType_Unified => 5 | SystemCacheType_Undefined v => v
  end.

Lemma SystemCacheType_number_from k : SystemCacheType_number (SystemCacheType_from k) = k.
Proof.
  intros. unfold SystemCacheType_from.
  repeat match goal with
  | |- context [k =? ?v] => destruct (N.eqb_spec k v); [subst k; reflexivity || contradiction|]
  end.
  cbn [orb]. repeat match goal with |- context [if ?b then _ else _] => destruct b eqn:? end; try reflexivity; cbn; lia.
Qed.

Lemma CacheAssociativity_from_meaning k : CacheAssociativity_from k = meaning CacheAssociativity_codes CacheAssociativity_Undefined k.
Proof.
  unfold CacheAssociativity_from, meaning, CacheAssociativity_codes. cbn [named]. by_code k. reflexivity.
Qed.

Definition CacheAssociativity_number (x : CacheAssociativity) : N :=
  match x with
  | CacheAssociativity_Other => 1 | CacheAssociativity_Unknown => 2 | CacheAssociativity_DirectMapped => 3
  | CacheAssociativity_TwowaySetAssociative => 4 | CacheAssociativity_FourWaySetAssociative => 5
  | CacheAssociativity_FullyAssociative => 6 | CacheAssociativity_EightWaySetAssociative => 7
  | CacheAssociativity_SixteenWaySetAssociative => 8 | CacheAssociativity_TwelveWaySetAssociative => 9
  | CacheAssociativity_TwentyFourWaySetAssociative => 10
  | CacheAssociativity_ThirtyTwoWaySetAssociative => 11
  | CacheAssociativity_FourtyEightWaySetAssociative => 12
  | CacheAssociativity_SixtyFourWaySetAssociative => 13 | CacheAssociativity_TwentyWaySetAssociative => 14
  | CacheAssociativity_Undefined v => v
  end.

Lemma CacheAssociativity_number_from k : CacheAssociativity_number (CacheAssociativity_from k) = k.
Proof.
  intros. unfold CacheAssociativity_from.
  repeat match goal with
  | |- context [k =? ?v] => destruct (N.eqb_spec k v); [subst k; reflexivity || contradiction|]
  end.
  cbn [orb]. repeat match goal with |- context [if ?b then _ else _] => destruct b eqn:? end; try reflexivity; cbn; lia.
Qed.

Lemma ConnectorType_from_meaning k : ConnectorType_from k = meaning ConnectorType_codes ConnectorType_Undefined k.
Proof.
  unfold ConnectorType_from, meaning, ConnectorType_codes. cbn [named]. by_code k. reflexivity.
Qed.

Definition ConnectorType_number (x : ConnectorType) : N :=
  match x with
  | ConnectorType_None => 0 | ConnectorType_Centronics => 1 | ConnectorType_MiniCentronics => 2
  | ConnectorType_Proprietary => 3 | ConnectorType_Db25PinMale => 4 | ConnectorType_Db25PinFemale => 5
  | ConnectorType_Db15PinMale => 6 | ConnectorType_Db15PinFemale => 7 | ConnectorType_Db9PinMale => 8
  | ConnectorType_Db9PinFemale => 9 | ConnectorType_Rj11 => 10 | ConnectorType_Rj45 => 11
  | ConnectorType_MiniScsi => 12 | ConnectorType_MiniDin => 13 | ConnectorType_MicroDin => 14
  | ConnectorType_Ps2 => 15 | ConnectorType_Infrared => 16 | ConnectorType_HpHil => 17
  | ConnectorType_AccessBus => 18 | ConnectorType_SsaScsi => 19 | ConnectorType_CircularDin8Male => 20
  | ConnectorType_CircularDin8Female => 21 | ConnectorType_OnBoardIde => 22
  | ConnectorType_OnBoardFloppy => 23 | ConnectorType_DualInline9 => 24 | ConnectorType_DualInline25 => 25
  | ConnectorType_DualInline50 => 26 | ConnectorType_DualInline68 => 27
  | ConnectorType_OnBoardSoundInputFromCdRom => 28 | ConnectorType_MiniCentronicsType14 => 29
  | ConnectorType_MiniCentronicsType26 => 30 | ConnectorType_MiniJack => 31 | ConnectorType_Bnc => 32
  | ConnectorType_Ieee1394 => 33 | ConnectorType_SasSataPlugReceptacle => 34
  | ConnectorType_UsbTypeCReceptacle => 35 | ConnectorType_Pc98 => 160 | ConnectorType_Pc98Hireso => 161
  | ConnectorType_PcH98 => 162 | ConnectorType_Pc98Note => 163 | ConnectorType_Pc98Full => 164
  | ConnectorType_Other => 255 | ConnectorType_Undefined v => v
  end.

Lemma ConnectorType_number_from k : ConnectorType_number (ConnectorType_from k) = k.
Proof.
  intros. unfold ConnectorType_from.
  repeat match goal with
  | |- context [k =? ?v] => destruct (N.eqb_spec k v); [subst k; reflexivity || contradiction|]
  end.
  cbn [orb]. repeat match goal with |- context [if ?b then _ else _] => destruct b eqn:? end; try reflexivity; cbn; lia.
Qed.

Lemma PortType_from_meaning k : PortType_from k = meaning PortType_codes PortType_Undefined k.
Proof.
  unfold PortType_from, meaning, PortType_codes. cbn [named]. by_code k. reflexivity.
Qed.

Definition PortType_number (x : PortType) : N :=
  match x with
  | PortType_None => 0 | PortType_ParallelPortXtAtCompatible => 1 | PortType_ParallelPortPs2 => 2
  | PortType_ParallelPortEcp => 3 | PortType_ParallelPortEpp => 4 | PortType_ParallelPortEcpEpp => 5
  | PortType_SerialPortXtAtCompatible => 6 | PortType_SerialPort16450Compatible => 7
  | PortType_SerialPort16550Compatible => 8 | PortType_SerialPort16550ACompatible => 9
  | PortType_ScsiPort => 10 | PortType_MidiPort => 11 | PortType_JoyStickPort => 12
  | PortType_KeyboardPort => 13 | PortType_MousePort => 14 | PortType_SsaScsi => 15 | PortType_Usb => 16
  | PortType_FireWire => 17 | PortType_PcmciaType1 => 18 | PortType_PcmciaType2 => 19
  | PortType_PcmciaType3 => 20 | PortType_Cardbus => 21 | PortType_AccessBusPort => 22 | PortType_Scsi2 => 23
  | PortType_ScsiWide => 24 | PortType_Pc98 => 25 | PortType_Pc98Hireso => 26 | PortType_PcH98 => 27
  | PortType_VideoPort => 28 | PortType_AudioPort => 29 | PortType_ModemPort => 30
  | PortType_NetworkPort => 31 | PortType_Sata => 32 | PortType_Sas => 33
  | PortType_MultiFunctionDisplayPort => 34 | PortType_Thunderbolt => 35
  | PortType_Intel8251Compatible => 160 | PortType_Intel8251FifoCompatible => 161 | PortType_Other => 255
  | PortType_Undefined v => v
  end.

Lemma PortType_number_from k : PortType_number (PortType_from k) = k.
Proof.
  intros. unfold PortType_from.
  repeat match goal with
  | |- context [k =? ?v] => destruct (N.eqb_spec k v); [subst k; reflexivity || contradiction|]
  end.
  cbn [orb]. repeat match goal with |- context [if ?b then _ else _] => destruct b eqn:? end; try reflexivity; cbn; lia.
Qed.

Lemma SlotType_from_meaning k : SlotType_from k = meaning SlotType_codes_here SlotType_Undefined k.
Proof.
  unfold SlotType_from, meaning, SlotType_codes_here. cbn [named]. by_code k. reflexivity.
Qed.

Definition SlotType_number (x : SlotType) : N :=
  match x with
  | SlotType_Other => 1 | SlotType_Unknown => 2 | SlotType_Isa => 3 | SlotType_Mca => 4 | SlotType_Eisa => 5
  | SlotType_Pci => 6 | SlotType_PcCard => 7 | SlotType_VlVesa => 8 | SlotType_Proprietary => 9
  | SlotType_ProcessorCardSlot => 10 | SlotType_ProprietaryMemoryCardSlot => 11
  | SlotType_IoRiserCardSlot => 12 | SlotType_Nubus => 13 | SlotType_Pci66Mhz => 14 | SlotType_Agp => 15
  | SlotType_Agp2x => 16 | SlotType_Agp4x => 17 | SlotType_PciX => 18 | SlotType_Agp8x => 19
  | SlotType_M2Socket1DP => 20 | SlotType_M2Socket1SD => 21 | SlotType_M2Socket2 => 22
  | SlotType_M2Socket3 => 23 | SlotType_MxmType1 => 24 | SlotType_MxmType2 => 25 | SlotType_MxmType3 => 26
  | SlotType_MxmType3He => 27 | SlotType_MxmType4 => 28 | SlotType_Mxm3TypeA => 29 | SlotType_Mxm3TypeB => 30
  | SlotType_U2PciExpressGen2 => 0 | SlotType_U2PciExpressGen3 => 0 | SlotType_PciExpressMini52pin1 => 33
  | SlotType_PciExpressMini52pin2 => 34 | SlotType_PciExpressMini76pin => 35 | SlotType_U2PciExpressGen4 => 0
  | SlotType_U2PciExpressGen5 => 0 | SlotType_OcpNic3Small => 38 | SlotType_OcpNic3Large => 39
  | SlotType_OcpNicPriorTo3 => 40 | SlotType_CxlFlexbus1 => 48 | SlotType_Pc98C20 => 160
  | SlotType_Pc98C24 => 161 | SlotType_Pc98E => 162 | SlotType_Pc98LocalBus => 163 | SlotType_Pc98Card => 164
  | SlotType_PciExpress => 165 | SlotType_PciExpressX1 => 166 | SlotType_PciExpressX2 => 167
  | SlotType_PciExpressX4 => 168 | SlotType_PciExpressX8 => 169 | SlotType_PciExpressX16 => 170
  | SlotType_PciExpressGen2 => 31 | SlotType_PciExpressGen2x1 => 172 | SlotType_PciExpressGen2x2 => 173
  | SlotType_PciExpressGen2x4 => 174 | SlotType_PciExpressGen2x8 => 175 | SlotType_PciExpressGen2x16 => 176
  | SlotType_PciExpressGen3 => 32 | SlotType_PciExpressGen3x1 => 178 | SlotType_PciExpressGen3x2 => 179
  | SlotType_PciExpressGen3x4 => 180 | SlotType_PciExpressGen3x8 => 181 | SlotType_PciExpressGen3x16 => 182
  | SlotType_PciExpressGen4 => 36 | SlotType_PciExpressGen4x1 => 185 | SlotType_PciExpressGen4x2 => 186
  | SlotType_PciExpressGen4x4 => 187 | SlotType_PciExpressGen4x8 => 188 | SlotType_PciExpressGen4x16 => 189
  | SlotType_PciExpressGen5 => 37 | SlotType_PciExpressGen5x1 => 191 | SlotType_PciExpressGen5x2 => 192
  | SlotType_PciExpressGen5x4 => 193 | SlotType_PciExpressGen5x8 => 194 | SlotType_PciExpressGen5x16 => 195
  | SlotType_PciExpressGen6 => 196 | SlotType_E1FormFactorSlot => 197 | SlotType_E3FormFactorSlot => 198
  | SlotType_Undefined v => v
  end.

Lemma SlotType_number_from k : k <> 171 -> k <> 177 -> k <> 184 -> k <> 190 -> SlotType_number (SlotType_from k) = k.
Proof.
  intros. unfold SlotType_from.
  repeat match goal with
  | |- context [k =? ?v] => destruct (N.eqb_spec k v); [subst k; reflexivity || contradiction|]
  end.
  cbn [orb]. repeat match goal with |- context [if ?b then _ else _] => destruct b eqn:? end; try reflexivity; cbn; lia.
Qed.

Lemma SlotWidth_from_meaning k : SlotWidth_from k = meaning SlotWidth_codes SlotWidth_Undefined k.
Proof.
  unfold SlotWidth_from, meaning, SlotWidth_codes. cbn [named]. by_code k. reflexivity.
Qed.

Definition SlotWidth_number (x : SlotWidth) : N :=
  match x with
  | SlotWidth_Other => 1 | SlotWidth_Unknown => 2 | SlotWidth_Byte => 3 | SlotWidth_Word => 4
  | SlotWidth_Dword => 5 | SlotWidth_Qword => 6 | SlotWidth_Dqword => 7 | SlotWidth_X1 => 8
  | SlotWidth_X2 => 9 | SlotWidth_X4 => 10 | SlotWidth_X8 => 11 | SlotWidth_X12 => 12 | SlotWidth_X16 => 13
  | SlotWidth_X32 => 14 | SlotWidth_Undefined v => v
  end.

Lemma SlotWidth_number_from k : SlotWidth_number (SlotWidth_from k) = k.
Proof.
  intros. unfold SlotWidth_from.
  repeat match goal with
  | |- context [k =? ?v] => destruct (N.eqb_spec k v); [subst k; reflexivity || contradiction|]
  end.
  cbn [orb]. repeat match goal with |- context [if ?b then _ else _] => destruct b eqn:? end; try reflexivity; cbn; lia.
Qed.

Lemma CurrentUsage_from_meaning k : CurrentUsage_from k = meaning CurrentUsage_codes CurrentUsage_Undefined k.
Proof.
  unfold CurrentUsage_from, meaning, CurrentUsage_codes. cbn [named]. by_code k. reflexivity.
Qed.

Definition CurrentUsage_number (x : CurrentUsage) : N :=
  match x with
  | CurrentUsage_Other => 1 | CurrentUsage_Unknown => 2 | CurrentUsage_Available => 3
  | CurrentUsage_InUse => 4 | CurrentUsage_Unavailable => 5 | CurrentUsage_Undefined v => v
  end.

Lemma CurrentUsage_number_from k : CurrentUsage_number (CurrentUsage_from k) = k.
Proof.
  intros. unfold CurrentUsage_from.
  repeat match goal with
  | |- context [k =? ?v] => destruct (N.eqb_spec k v); [subst k; reflexivity || contradiction|]
  end.
  cbn [orb]. repeat match goal with |- context [if ?b then _ else _] => destruct b eqn:? end; try reflexivity; cbn; lia.
Qed.

Lemma SlotLength_from_meaning k : SlotLength_from k = meaning SlotLength_codes SlotLength_Undefined k.
Proof.
  unfold SlotLength_from, meaning, SlotLength_codes. cbn [named]. by_code k. reflexivity.
Qed.

Definition SlotLength_number (x : SlotLength) : N :=
  match x with
  | SlotLength_Other => 1 | SlotLength_Unknown => 2 | SlotLength_ShortLength => 3
  | SlotLength_LongLength => 4 | SlotLength_DriveFormFactor2_5 => 5 | SlotLength_DriveFormFactor3_5 => 6
  | SlotLength_Undefined v => v
  end.

Lemma SlotLength_number_from k : SlotLength_number (SlotLength_from k) = k.
Proof.
  intros. unfold SlotLength_from.
  repeat match goal with
  | |- context [k =? ?v] => destruct (N.eqb_spec k v); [subst k; reflexivity || contradiction|]
  end.
  cbn [orb]. repeat match goal with |- context [if ?b then _ else _] => destruct b eqn:? end; try reflexivity; cbn; lia.
Qed.

Lemma EventLogType_from_meaning k : k < 256 -> EventLogType_from k = meaning EventLogType_codes EventLogType_other k.
Proof.
  intros Hk. unfold EventLogType_from, meaning, EventLogType_codes, EventLogType_other. cbn [named].
  repeat match goal with
  | |- context [k =? ?v] => destruct (N.eqb_spec k v); [subst k; reflexivity|]
  end.
  cbn [orb].
  repeat match goal with |- context [if ?b then _ else _] => destruct b eqn:?; cbn [orb andb] end; try reflexivity; exfalso; lia.
Qed.

Definition EventLogType_number (x : EventLogType) : N :=
  match x with
  | EventLogType_Reserved v => v | EventLogType_SingleBitEccMemoryError => 1
  | EventLogType_MultiBitEccMemoryError => 2 | EventLogType_ParityMemoryError => 3
  | EventLogType_BusTimeOut => 4 | EventLogType_IoChannelCheck => 5 | EventLogType_SoftwareNmi => 6
  | EventLogType_PostMemoryResize => 7 | EventLogType_PostError => 8 | EventLogType_PciParityError => 9
  | EventLogType_PciSystemError => 10 | EventLogType_CpuFailure => 11
  | EventLogType_EisaFailSafeTimerTimeOut => 12 | EventLogType_CorrectableMemoryLogDisabled => 13
  | EventLogType_LoggingDisabledForSpecificEventType => 14 | EventLogType_SystemLimitExceeded => 16
  | EventLogType_AsynchronousHardwareTimerExpired => 17 | EventLogType_SystemConfigurationInformation => 18
  | EventLogType_HardDiskInformation => 19 | EventLogType_SystemReconfigured => 20
  | EventLogType_UncorrectableCpuComplexError => 21 | EventLogType_LogAreaReset => 22
  | EventLogType_SystemBoot => 23 | EventLogType_Unused v => v | EventLogType_Available v => v
  | EventLogType_EndOfLog => 255
  end.

Lemma EventLogType_number_from k : k < 256 -> EventLogType_number (EventLogType_from k) = k.
Proof.
  intros. unfold EventLogType_from.
  repeat match goal with
  | |- context [k =? ?v] => destruct (N.eqb_spec k v); [subst k; reflexivity || contradiction|]
  end.
  cbn [orb]. repeat match goal with |- context [if ?b then _ else _] => destruct b eqn:? end; try reflexivity; cbn; lia.
Qed.

Lemma LogHeaderFormat_from_meaning k : k < 256 -> LogHeaderFormat_from k = meaning LogHeaderFormat_codes LogHeaderFormat_other k.
Proof.
  intros Hk. unfold LogHeaderFormat_from, meaning, LogHeaderFormat_codes, LogHeaderFormat_other. cbn [named].
  repeat match goal with
  | |- context [k =? ?v] => destruct (N.eqb_spec k v); [subst k; reflexivity|]
  end.
  cbn [orb].
  repeat match goal with |- context [if ?b then _ else _] => destruct b eqn:?; cbn [orb andb] end; try reflexivity; exfalso; lia.
Qed.

Definition LogHeaderFormat_number (x : LogHeaderFormat) : N :=
  match x with
  | LogHeaderFormat_NoHeader => 0 | LogHeaderFormat_LogHeaderType1 => 1 | LogHeaderFormat_Available v => v
  | LogHeaderFormat_OemSpecific v => v
  end.

Lemma LogHeaderFormat_number_from k : LogHeaderFormat_number (LogHeaderFormat_from k) = k.
Proof.
  intros. unfold LogHeaderFormat_from.
  repeat match goal with
  | |- context [k =? ?v] => destruct (N.eqb_spec k v); [subst k; reflexivity || contradiction|]
  end.
  cbn [orb]. repeat match goal with |- context [if ?b then _ else _] => destruct b eqn:? end; try reflexivity; cbn; lia.
Qed.

Lemma MemoryArrayLocation_from_meaning k : MemoryArrayLocation_from k = meaning MemoryArrayLocation_codes_here MemoryArrayLocation_Undefined k.
Proof.
  unfold MemoryArrayLocation_from, meaning, MemoryArrayLocation_codes_here. cbn [named]. by_code k. reflexivity.
Qed.

Definition MemoryArrayLocation_number (x : MemoryArrayLocation) : N :=
  match x with
  | MemoryArrayLocation_Other => 1 | MemoryArrayLocation_Unknown => 2
  | MemoryArrayLocation_SystemBoardOrMotherboard => 3 | MemoryArrayLocation_IsaAddOnCard => 4
  | MemoryArrayLocation_EisaAddOnCard => 5 | MemoryArrayLocation_PciAddOnCard => 6
  | MemoryArrayLocation_McaAddOnCard => 7 | MemoryArrayLocation_PcmciaAddOnCard => 8
  | MemoryArrayLocation_ProprietaryAddOnCard => 9 | MemoryArrayLocation_NuBus => 10
  | MemoryArrayLocation_Pc98c20AddOnCard => 11 | MemoryArrayLocation_Pc98c24AddOnCard => 12
  | MemoryArrayLocation_Pc98eAddOnCard => 13 | MemoryArrayLocation_Pc98LocalBusAddOnCard => 14
  | MemoryArrayLocation_CxlAddOnCard => 15 | MemoryArrayLocation_Undefined v => v
  end.

Lemma MemoryArrayLocation_number_from k : MemoryArrayLocation_number (MemoryArrayLocation_from k) = k.
Proof.
  intros. unfold MemoryArrayLocation_from.
  repeat match goal with
  | |- context [k =? ?v] => destruct (N.eqb_spec k v); [subst k; reflexivity || contradiction|]
  end.
  cbn [orb]. repeat match goal with |- context [if ?b then _ else _] => destruct b eqn:? end; try reflexivity; cbn; lia.
Qed.

Lemma MemoryArrayUse_from_meaning k : MemoryArrayUse_from k = meaning MemoryArrayUse_codes MemoryArrayUse_Undefined k.
Proof.
  unfold MemoryArrayUse_from, meaning, MemoryArrayUse_codes. cbn [named]. by_code k. reflexivity.
Qed.

Definition MemoryArrayUse_number (x : MemoryArrayUse) : N :=
  match x with
  | MemoryArrayUse_Other => 1 | MemoryArrayUse_Unknown => 2 | MemoryArrayUse_SystemMemory => 3
  | MemoryArrayUse_VideoMemory => 4 | MemoryArrayUse_FlashMemory => 5 | MemoryArrayUse_NonVolatileRam => 6
  | MemoryArrayUse_CacheMemory => 7 | MemoryArrayUse_Undefined v => v
  end.

Lemma MemoryArrayUse_number_from k : MemoryArrayUse_number (MemoryArrayUse_from k) = k.
Proof.
  intros. unfold MemoryArrayUse_from.
  repeat match goal with
  | |- context [k =? ?v] => destruct (N.eqb_spec k v); [subst k; reflexivity || contradiction|]
  end.
  cbn [orb]. repeat match goal with |- context [if ?b then _ else _] => destruct b eqn:? end; try reflexivity; cbn; lia.
Qed.

Lemma MemoryArrayErrorCorrectionTypes_from_meaning k : MemoryArrayErrorCorrectionTypes_from k = meaning MemoryArrayErrorCorrectionTypes_codes MemoryArrayErrorCorrectionTypes_Undefined k.
Proof.
  unfold MemoryArrayErrorCorrectionTypes_from, meaning, MemoryArrayErrorCorrectionTypes_codes. cbn [named]. by_code k. reflexivity.
Qed.

Definition MemoryArrayErrorCorrectionTypes_number (x : MemoryArrayErrorCorrectionTypes) : N :=
  match x with
  | MemoryArrayErrorCorrectionTypes_Other => 1 | MemoryArrayErrorCorrectionTypes_Unknown => 2
  | MemoryArrayErrorCorrectionTypes_None => 3 | MemoryArrayErrorCorrectionTypes_Parity => 4
  | MemoryArrayErrorCorrectionTypes_SingleBitEcc => 5 | MemoryArrayErrorCorrectionTypes_MultiBitEcc => 6
  | MemoryArrayErrorCorrectionTypes_CRC => 7 | MemoryArrayErrorCorrectionTypes_Undefined v => v
  end.

Lemma MemoryArrayErrorCorrectionTypes_number_from k : MemoryArrayErrorCorrectionTypes_number (MemoryArrayErrorCorrectionTypes_from k) = k.
Proof.
  intros. unfold MemoryArrayErrorCorrectionTypes_from.
  repeat match goal with
  | |- context [k =? ?v] => destruct (N.eqb_spec k v); [subst k; reflexivity || contradiction|]
  end.
  cbn [orb]. repeat match goal with |- context [if ?b then _ else _] => destruct b eqn:? end; try reflexivity; cbn; lia.
Qed.

Lemma MDErrorGranularity_from_meaning k : MDErrorGranularity_from k = meaning MDErrorGranularity_codes MDErrorGranularity_Undefined k.
Proof.
  unfold MDErrorGranularity_from, meaning, MDErrorGranularity_codes. cbn [named]. by_code k. reflexivity.
Qed.

Definition MDErrorGranularity_number (x : MDErrorGranularity) : N :=
  match x with
  | MDErrorGranularity_Other => 1 | MDErrorGranularity_Unknown => 2 | MDErrorGranularity_DeviceLevel => 3
  | MDErrorGranularity_MemoryLevel => 4 | MDErrorGranularity_Undefined v => v
  end.

Lemma MDErrorGranularity_number_from k : MDErrorGranularity_number (MDErrorGranularity_from k) = k.
Proof.
  intros. unfold MDErrorGranularity_from.
  repeat match goal with
  | |- context [k =? ?v] => destruct (N.eqb_spec k v); [subst k; reflexivity || contradiction|]
  end.
  cbn [orb]. repeat match goal with |- context [if ?b then _ else _] => destruct b eqn:? end; try reflexivity; cbn; lia.
Qed.

Lemma MDErrorOperation_from_meaning k : MDErrorOperation_from k = meaning MDErrorOperation_codes MDErrorOperation_Undefined k.
Proof.
  unfold MDErrorOperation_from, meaning, MDErrorOperation_codes. cbn [named]. by_code k. reflexivity.
Qed.

Definition MDErrorOperation_number (x : MDErrorOperation) : N :=
  match x with
  | MDErrorOperation_Other => 1 | MDErrorOperation_Unknown => 2 | MDErrorOperation_Read => 3
  | MDErrorOperation_Write => 4 | MDErrorOperation_PartialWrite => 5 | MDErrorOperation_Undefined v => v
  end.

Lemma MDErrorOperation_number_from k : MDErrorOperation_number (MDErrorOperation_from k) = k.
Proof.
  intros. unfold MDErrorOperation_from.
  repeat match goal with
  | |- context [k =? ?v] => destruct (N.eqb_spec k v); [subst k; reflexivity || contradiction|]
  end.
  cbn [orb]. repeat match goal with |- context [if ?b then _ else _] => destruct b eqn:? end; try reflexivity; cbn; lia.
Qed.

Lemma MDErrorType_from_meaning k : MDErrorType_from k = meaning MDErrorType_codes MDErrorType_Undefined k.
Proof.
  unfold MDErrorType_from, meaning, MDErrorType_codes. cbn [named]. by_code k. reflexivity.
Qed.

Definition MDErrorType_number (x : MDErrorType) : N :=
  match x with
  | MDErrorType_Other => 1 | MDErrorType_Unknown => 2 | MDErrorType_Ok => 3 | MDErrorType_BadRead => 4
  | MDErrorType_Parity => 5 | MDErrorType_SingleBit => 6 | MDErrorType_DoubleBit => 7
  | MDErrorType_MultiBit => 8 | MDErrorType_Nibble => 9 | MDErrorType_Checksum => 10 | MDErrorType_Crc => 11
  | MDErrorType_CorrectedSingleBit => 12 | MDErrorType_Corrected => 13 | MDErrorType_Uncorrectable => 14
  | MDErrorType_Undefined v => v
  end.

Lemma MDErrorType_number_from k : MDErrorType_number (MDErrorType_from k) = k.
Proof.
  intros. unfold MDErrorType_from.
  repeat match goal with
  | |- context [k =? ?v] => destruct (N.eqb_spec k v); [subst k; reflexivity || contradiction|]
  end.
  cbn [orb]. repeat match goal with |- context [if ?b then _ else _] => destruct b eqn:? end; try reflexivity; cbn; lia.
Qed.

Lemma FormFactor_from_meaning k : FormFactor_from k = meaning FormFactor_codes_here FormFactor_Undefined k.
Proof.
  unfold FormFactor_from, meaning, FormFactor_codes_here. cbn [named]. by_code k. reflexivity.
Qed.

Definition FormFactor_number (x : FormFactor) : N :=
  match x with
  | FormFactor_Other => 0 | FormFactor_Unknown => 1 | FormFactor_Simm => 2 | FormFactor_Sip => 3
  | FormFactor_Chip => 4 | FormFactor_Dip => 5 | FormFactor_Zip => 6 | FormFactor_ProprietaryCard => 7
  | FormFactor_Dimm => 8 | FormFactor_Tsop => 10 | FormFactor_RowOfChips => 11 | FormFactor_Rimm => 12
  | FormFactor_SoDimm => 13 | FormFactor_Srimm => 14 | FormFactor_FbDimm => 15 | FormFactor_Undefined v => v
  end.

Lemma FormFactor_number_from k : k <> 9 -> FormFactor_number (FormFactor_from k) = k.
Proof.
  intros. unfold FormFactor_from.
  repeat match goal with
  | |- context [k =? ?v] => destruct (N.eqb_spec k v); [subst k; reflexivity || contradiction|]
  end.
  cbn [orb]. repeat match goal with |- context [if ?b then _ else _] => destruct b eqn:? end; try reflexivity; cbn; lia.
Qed.

Lemma MemoryTechnology_from_meaning k : MemoryTechnology_from k = meaning MemoryTechnology_codes MemoryTechnology_Undefined k.
Proof.
  unfold MemoryTechnology_from, meaning, MemoryTechnology_codes. cbn [named]. by_code k. reflexivity.
Qed.

Definition MemoryTechnology_number (x : MemoryTechnology) : N :=
  match x with
  | MemoryTechnology_Other => 1 | MemoryTechnology_Unknown => 2 | MemoryTechnology_Dram => 3
  | MemoryTechnology_NvDimmN => 4 | MemoryTechnology_NvDimmF => 5 | MemoryTechnology_NvDimmP => 6
  | MemoryTechnology_IntelOptane => 7 | MemoryTechnology_Undefined v => v
  end.

Lemma MemoryTechnology_number_from k : MemoryTechnology_number (MemoryTechnology_from k) = k.
Proof.
  intros. unfold MemoryTechnology_from.
  repeat match goal with
  | |- context [k =? ?v] => destruct (N.eqb_spec k v); [subst k; reflexivity || contradiction|]
  end.
  cbn [orb]. repeat match goal with |- context [if ?b then _ else _] => destruct b eqn:? end; try reflexivity; cbn; lia.
Qed.

Lemma MemoryType_from_meaning k : MemoryType_from k = meaning MemoryType_codes MemoryType_Undefined k.
Proof.
  unfold MemoryType_from, meaning, MemoryType_codes. cbn [named]. by_code k. reflexivity.
Qed.

Definition MemoryType_number (x : MemoryType) : N :=
  match x with
  | MemoryType_Other => 1 | MemoryType_Unknown => 2 | MemoryType_Dram => 3 | MemoryType_Edram => 4
  | MemoryType_Vram => 5 | MemoryType_Sram => 6 | MemoryType_Ram => 7 | MemoryType_Rom => 8
  | MemoryType_Flash => 9 | MemoryType_Eeprom => 10 | MemoryType_Feprom => 11 | MemoryType_Eprom => 12
  | MemoryType_Cdram => 13 | MemoryType_ThreeDram => 14 | MemoryType_Sdram => 15 | MemoryType_Sgram => 16
  | MemoryType_Rdram => 17 | MemoryType_Ddr => 18 | MemoryType_Ddr2 => 19 | MemoryType_Ddr2FbDimm => 20
  | MemoryType_Reserved => 21 | MemoryType_Ddr3 => 24 | MemoryType_Fbd2 => 25 | MemoryType_Ddr4 => 26
  | MemoryType_Ddr5 => 34 | MemoryType_LpDdr => 27 | MemoryType_LpDdr2 => 28 | MemoryType_LpDdr3 => 29
  | MemoryType_LpDdr4 => 30 | MemoryType_LpDdr5 => 35 | MemoryType_LogicalNonVolatileDevice => 31
  | MemoryType_Hbm => 32 | MemoryType_Hbm2 => 33 | MemoryType_Undefined v => v
  end.

Lemma MemoryType_number_from k : k <> 22 -> k <> 23 -> MemoryType_number (MemoryType_from k) = k.
Proof.
  intros. unfold MemoryType_from.
  repeat match goal with
  | |- context [k =? ?v] => destruct (N.eqb_spec k v); [subst k; reflexivity || contradiction|]
  end.
  cbn [orb]. repeat match goal with |- context [if ?b then _ else _] => destruct b eqn:? end; try reflexivity; cbn; lia.
Qed.

Lemma MEErrorType_from_meaning k : MEErrorType_from k = meaning MEErrorType_codes MEErrorType_Undefined k.
Proof.
  unfold MEErrorType_from, meaning, MEErrorType_codes. cbn [named]. by_code k. reflexivity.
Qed.

Definition MEErrorType_number (x : MEErrorType) : N :=
  match x with
  | MEErrorType_Other => 1 | MEErrorType_Unknown => 2 | MEErrorType_Ok => 3 | MEErrorType_BadRead => 4
  | MEErrorType_ParityError => 5 | MEErrorType_SingleBitError => 6 | MEErrorType_DoubleBitError => 7
  | MEErrorType_MultiBitError => 8 | MEErrorType_NibbleError => 9 | MEErrorType_ChecksumError => 10
  | MEErrorType_CrcError => 11 | MEErrorType_CorrectedSingleBitError => 12 | MEErrorType_CorrectedError => 13
  | MEErrorType_UncorrectableError => 14 | MEErrorType_Undefined v => v
  end.

Lemma MEErrorType_number_from k : MEErrorType_number (MEErrorType_from k) = k.
Proof.
  intros. unfold MEErrorType_from.
  repeat match goal with
  | |- context [k =? ?v] => destruct (N.eqb_spec k v); [subst k; reflexivity || contradiction|]
  end.
  cbn [orb]. repeat match goal with |- context [if ?b then _ else _] => destruct b eqn:? end; try reflexivity; cbn; lia.
Qed.

Lemma MEErrorGranularity_from_meaning k : MEErrorGranularity_from k = meaning MEErrorGranularity_codes MEErrorGranularity_Undefined k.
Proof.
  unfold MEErrorGranularity_from, meaning, MEErrorGranularity_codes. cbn [named]. by_code k. reflexivity.
Qed.

Definition MEErrorGranularity_number (x : MEErrorGranularity) : N :=
  match x with
  | MEErrorGranularity_Other => 1 | MEErrorGranularity_Unknown => 2 | MEErrorGranularity_DeviceLevel => 3
  | MEErrorGranularity_MemoryPartitionLevel => 4 | MEErrorGranularity_Undefined v => v
  end.

Lemma MEErrorGranularity_number_from k : MEErrorGranularity_number (MEErrorGranularity_from k) = k.
Proof.
  intros. unfold MEErrorGranularity_from.
  repeat match goal with
  | |- context [k =? ?v] => destruct (N.eqb_spec k v); [subst k; reflexivity || contradiction|]
  end.
  cbn [orb]. repeat match goal with |- context [if ?b then _ else _] => destruct b eqn:? end; try reflexivity; cbn; lia.
Qed.

Lemma MEErrorOperation_from_meaning k : MEErrorOperation_from k = meaning MEErrorOperation_codes MEErrorOperation_Undefined k.
Proof.
  unfold MEErrorOperation_from, meaning, MEErrorOperation_codes. cbn [named]. by_code k. reflexivity.
Qed.

Definition MEErrorOperation_number (x : MEErrorOperation) : N :=
  match x with
  | MEErrorOperation_Other => 1 | MEErrorOperation_Unknown => 2 | MEErrorOperation_Read => 3
  | MEErrorOperation_Write => 4 | MEErrorOperation_PartialWrite => 5 | MEErrorOperation_Undefined v => v
  end.

Lemma MEErrorOperation_number_from k : MEErrorOperation_number (MEErrorOperation_from k) = k.
Proof.
  intros. unfold MEErrorOperation_from.
  repeat match goal with
  | |- context [k =? ?v] => destruct (N.eqb_spec k v); [subst k; reflexivity || contradiction|]
  end.
  cbn [orb]. repeat match goal with |- context [if ?b then _ else _] => destruct b eqn:? end; try reflexivity; cbn; lia.
Qed.

Lemma PointingDeviceType_from_meaning k : PointingDeviceType_from k = meaning PointingDeviceType_codes PointingDeviceType_Undefined k.
Proof.
  unfold PointingDeviceType_from, meaning, PointingDeviceType_codes. cbn [named]. by_code k. reflexivity.
Qed.

Definition PointingDeviceType_number (x : PointingDeviceType) : N :=
  match x with
  | PointingDeviceType_Other => 1 | PointingDeviceType_Unknown => 2 | PointingDeviceType_Mouse => 3
  | PointingDeviceType_TrackBall => 4 | PointingDeviceType_TrackPoint => 5
  | PointingDeviceType_GlidePoint => 6 | PointingDeviceType_TouchPad => 7
  | PointingDeviceType_TouchScreen => 8 | PointingDeviceType_OpticalSensor => 9
  | PointingDeviceType_Undefined v => v
  end.

Lemma PointingDeviceType_number_from k : PointingDeviceType_number (PointingDeviceType_from k) = k.
Proof.
  intros. unfold PointingDeviceType_from.
  repeat match goal with
  | |- context [k =? ?v] => destruct (N.eqb_spec k v); [subst k; reflexivity || contradiction|]
  end.
  cbn [orb]. repeat match goal with |- context [if ?b then _ else _] => destruct b eqn:? end; try reflexivity; cbn; lia.
Qed.

Lemma PointingDeviceInterface_from_meaning k : PointingDeviceInterface_from k = meaning PointingDeviceInterface_codes PointingDeviceInterface_Undefined k.
Proof.
  unfold PointingDeviceInterface_from, meaning, PointingDeviceInterface_codes. cbn [named]. by_code k. reflexivity.
Qed.

Definition PointingDeviceInterface_number (x : PointingDeviceInterface) : N :=
  match x with
  | PointingDeviceInterface_Other => 1 | PointingDeviceInterface_Unknown => 2
  | PointingDeviceInterface_Serial => 3 | PointingDeviceInterface_Ps2 => 4
  | PointingDeviceInterface_Infrared => 5 | PointingDeviceInterface_HpHil => 6
  | PointingDeviceInterface_BusMouse => 7 | PointingDeviceInterface_Adb => 8
  | PointingDeviceInterface_BusMouseDb9 => 160 | PointingDeviceInterface_BusMouseMicroDin => 161
  | PointingDeviceInterface_Usb => 162 | PointingDeviceInterface_Undefined v => v
  end.

Lemma PointingDeviceInterface_number_from k : PointingDeviceInterface_number (PointingDeviceInterface_from k) = k.
Proof.
  intros. unfold PointingDeviceInterface_from.
  repeat match goal with
  | |- context [k =? ?v] => destruct (N.eqb_spec k v); [subst k; reflexivity || contradiction|]
  end.
  cbn [orb]. repeat match goal with |- context [if ?b then _ else _] => destruct b eqn:? end; try reflexivity; cbn; lia.
Qed.
