(* Property C77, continued: exactly which values come out of a table, for the types whose
   values carry numbers or texts. *)
From Coq Require Import ZArith Lia ZifyBool ZifyNat ZifyN.
From Verif Require Import Base G_Enums M_Raw M_Processor M_Cache M_Enclosure M_SystemEventLog M_PortableBattery S_Enums S_Values L_ValuesMore.
Local Open Scope N_scope.

(* A legacy voltage has three bits, a current one seven; other bytes are kept whole. *)
Theorem C77_Voltage : forall x, comes_out Voltage_from 256 x <->
  match x with Voltage_Legacy b => b < 8 | Voltage_Current v => v < 128 | Voltage_Undefined v => 8 <= v < 128 end.
Proof. exact voltage_values. Qed.
Print Assumptions C77_Voltage.
(* Sizes of a cache: both units, with every number of 15 (31) bits. *)
Theorem C77_CacheSize : forall x, comes_out CacheSize_from (2 ^ 16) x <->
  match x with Granularity1K v | Granularity64K v => v < 2 ^ 15 end.
Proof. exact cache_size_values. Qed.
Print Assumptions C77_CacheSize.
Theorem C77_CacheSize2 : forall x, comes_out CacheSize2_from (2 ^ 32) x <->
  match x with Granularity1K_2 v | Granularity64K_2 v => v < 2 ^ 31 end.
Proof. exact cache_size2_values. Qed.
Print Assumptions C77_CacheSize2.
(* What an enclosure contains is told by seven bits: types from 80h on cannot be told. *)
Theorem C77_ContainedElementType : forall x, comes_out ContainedElementType_from 256 x <->
  match x with CE_BoardType b => comes_out BoardType_from 128 b | CE_InfoType i => comes_out InfoType_from 128 i end.
Proof. exact element_type_values. Qed.
Print Assumptions C77_ContainedElementType.
(* An access method has the numbers that its form has room for. *)
Theorem C77_AccessMethod : forall x, (exists m a, m < 256 /\ a < 2 ^ 32 /\ AccessMethod_new m a = x) <->
  match x with
  | AM_IndexedIoOne8bitIndexOne8bitData i d => i < 256 /\ d < 256
  | AM_IndexedIoTwo8bitIndexOne8bitData i j d => i < 256 /\ j < 256 /\ d < 256
  | AM_IndexedIoOne16bitIndexOne8bitData i d => i < 2 ^ 16 /\ d < 256
  | AM_MemoryMappedPhysicaAddress a => a < 2 ^ 32
  | AM_GeneralPurposeNonVolatileData h => h < 2 ^ 16
  | AM_OemSpecific m a => 0x80 <= m < 256 /\ a < 2 ^ 32
  | AM_Available m a => 5 <= m < 0x80 /\ a < 2 ^ 32
  end.
Proof. exact access_values. Qed.
Print Assumptions C77_AccessMethod.
(* Batteries: each of these takes a stored byte or word, and where there is one the text or
   the further number of the smart battery specification. *)
Theorem C77_DeviceChemistry : forall x, (exists k s, k < 256 /\ DeviceChemistry_new k s = x) <->
  match x with Chem_Undefined v => v = 0 \/ 8 < v < 256 | _ => True end.
Proof. exact chemistry_values. Qed.
Print Assumptions C77_DeviceChemistry.
Theorem C77_DesignCapacity : forall x,
  (exists v m, v < 2 ^ 16 /\ (forall n, m = Some n -> n < 256) /\ DesignCapacity_new v m = x) <->
  match x with DC_Unknown => True | DC_Data v m => 0 < v < 2 ^ 16 /\ m < 256 end.
Proof. exact capacity_values. Qed.
Print Assumptions C77_DesignCapacity.
Theorem C77_SerialNumber : forall x, (exists t w, (forall n, w = Some n -> n < 2 ^ 16) /\ SerialNumber_new t w = x) <->
  match x with SN_SmartBatteryDataSpecification w => w < 2 ^ 16 | _ => True end.
Proof. exact serial_values. Qed.
Print Assumptions C77_SerialNumber.
(* Of the packed dates, all days up to 31 in all months up to 15 of the years 1980 to 2107
   come out: months 0, 13, 14 and 15 and day 0 are not rejected. *)
Theorem C77_ManufactureDate : forall x, (exists t w, (forall n, w = Some n -> n < 2 ^ 16) /\ ManufactureDate_new t w = x) <->
  match x with MD_SmartBatteryDataSpecification y m d => 1980 <= y <= 2107 /\ m < 16 /\ d < 32 | _ => True end.
Proof. exact date_values. Qed.
Print Assumptions C77_ManufactureDate.
(* "a packed date is a date" is false: month 15, day 0 *)
Theorem C77_dates_refuted : exists w, w < 2 ^ 16 /\ exists y, ManufactureDate_new None (Some w) = MD_SmartBatteryDataSpecification y 15 0.
Proof. exists 0x29E0. split; [reflexivity|]. exists 2000. reflexivity. Qed.
Print Assumptions C77_dates_refuted.
Example C77_more_example :
  comes_out Voltage_from 256 (Voltage_Current 12) /\ ~ comes_out Voltage_from 256 (Voltage_Current 140) /\
  comes_out CacheSize_from (2 ^ 16) (Granularity64K 3) /\ comes_out ContainedElementType_from 256 (CE_InfoType InfoType_End) /\
  ~ comes_out ContainedElementType_from 256 (CE_InfoType (InfoType_Oem 0x80)) /\
  (exists m a, m < 256 /\ a < 2 ^ 32 /\ AccessMethod_new m a = AM_GeneralPurposeNonVolatileData 0x1234) /\
  (exists t w, (forall n, w = Some n -> n < 2 ^ 16) /\ ManufactureDate_new t w = MD_SmartBatteryDataSpecification 2017 6 15).
Proof.
  split; [apply C77_Voltage; lia|]. split; [intros H; apply C77_Voltage in H; lia|].
  split; [apply C77_CacheSize; reflexivity|]. split; [apply C77_ContainedElementType; exists 127; split; reflexivity|].
  split.
  - intros H. apply C77_ContainedElementType in H. destruct H as [k [L E]]. unfold InfoType_from in E.
    repeat match type of E with context [if ?b then _ else _] => destruct b; [discriminate E|] end. injection E as ->. lia.
  - split; [apply C77_AccessMethod; reflexivity|]. apply C77_ManufactureDate. lia.
Qed.
