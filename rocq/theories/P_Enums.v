(* Property C49: enumerated codes.  The tables are in S_Enums.  For every
   enumeration: decoding agrees with the table for every code, and no two codes
   are decoded to the same value (with the exceptions stated). *)
From Coq Require Import ZArith Lia ZifyBool ZifyNat ZifyN.
From Verif Require Import Base G_Enums M_Raw S_Enums L_Enums.
Local Open Scope N_scope.

Theorem C49_WakeupType_codes : forall k, WakeupType_from k = meaning WakeupType_codes WakeupType_Undefined k.
Proof. exact WakeupType_from_meaning. Qed.
Print Assumptions C49_WakeupType_codes.

Theorem C49_WakeupType_injective : forall a b, WakeupType_from a = WakeupType_from b -> a = b.
Proof. intros a b H. rewrite <- (WakeupType_number_from a), H. apply WakeupType_number_from. Qed.
Print Assumptions C49_WakeupType_injective.

Theorem C49_BoardType_codes : forall k, BoardType_from k = meaning BoardType_codes BoardType_Undefined k.
Proof. exact BoardType_from_meaning. Qed.
Print Assumptions C49_BoardType_codes.

Theorem C49_BoardType_injective : forall a b, BoardType_from a = BoardType_from b -> a = b.
Proof. intros a b H. rewrite <- (BoardType_number_from a), H. apply BoardType_number_from. Qed.
Print Assumptions C49_BoardType_injective.

Theorem C49_EnclosureType_codes : forall k, EnclosureType_from k = meaning EnclosureType_codes EnclosureType_Undefined k.
Proof. exact EnclosureType_from_meaning. Qed.
Print Assumptions C49_EnclosureType_codes.

Theorem C49_EnclosureType_injective : forall a b, EnclosureType_from a = EnclosureType_from b -> a = b.
Proof. intros a b H. rewrite <- (EnclosureType_number_from a), H. apply EnclosureType_number_from. Qed.
Print Assumptions C49_EnclosureType_injective.

Theorem C49_State_codes : forall k, State_from k = meaning State_codes State_Undefined k.
Proof. exact State_from_meaning. Qed.
Print Assumptions C49_State_codes.

Theorem C49_State_injective : forall a b, State_from a = State_from b -> a = b.
Proof. intros a b H. rewrite <- (State_number_from a), H. apply State_number_from. Qed.
Print Assumptions C49_State_injective.

Theorem C49_SecurityStatus_codes : forall k, SecurityStatus_from k = meaning SecurityStatus_codes SecurityStatus_Undefined k.
Proof. exact SecurityStatus_from_meaning. Qed.
Print Assumptions C49_SecurityStatus_codes.

Theorem C49_SecurityStatus_injective : forall a b, SecurityStatus_from a = SecurityStatus_from b -> a = b.
Proof. intros a b H. rewrite <- (SecurityStatus_number_from a), H. apply SecurityStatus_number_from. Qed.
Print Assumptions C49_SecurityStatus_injective.

Theorem C49_ProcessorType_codes : forall k, ProcessorType_from k = meaning ProcessorType_codes ProcessorType_Undefined k.
Proof. exact ProcessorType_from_meaning. Qed.
Print Assumptions C49_ProcessorType_codes.

Theorem C49_ProcessorType_injective : forall a b, ProcessorType_from a = ProcessorType_from b -> a = b.
Proof. intros a b H. rewrite <- (ProcessorType_number_from a), H. apply ProcessorType_number_from. Qed.
Print Assumptions C49_ProcessorType_injective.

Theorem C49_ProcessorFamily_codes : forall k, k < 65536 -> ProcessorFamily_from k = meaning ProcessorFamily_codes ProcessorFamily_other k.
Proof. exact ProcessorFamily_from_meaning. Qed.
Print Assumptions C49_ProcessorFamily_codes.

Theorem C49_ProcessorFamily_injective : forall a b, ProcessorFamily_from a = ProcessorFamily_from b -> a = b.
Proof. intros a b H. rewrite <- (ProcessorFamily_number_from a), H. apply ProcessorFamily_number_from. Qed.
Print Assumptions C49_ProcessorFamily_injective.

Theorem C49_ProcessorUpgrade_codes : forall k, ProcessorUpgrade_from k = meaning ProcessorUpgrade_codes ProcessorUpgrade_Undefined k.
Proof. exact ProcessorUpgrade_from_meaning. Qed.
Print Assumptions C49_ProcessorUpgrade_codes.

Theorem C49_ProcessorUpgrade_injective : forall a b, ProcessorUpgrade_from a = ProcessorUpgrade_from b -> a = b.
Proof. intros a b H. rewrite <- (ProcessorUpgrade_number_from a), H. apply ProcessorUpgrade_number_from. Qed.
Print Assumptions C49_ProcessorUpgrade_injective.

Theorem C49_CacheErrorCorrectionType_codes : forall k, CacheErrorCorrectionType_from k = meaning CacheErrorCorrectionType_codes CacheErrorCorrectionType_Undefined k.
Proof. exact CacheErrorCorrectionType_from_meaning. Qed.
Print Assumptions C49_CacheErrorCorrectionType_codes.

Theorem C49_CacheErrorCorrectionType_injective : forall a b, CacheErrorCorrectionType_from a = CacheErrorCorrectionType_from b -> a = b.
Proof. intros a b H. rewrite <- (CacheErrorCorrectionType_number_from a), H. apply CacheErrorCorrectionType_number_from. Qed.
Print Assumptions C49_CacheErrorCorrectionType_injective.

Theorem C49_SystemCacheType_codes : forall k, SystemCacheType_from k = meaning SystemCacheType_codes SystemCacheType_Undefined k.
Proof. exact SystemCacheType_from_meaning. Qed.
Print Assumptions C49_SystemCacheType_codes.

Theorem C49_SystemCacheType_injective : forall a b, SystemCacheType_from a = SystemCacheType_from b -> a = b.
Proof. intros a b H. rewrite <- (SystemCacheType_number_from a), H. apply SystemCacheType_number_from. Qed.
Print Assumptions C49_SystemCacheType_injective.

Theorem C49_CacheAssociativity_codes : forall k, CacheAssociativity_from k = meaning CacheAssociativity_codes CacheAssociativity_Undefined k.
Proof. exact CacheAssociativity_from_meaning. Qed.
Print Assumptions C49_CacheAssociativity_codes.

Theorem C49_CacheAssociativity_injective : forall a b, CacheAssociativity_from a = CacheAssociativity_from b -> a = b.
Proof. intros a b H. rewrite <- (CacheAssociativity_number_from a), H. apply CacheAssociativity_number_from. Qed.
Print Assumptions C49_CacheAssociativity_injective.

Theorem C49_ConnectorType_codes : forall k, ConnectorType_from k = meaning ConnectorType_codes ConnectorType_Undefined k.
Proof. exact ConnectorType_from_meaning. Qed.
Print Assumptions C49_ConnectorType_codes.

Theorem C49_ConnectorType_injective : forall a b, ConnectorType_from a = ConnectorType_from b -> a = b.
Proof. intros a b H. rewrite <- (ConnectorType_number_from a), H. apply ConnectorType_number_from. Qed.
Print Assumptions C49_ConnectorType_injective.

Theorem C49_PortType_codes : forall k, PortType_from k = meaning PortType_codes PortType_Undefined k.
Proof. exact PortType_from_meaning. Qed.
Print Assumptions C49_PortType_codes.

Theorem C49_PortType_injective : forall a b, PortType_from a = PortType_from b -> a = b.
Proof. intros a b H. rewrite <- (PortType_number_from a), H. apply PortType_number_from. Qed.
Print Assumptions C49_PortType_injective.

(* as implemented; the deviation from the standard is at the end of this file *)
Theorem C49_SlotType_codes : forall k, SlotType_from k = meaning SlotType_codes_here SlotType_Undefined k.
Proof. exact SlotType_from_meaning. Qed.
Print Assumptions C49_SlotType_codes.

Theorem C49_SlotWidth_codes : forall k, SlotWidth_from k = meaning SlotWidth_codes SlotWidth_Undefined k.
Proof. exact SlotWidth_from_meaning. Qed.
Print Assumptions C49_SlotWidth_codes.

Theorem C49_SlotWidth_injective : forall a b, SlotWidth_from a = SlotWidth_from b -> a = b.
Proof. intros a b H. rewrite <- (SlotWidth_number_from a), H. apply SlotWidth_number_from. Qed.
Print Assumptions C49_SlotWidth_injective.

Theorem C49_CurrentUsage_codes : forall k, CurrentUsage_from k = meaning CurrentUsage_codes CurrentUsage_Undefined k.
Proof. exact CurrentUsage_from_meaning. Qed.
Print Assumptions C49_CurrentUsage_codes.

Theorem C49_CurrentUsage_injective : forall a b, CurrentUsage_from a = CurrentUsage_from b -> a = b.
Proof. intros a b H. rewrite <- (CurrentUsage_number_from a), H. apply CurrentUsage_number_from. Qed.
Print Assumptions C49_CurrentUsage_injective.

Theorem C49_SlotLength_codes : forall k, SlotLength_from k = meaning SlotLength_codes SlotLength_Undefined k.
Proof. exact SlotLength_from_meaning. Qed.
Print Assumptions C49_SlotLength_codes.

Theorem C49_SlotLength_injective : forall a b, SlotLength_from a = SlotLength_from b -> a = b.
Proof. intros a b H. rewrite <- (SlotLength_number_from a), H. apply SlotLength_number_from. Qed.
Print Assumptions C49_SlotLength_injective.

Theorem C49_EventLogType_codes : forall k, k < 256 -> EventLogType_from k = meaning EventLogType_codes EventLogType_other k.
Proof. exact EventLogType_from_meaning. Qed.
Print Assumptions C49_EventLogType_codes.

Theorem C49_EventLogType_injective : forall a b, a < 256 -> b < 256 -> EventLogType_from a = EventLogType_from b -> a = b.
Proof. intros a b HA HB H. rewrite <- (EventLogType_number_from a HA), H. apply EventLogType_number_from, HB. Qed.
Print Assumptions C49_EventLogType_injective.

Theorem C49_LogHeaderFormat_codes : forall k, k < 256 -> LogHeaderFormat_from k = meaning LogHeaderFormat_codes LogHeaderFormat_other k.
Proof. exact LogHeaderFormat_from_meaning. Qed.
Print Assumptions C49_LogHeaderFormat_codes.

Theorem C49_LogHeaderFormat_injective : forall a b, LogHeaderFormat_from a = LogHeaderFormat_from b -> a = b.
Proof. intros a b H. rewrite <- (LogHeaderFormat_number_from a), H. apply LogHeaderFormat_number_from. Qed.
Print Assumptions C49_LogHeaderFormat_injective.

(* as implemented; the deviation from the standard is at the end of this file *)
Theorem C49_MemoryArrayLocation_codes : forall k, MemoryArrayLocation_from k = meaning MemoryArrayLocation_codes_here MemoryArrayLocation_Undefined k.
Proof. exact MemoryArrayLocation_from_meaning. Qed.
Print Assumptions C49_MemoryArrayLocation_codes.

Theorem C49_MemoryArrayLocation_injective : forall a b, MemoryArrayLocation_from a = MemoryArrayLocation_from b -> a = b.
Proof. intros a b H. rewrite <- (MemoryArrayLocation_number_from a), H. apply MemoryArrayLocation_number_from. Qed.
Print Assumptions C49_MemoryArrayLocation_injective.

Theorem C49_MemoryArrayUse_codes : forall k, MemoryArrayUse_from k = meaning MemoryArrayUse_codes MemoryArrayUse_Undefined k.
Proof. exact MemoryArrayUse_from_meaning. Qed.
Print Assumptions C49_MemoryArrayUse_codes.

Theorem C49_MemoryArrayUse_injective : forall a b, MemoryArrayUse_from a = MemoryArrayUse_from b -> a = b.
Proof. intros a b H. rewrite <- (MemoryArrayUse_number_from a), H. apply MemoryArrayUse_number_from. Qed.
Print Assumptions C49_MemoryArrayUse_injective.

Theorem C49_MemoryArrayErrorCorrectionTypes_codes : forall k, MemoryArrayErrorCorrectionTypes_from k = meaning MemoryArrayErrorCorrectionTypes_codes MemoryArrayErrorCorrectionTypes_Undefined k.
Proof. exact MemoryArrayErrorCorrectionTypes_from_meaning. Qed.
Print Assumptions C49_MemoryArrayErrorCorrectionTypes_codes.

Theorem C49_MemoryArrayErrorCorrectionTypes_injective : forall a b, MemoryArrayErrorCorrectionTypes_from a = MemoryArrayErrorCorrectionTypes_from b -> a = b.
Proof. intros a b H. rewrite <- (MemoryArrayErrorCorrectionTypes_number_from a), H. apply MemoryArrayErrorCorrectionTypes_number_from. Qed.
Print Assumptions C49_MemoryArrayErrorCorrectionTypes_injective.

Theorem C49_MDErrorGranularity_codes : forall k, MDErrorGranularity_from k = meaning MDErrorGranularity_codes MDErrorGranularity_Undefined k.
Proof. exact MDErrorGranularity_from_meaning. Qed.
Print Assumptions C49_MDErrorGranularity_codes.

Theorem C49_MDErrorGranularity_injective : forall a b, MDErrorGranularity_from a = MDErrorGranularity_from b -> a = b.
Proof. intros a b H. rewrite <- (MDErrorGranularity_number_from a), H. apply MDErrorGranularity_number_from. Qed.
Print Assumptions C49_MDErrorGranularity_injective.

Theorem C49_MDErrorOperation_codes : forall k, MDErrorOperation_from k = meaning MDErrorOperation_codes MDErrorOperation_Undefined k.
Proof. exact MDErrorOperation_from_meaning. Qed.
Print Assumptions C49_MDErrorOperation_codes.

Theorem C49_MDErrorOperation_injective : forall a b, MDErrorOperation_from a = MDErrorOperation_from b -> a = b.
Proof. intros a b H. rewrite <- (MDErrorOperation_number_from a), H. apply MDErrorOperation_number_from. Qed.
Print Assumptions C49_MDErrorOperation_injective.

Theorem C49_MDErrorType_codes : forall k, MDErrorType_from k = meaning MDErrorType_codes MDErrorType_Undefined k.
Proof. exact MDErrorType_from_meaning. Qed.
Print Assumptions C49_MDErrorType_codes.

Theorem C49_MDErrorType_injective : forall a b, MDErrorType_from a = MDErrorType_from b -> a = b.
Proof. intros a b H. rewrite <- (MDErrorType_number_from a), H. apply MDErrorType_number_from. Qed.
Print Assumptions C49_MDErrorType_injective.

(* as implemented; the deviation from the standard is at the end of this file *)
Theorem C49_FormFactor_codes : forall k, FormFactor_from k = meaning FormFactor_codes_here FormFactor_Undefined k.
Proof. exact FormFactor_from_meaning. Qed.
Print Assumptions C49_FormFactor_codes.

Theorem C49_MemoryTechnology_codes : forall k, MemoryTechnology_from k = meaning MemoryTechnology_codes MemoryTechnology_Undefined k.
Proof. exact MemoryTechnology_from_meaning. Qed.
Print Assumptions C49_MemoryTechnology_codes.

Theorem C49_MemoryTechnology_injective : forall a b, MemoryTechnology_from a = MemoryTechnology_from b -> a = b.
Proof. intros a b H. rewrite <- (MemoryTechnology_number_from a), H. apply MemoryTechnology_number_from. Qed.
Print Assumptions C49_MemoryTechnology_injective.

Theorem C49_MemoryType_codes : forall k, MemoryType_from k = meaning MemoryType_codes MemoryType_Undefined k.
Proof. exact MemoryType_from_meaning. Qed.
Print Assumptions C49_MemoryType_codes.

Theorem C49_MEErrorType_codes : forall k, MEErrorType_from k = meaning MEErrorType_codes MEErrorType_Undefined k.
Proof. exact MEErrorType_from_meaning. Qed.
Print Assumptions C49_MEErrorType_codes.

Theorem C49_MEErrorType_injective : forall a b, MEErrorType_from a = MEErrorType_from b -> a = b.
Proof. intros a b H. rewrite <- (MEErrorType_number_from a), H. apply MEErrorType_number_from. Qed.
Print Assumptions C49_MEErrorType_injective.

Theorem C49_MEErrorGranularity_codes : forall k, MEErrorGranularity_from k = meaning MEErrorGranularity_codes MEErrorGranularity_Undefined k.
Proof. exact MEErrorGranularity_from_meaning. Qed.
Print Assumptions C49_MEErrorGranularity_codes.

Theorem C49_MEErrorGranularity_injective : forall a b, MEErrorGranularity_from a = MEErrorGranularity_from b -> a = b.
Proof. intros a b H. rewrite <- (MEErrorGranularity_number_from a), H. apply MEErrorGranularity_number_from. Qed.
Print Assumptions C49_MEErrorGranularity_injective.

Theorem C49_MEErrorOperation_codes : forall k, MEErrorOperation_from k = meaning MEErrorOperation_codes MEErrorOperation_Undefined k.
Proof. exact MEErrorOperation_from_meaning. Qed.
Print Assumptions C49_MEErrorOperation_codes.

Theorem C49_MEErrorOperation_injective : forall a b, MEErrorOperation_from a = MEErrorOperation_from b -> a = b.
Proof. intros a b H. rewrite <- (MEErrorOperation_number_from a), H. apply MEErrorOperation_number_from. Qed.
Print Assumptions C49_MEErrorOperation_injective.

Theorem C49_PointingDeviceType_codes : forall k, PointingDeviceType_from k = meaning PointingDeviceType_codes PointingDeviceType_Undefined k.
Proof. exact PointingDeviceType_from_meaning. Qed.
Print Assumptions C49_PointingDeviceType_codes.

Theorem C49_PointingDeviceType_injective : forall a b, PointingDeviceType_from a = PointingDeviceType_from b -> a = b.
Proof. intros a b H. rewrite <- (PointingDeviceType_number_from a), H. apply PointingDeviceType_number_from. Qed.
Print Assumptions C49_PointingDeviceType_injective.

Theorem C49_PointingDeviceInterface_codes : forall k, PointingDeviceInterface_from k = meaning PointingDeviceInterface_codes PointingDeviceInterface_Undefined k.
Proof. exact PointingDeviceInterface_from_meaning. Qed.
Print Assumptions C49_PointingDeviceInterface_codes.

Theorem C49_PointingDeviceInterface_injective : forall a b, PointingDeviceInterface_from a = PointingDeviceInterface_from b -> a = b.
Proof. intros a b H. rewrite <- (PointingDeviceInterface_number_from a), H. apply PointingDeviceInterface_number_from. Qed.
Print Assumptions C49_PointingDeviceInterface_injective.

(* the conversion is only ever applied to a field of 3 bits; there it returns *)
Theorem C49_CacheLevel_codes : forall k, k < 8 -> exists x, CacheLevel_from k = Val x /\ named CacheLevel_codes k = Some x.
Proof.
  intros k Hk. rewrite CacheLevel_from_named. unfold CacheLevel_codes. cbn [named].
  repeat match goal with |- context [k =? ?v] => destruct (N.eqb_spec k v); [eexists; split; reflexivity|] end. lia.
Qed.
Print Assumptions C49_CacheLevel_codes.

Theorem C49_CacheLevel_injective : forall a b x, CacheLevel_from a = Val x -> CacheLevel_from b = Val x -> a = b.
Proof. intros a b x HA HB. rewrite <- (CacheLevel_number_from a x HA). apply CacheLevel_number_from, HB. Qed.
Print Assumptions C49_CacheLevel_injective.

(* the conversion is only ever applied to a field of 2 bits; there it returns *)
Theorem C49_CacheLocation_codes : forall k, k < 4 -> exists x, CacheLocation_from k = Val x /\ named CacheLocation_codes k = Some x.
Proof.
  intros k Hk. rewrite CacheLocation_from_named. unfold CacheLocation_codes. cbn [named].
  repeat match goal with |- context [k =? ?v] => destruct (N.eqb_spec k v); [eexists; split; reflexivity|] end. lia.
Qed.
Print Assumptions C49_CacheLocation_codes.

Theorem C49_CacheLocation_injective : forall a b x, CacheLocation_from a = Val x -> CacheLocation_from b = Val x -> a = b.
Proof. intros a b x HA HB. rewrite <- (CacheLocation_number_from a x HA). apply CacheLocation_number_from, HB. Qed.
Print Assumptions C49_CacheLocation_injective.

(* the conversion is only ever applied to a field of 2 bits; there it returns *)
Theorem C49_CacheOperationalMode_codes : forall k, k < 4 -> exists x, CacheOperationalMode_from k = Val x /\ named CacheOperationalMode_codes k = Some x.
Proof.
  intros k Hk. rewrite CacheOperationalMode_from_named. unfold CacheOperationalMode_codes. cbn [named].
  repeat match goal with |- context [k =? ?v] => destruct (N.eqb_spec k v); [eexists; split; reflexivity|] end. lia.
Qed.
Print Assumptions C49_CacheOperationalMode_codes.

Theorem C49_CacheOperationalMode_injective : forall a b x, CacheOperationalMode_from a = Val x -> CacheOperationalMode_from b = Val x -> a = b.
Proof. intros a b x HA HB. rewrite <- (CacheOperationalMode_number_from a x HA). apply CacheOperationalMode_number_from, HB. Qed.
Print Assumptions C49_CacheOperationalMode_injective.

(* The exceptions.  Two codes are decoded to the same slot type exactly for the
   pairs 1Fh/ABh, 20h/B1h, 24h/B8h and 25h/BEh: U.2 (SFF-8639) slots are decoded as
   plain PCI Express slots. *)
Definition slot_twin (k : N) : N :=
  if k =? 0xAB then 0x1F else if k =? 0xB1 then 0x20 else if k =? 0xB8 then 0x24 else if k =? 0xBE then 0x25 else k.
Theorem C49_SlotType_collisions : forall a b,
  SlotType_from a = SlotType_from b <-> slot_twin a = slot_twin b.
Proof.
  assert (T : forall k, SlotType_from (slot_twin k) = SlotType_from k).
  { intros k. unfold slot_twin.
    repeat match goal with |- context [k =? ?v] => destruct (N.eqb_spec k v); [subst k; reflexivity|] end. reflexivity. }
  assert (F : forall k, slot_twin k <> 0xAB /\ slot_twin k <> 0xB1 /\ slot_twin k <> 0xB8 /\ slot_twin k <> 0xBE).
  { intros k. unfold slot_twin.
    repeat match goal with |- context [k =? ?v] => destruct (N.eqb_spec k v); [repeat split; discriminate|] end. auto. }
  intros a b. rewrite <- (T a), <- (T b). split; [|congruence].
  destruct (F a) as [A1 [A2 [A3 A4]]], (F b) as [B1 [B2 [B3 B4]]].
  intros H. rewrite <- (SlotType_number_from (slot_twin a)), H by assumption. apply SlotType_number_from; assumption.
Qed.
Print Assumptions C49_SlotType_collisions.

(* "Every slot type is decoded to the name the standard gives it" is false for these
   four codes, and for no other. *)
Theorem C49_SlotType_standard_iff : forall k,
  SlotType_from k = meaning SlotType_codes SlotType_Undefined k <-> ~ In k [0x1F; 0x20; 0x24; 0x25].
Proof.
  intros k. rewrite SlotType_from_meaning. split.
  - intros H [<-|[<-|[<-|[<-|[]]]]]; vm_compute in H; discriminate H.
  - intros H. unfold meaning, SlotType_codes_here, SlotType_codes. cbn [named].
    repeat match goal with |- context [k =? ?v] =>
      destruct (N.eqb_spec k v) as [->|]; [first [reflexivity | exfalso; apply H; cbn [In]; tauto]|] end.
    reflexivity.
Qed.
Print Assumptions C49_SlotType_standard_iff.
(* The enumeration has the right names, but no code is ever decoded to them. *)
Theorem C49_SlotType_standard_refuted :
  (SlotType_from 0x20 = SlotType_PciExpressGen3 /\ meaning SlotType_codes SlotType_Undefined 0x20 = SlotType_U2PciExpressGen3) /\
  forall k x, In x [SlotType_U2PciExpressGen2; SlotType_U2PciExpressGen3; SlotType_U2PciExpressGen4; SlotType_U2PciExpressGen5] ->
  SlotType_from k <> x.
Proof.
  split; [split; reflexivity|]. intros k x I E. unfold SlotType_from in E.
  repeat match type of E with (if ?c then _ else _) = _ => destruct c; [subst x; cbn [In] in I; intuition discriminate|] end.
  subst x. cbn [In] in I. intuition discriminate.
Qed.
Print Assumptions C49_SlotType_standard_refuted.

(* 08h and 09h are both decoded to Dimm *)
Theorem C49_FormFactor_collisions : forall a b,
  FormFactor_from a = FormFactor_from b <-> a = b \/ (8 <= a <= 9 /\ 8 <= b <= 9).
Proof.
  intros a b. split.
  - destruct (N.eq_dec a 9) as [->|NA], (N.eq_dec b 9) as [->|NB]; auto.
    + change (FormFactor_from 9) with (FormFactor_from 8). intros H.
      right. rewrite <- (FormFactor_number_from b NB), <- H. cbn. lia.
    + change (FormFactor_from 9) with (FormFactor_from 8). intros H.
      right. rewrite <- (FormFactor_number_from a NA), H. cbn. lia.
    + intros H. left. rewrite <- (FormFactor_number_from a NA), H. apply FormFactor_number_from, NB.
  - intros [->|[H1 H2]]; [reflexivity|].
    assert (a = 8 \/ a = 9) as [-> | ->] by lia; assert (b = 8 \/ b = 9) as [-> | ->] by lia; reflexivity.
Qed.
Print Assumptions C49_FormFactor_collisions.

(* The standard's table and the crate's agree exactly above 08h: "every form factor
   is decoded to the name the standard gives it" is false for 00h to 08h. *)
Theorem C49_FormFactor_standard_iff : forall k,
  FormFactor_from k = meaning FormFactor_codes FormFactor_Undefined k <-> 8 < k.
Proof.
  intros k. unfold FormFactor_from, meaning, FormFactor_codes. cbn [named].
  repeat match goal with |- context [k =? ?v] => destruct (N.eqb_spec k v); [subst k; vm_compute; split; (discriminate || reflexivity)|] end.
  split; [|reflexivity]. lia.
Qed.
Print Assumptions C49_FormFactor_standard_iff.
Theorem C49_FormFactor_standard_refuted :
  FormFactor_from 0x08 = FormFactor_Dimm /\ meaning FormFactor_codes FormFactor_Undefined 0x08 = FormFactor_ProprietaryCard.
Proof. split; reflexivity. Qed.
Print Assumptions C49_FormFactor_standard_refuted.

(* 15h, 16h and 17h are all decoded to Reserved *)
Theorem C49_MemoryType_collisions : forall a b,
  MemoryType_from a = MemoryType_from b <-> a = b \/ (0x15 <= a <= 0x17 /\ 0x15 <= b <= 0x17).
Proof.
  assert (T : forall k, 0x15 <= k <= 0x17 -> MemoryType_from k = MemoryType_Reserved).
  { intros k H. assert (k = 0x15 \/ k = 0x16 \/ k = 0x17) as [-> | [-> | ->]] by lia; reflexivity. }
  assert (U : forall k, ~ 0x15 <= k <= 0x17 -> MemoryType_number (MemoryType_from k) = k).
  { intros k H. apply MemoryType_number_from; lia. }
  intros a b.
  destruct (N.le_gt_cases 0x15 a), (N.le_gt_cases a 0x17), (N.le_gt_cases 0x15 b), (N.le_gt_cases b 0x17);
    split; intros E; try lia;
    try (destruct E as [->|]; [reflexivity|lia]);
    try (rewrite !T by lia; reflexivity);
    try (rewrite (T a) in E by lia; pose proof (f_equal MemoryType_number E) as E2; rewrite U in E2 by lia; cbn in E2; lia);
    try (rewrite (T b) in E by lia; pose proof (f_equal MemoryType_number E) as E2; rewrite U in E2 by lia; cbn in E2; lia);
    try (left; pose proof (f_equal MemoryType_number E) as E2; rewrite !U in E2 by lia; exact E2).
Qed.
Print Assumptions C49_MemoryType_collisions.

(* The standard gives the PC-98 and CXL locations the codes A0h to A4h; the crate
   looks for them at 0Bh to 0Fh. *)
Theorem C49_MemoryArrayLocation_standard_iff : forall k,
  MemoryArrayLocation_from k = meaning MemoryArrayLocation_codes MemoryArrayLocation_Undefined k <->
  ~ (0x0B <= k <= 0x0F \/ 0xA0 <= k <= 0xA4).
Proof.
  intros k. unfold MemoryArrayLocation_from, meaning, MemoryArrayLocation_codes. cbn [named].
  repeat match goal with |- context [k =? ?v] =>
    destruct (N.eqb_spec k v); [subst k; split; intros H; (discriminate H || reflexivity || (exfalso; apply H; lia) || lia)|] end.
  split; [|reflexivity]. lia.
Qed.
Print Assumptions C49_MemoryArrayLocation_standard_iff.
Theorem C49_MemoryArrayLocation_standard_refuted :
  MemoryArrayLocation_from 0xA4 = MemoryArrayLocation_Undefined 0xA4 /\
  meaning MemoryArrayLocation_codes MemoryArrayLocation_Undefined 0xA4 = MemoryArrayLocation_CxlAddOnCard.
Proof. split; reflexivity. Qed.
Print Assumptions C49_MemoryArrayLocation_standard_refuted.

Example C49_example :
  WakeupType_from 6 = WakeupType_Power_Switch /\ WakeupType_from 9 = WakeupType_Undefined 9 /\
  ProcessorFamily_from 0xC6 = ProcessorFamily_IntelCoreI7Processor /\ ProcessorFamily_from 0x101 = ProcessorFamily_ARMv8 /\
  MemoryType_from 0x1A = MemoryType_Ddr4 /\ ConnectorType_from 0xFF = ConnectorType_Other /\
  CacheLevel_from 2 = Val CacheLevel_L3.
Proof. repeat split. Qed.
