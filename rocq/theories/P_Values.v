(* Property C77: exactly which values of an enumeration come out of a table. *)
From Coq Require Import String.
From Coq Require Import ZArith Lia ZifyBool ZifyNat ZifyN.
From Verif Require Import Base G_Enums M_Raw M_SystemEventLog S_Enums S_Values M_Eq G_Eq L_Hardware L_Values P_Enums.
Local Open Scope N_scope.

(* For each enumeration: of the values a caller can write down, those that are decoded
   from some code are all the named ones, and Undefined with a code that has no name. *)

Theorem C77_WakeupType : forall x, comes_out WakeupType_from 256 x <->
  match x with
    | WakeupType_Undefined v => nameless WakeupType_codes 256 v | _ => True end.
Proof. values WakeupType_from C49_WakeupType_codes WakeupType_tag WakeupType_value WakeupType_codes (@nil N). Qed.
Print Assumptions C77_WakeupType.

Theorem C77_BoardType : forall x, comes_out BoardType_from 256 x <->
  match x with
    | BoardType_Undefined v => nameless BoardType_codes 256 v | _ => True end.
Proof. values BoardType_from C49_BoardType_codes BoardType_tag BoardType_value BoardType_codes (@nil N). Qed.
Print Assumptions C77_BoardType.

Theorem C77_EnclosureType : forall x, comes_out EnclosureType_from 256 x <->
  match x with
    | EnclosureType_Undefined v => nameless EnclosureType_codes 256 v | _ => True end.
Proof. values EnclosureType_from C49_EnclosureType_codes EnclosureType_tag EnclosureType_value EnclosureType_codes (@nil N). Qed.
Print Assumptions C77_EnclosureType.

Theorem C77_State : forall x, comes_out State_from 256 x <->
  match x with
    | State_Undefined v => nameless State_codes 256 v | _ => True end.
Proof. values State_from C49_State_codes State_tag State_value State_codes (@nil N). Qed.
Print Assumptions C77_State.

Theorem C77_SecurityStatus : forall x, comes_out SecurityStatus_from 256 x <->
  match x with
    | SecurityStatus_Undefined v => nameless SecurityStatus_codes 256 v | _ => True end.
Proof. values SecurityStatus_from C49_SecurityStatus_codes SecurityStatus_tag SecurityStatus_value SecurityStatus_codes (@nil N). Qed.
Print Assumptions C77_SecurityStatus.

Theorem C77_ProcessorType : forall x, comes_out ProcessorType_from 256 x <->
  match x with
    | ProcessorType_Undefined v => nameless ProcessorType_codes 256 v | _ => True end.
Proof. values ProcessorType_from C49_ProcessorType_codes ProcessorType_tag ProcessorType_value ProcessorType_codes (@nil N). Qed.
Print Assumptions C77_ProcessorType.

Theorem C77_ProcessorUpgrade : forall x, comes_out ProcessorUpgrade_from 256 x <->
  match x with
    | ProcessorUpgrade_Undefined v => nameless ProcessorUpgrade_codes 256 v | _ => True end.
Proof. values ProcessorUpgrade_from C49_ProcessorUpgrade_codes ProcessorUpgrade_tag ProcessorUpgrade_value ProcessorUpgrade_codes (@nil N). Qed.
Print Assumptions C77_ProcessorUpgrade.

Theorem C77_CacheErrorCorrectionType : forall x, comes_out CacheErrorCorrectionType_from 256 x <->
  match x with
    | CacheErrorCorrectionType_Undefined v => nameless CacheErrorCorrectionType_codes 256 v | _ => True end.
Proof. values CacheErrorCorrectionType_from C49_CacheErrorCorrectionType_codes CacheErrorCorrectionType_tag CacheErrorCorrectionType_value CacheErrorCorrectionType_codes (@nil N). Qed.
Print Assumptions C77_CacheErrorCorrectionType.

Theorem C77_SystemCacheType : forall x, comes_out SystemCacheType_from 256 x <->
  match x with
    | SystemCacheType_Undefined v => nameless SystemCacheType_codes 256 v | _ => True end.
Proof. values SystemCacheType_from C49_SystemCacheType_codes SystemCacheType_tag SystemCacheType_value SystemCacheType_codes (@nil N). Qed.
Print Assumptions C77_SystemCacheType.

Theorem C77_CacheAssociativity : forall x, comes_out CacheAssociativity_from 256 x <->
  match x with
    | CacheAssociativity_Undefined v => nameless CacheAssociativity_codes 256 v | _ => True end.
Proof. values CacheAssociativity_from C49_CacheAssociativity_codes CacheAssociativity_tag CacheAssociativity_value CacheAssociativity_codes (@nil N). Qed.
Print Assumptions C77_CacheAssociativity.

Theorem C77_ConnectorType : forall x, comes_out ConnectorType_from 256 x <->
  match x with
    | ConnectorType_Undefined v => nameless ConnectorType_codes 256 v | _ => True end.
Proof. values ConnectorType_from C49_ConnectorType_codes ConnectorType_tag ConnectorType_value ConnectorType_codes (@nil N). Qed.
Print Assumptions C77_ConnectorType.

Theorem C77_PortType : forall x, comes_out PortType_from 256 x <->
  match x with
    | PortType_Undefined v => nameless PortType_codes 256 v | _ => True end.
Proof. values PortType_from C49_PortType_codes PortType_tag PortType_value PortType_codes (@nil N). Qed.
Print Assumptions C77_PortType.

(* except the names of U.2 slots, see C49_SlotType_standard_refuted *)

Theorem C77_SlotType : forall x, comes_out SlotType_from 256 x <->
  match x with
    | SlotType_U2PciExpressGen2 | SlotType_U2PciExpressGen3 | SlotType_U2PciExpressGen4 | SlotType_U2PciExpressGen5 => False
    | SlotType_Undefined v => nameless SlotType_codes_here 256 v | _ => True end.
Proof. values SlotType_from C49_SlotType_codes SlotType_tag SlotType_value SlotType_codes_here [30; 31; 35; 36]. Qed.
Print Assumptions C77_SlotType.

Theorem C77_SlotWidth : forall x, comes_out SlotWidth_from 256 x <->
  match x with
    | SlotWidth_Undefined v => nameless SlotWidth_codes 256 v | _ => True end.
Proof. values SlotWidth_from C49_SlotWidth_codes SlotWidth_tag SlotWidth_value SlotWidth_codes (@nil N). Qed.
Print Assumptions C77_SlotWidth.

Theorem C77_CurrentUsage : forall x, comes_out CurrentUsage_from 256 x <->
  match x with
    | CurrentUsage_Undefined v => nameless CurrentUsage_codes 256 v | _ => True end.
Proof. values CurrentUsage_from C49_CurrentUsage_codes CurrentUsage_tag CurrentUsage_value CurrentUsage_codes (@nil N). Qed.
Print Assumptions C77_CurrentUsage.

Theorem C77_SlotLength : forall x, comes_out SlotLength_from 256 x <->
  match x with
    | SlotLength_Undefined v => nameless SlotLength_codes 256 v | _ => True end.
Proof. values SlotLength_from C49_SlotLength_codes SlotLength_tag SlotLength_value SlotLength_codes (@nil N). Qed.
Print Assumptions C77_SlotLength.

Theorem C77_MemoryArrayLocation : forall x, comes_out MemoryArrayLocation_from 256 x <->
  match x with
    | MemoryArrayLocation_Undefined v => nameless MemoryArrayLocation_codes_here 256 v | _ => True end.
Proof. values MemoryArrayLocation_from C49_MemoryArrayLocation_codes MemoryArrayLocation_tag MemoryArrayLocation_value MemoryArrayLocation_codes_here (@nil N). Qed.
Print Assumptions C77_MemoryArrayLocation.

Theorem C77_MemoryArrayUse : forall x, comes_out MemoryArrayUse_from 256 x <->
  match x with
    | MemoryArrayUse_Undefined v => nameless MemoryArrayUse_codes 256 v | _ => True end.
Proof. values MemoryArrayUse_from C49_MemoryArrayUse_codes MemoryArrayUse_tag MemoryArrayUse_value MemoryArrayUse_codes (@nil N). Qed.
Print Assumptions C77_MemoryArrayUse.

Theorem C77_MemoryArrayErrorCorrectionTypes : forall x, comes_out MemoryArrayErrorCorrectionTypes_from 256 x <->
  match x with
    | MemoryArrayErrorCorrectionTypes_Undefined v => nameless MemoryArrayErrorCorrectionTypes_codes 256 v | _ => True end.
Proof. values MemoryArrayErrorCorrectionTypes_from C49_MemoryArrayErrorCorrectionTypes_codes MemoryArrayErrorCorrectionTypes_tag MemoryArrayErrorCorrectionTypes_value MemoryArrayErrorCorrectionTypes_codes (@nil N). Qed.
Print Assumptions C77_MemoryArrayErrorCorrectionTypes.

Theorem C77_MDErrorGranularity : forall x, comes_out MDErrorGranularity_from 256 x <->
  match x with
    | MDErrorGranularity_Undefined v => nameless MDErrorGranularity_codes 256 v | _ => True end.
Proof. values MDErrorGranularity_from C49_MDErrorGranularity_codes MDErrorGranularity_tag MDErrorGranularity_value MDErrorGranularity_codes (@nil N). Qed.
Print Assumptions C77_MDErrorGranularity.

Theorem C77_MDErrorOperation : forall x, comes_out MDErrorOperation_from 256 x <->
  match x with
    | MDErrorOperation_Undefined v => nameless MDErrorOperation_codes 256 v | _ => True end.
Proof. values MDErrorOperation_from C49_MDErrorOperation_codes MDErrorOperation_tag MDErrorOperation_value MDErrorOperation_codes (@nil N). Qed.
Print Assumptions C77_MDErrorOperation.

Theorem C77_MDErrorType : forall x, comes_out MDErrorType_from 256 x <->
  match x with
    | MDErrorType_Undefined v => nameless MDErrorType_codes 256 v | _ => True end.
Proof. values MDErrorType_from C49_MDErrorType_codes MDErrorType_tag MDErrorType_value MDErrorType_codes (@nil N). Qed.
Print Assumptions C77_MDErrorType.

Theorem C77_FormFactor : forall x, comes_out FormFactor_from 256 x <->
  match x with
    | FormFactor_Undefined v => nameless FormFactor_codes_here 256 v | _ => True end.
Proof. values FormFactor_from C49_FormFactor_codes FormFactor_tag FormFactor_value FormFactor_codes_here (@nil N). Qed.
Print Assumptions C77_FormFactor.

Theorem C77_MemoryTechnology : forall x, comes_out MemoryTechnology_from 256 x <->
  match x with
    | MemoryTechnology_Undefined v => nameless MemoryTechnology_codes 256 v | _ => True end.
Proof. values MemoryTechnology_from C49_MemoryTechnology_codes MemoryTechnology_tag MemoryTechnology_value MemoryTechnology_codes (@nil N). Qed.
Print Assumptions C77_MemoryTechnology.

Theorem C77_MemoryType : forall x, comes_out MemoryType_from 256 x <->
  match x with
    | MemoryType_Undefined v => nameless MemoryType_codes 256 v | _ => True end.
Proof. values MemoryType_from C49_MemoryType_codes MemoryType_tag MemoryType_value MemoryType_codes (@nil N). Qed.
Print Assumptions C77_MemoryType.

Theorem C77_MEErrorType : forall x, comes_out MEErrorType_from 256 x <->
  match x with
    | MEErrorType_Undefined v => nameless MEErrorType_codes 256 v | _ => True end.
Proof. values MEErrorType_from C49_MEErrorType_codes MEErrorType_tag MEErrorType_value MEErrorType_codes (@nil N). Qed.
Print Assumptions C77_MEErrorType.

Theorem C77_MEErrorGranularity : forall x, comes_out MEErrorGranularity_from 256 x <->
  match x with
    | MEErrorGranularity_Undefined v => nameless MEErrorGranularity_codes 256 v | _ => True end.
Proof. values MEErrorGranularity_from C49_MEErrorGranularity_codes MEErrorGranularity_tag MEErrorGranularity_value MEErrorGranularity_codes (@nil N). Qed.
Print Assumptions C77_MEErrorGranularity.

Theorem C77_MEErrorOperation : forall x, comes_out MEErrorOperation_from 256 x <->
  match x with
    | MEErrorOperation_Undefined v => nameless MEErrorOperation_codes 256 v | _ => True end.
Proof. values MEErrorOperation_from C49_MEErrorOperation_codes MEErrorOperation_tag MEErrorOperation_value MEErrorOperation_codes (@nil N). Qed.
Print Assumptions C77_MEErrorOperation.

Theorem C77_PointingDeviceType : forall x, comes_out PointingDeviceType_from 256 x <->
  match x with
    | PointingDeviceType_Undefined v => nameless PointingDeviceType_codes 256 v | _ => True end.
Proof. values PointingDeviceType_from C49_PointingDeviceType_codes PointingDeviceType_tag PointingDeviceType_value PointingDeviceType_codes (@nil N). Qed.
Print Assumptions C77_PointingDeviceType.

Theorem C77_PointingDeviceInterface : forall x, comes_out PointingDeviceInterface_from 256 x <->
  match x with
    | PointingDeviceInterface_Undefined v => nameless PointingDeviceInterface_codes 256 v | _ => True end.
Proof. values PointingDeviceInterface_from C49_PointingDeviceInterface_codes PointingDeviceInterface_tag PointingDeviceInterface_value PointingDeviceInterface_codes (@nil N). Qed.
Print Assumptions C77_PointingDeviceInterface.

(* Enumerations with more than one kind of value for codes without a name. *)

(* of processor families, one name never comes out *)
Theorem C77_ProcessorFamily : forall x, comes_out ProcessorFamily_from 65536 x <->
  match x with
  | ProcessorFamily_AvailableForAssignment => False
  | ProcessorFamily_NotUsed v => v = 0xFF \/ v = 0xFFFF
  | ProcessorFamily_Available v => nameless ProcessorFamily_codes 65536 v /\ v <> 0xFF /\ v <> 0xFFFF
  | _ => True
  end.
Proof.
  assert (T : forallb (fun p => match ProcessorFamily_value (snd p) with Some _ => false | None => negb (ProcessorFamily_tag (snd p) =? ProcessorFamily_tag ProcessorFamily_AvailableForAssignment) end) ProcessorFamily_codes = true)
    by (vm_compute; reflexivity).
  rewrite forallb_forall in T.
  intros x. split.
  - intros [k [L <-]]. rewrite C49_ProcessorFamily_codes by exact L. unfold meaning.
    destruct (named ProcessorFamily_codes k) as [a|] eqn:E.
    + assert (I : In (k, a) ProcessorFamily_codes) by (apply named_in, E). specialize (T _ I). cbn [snd] in T.
      destruct a; try exact Logic.I; vm_compute in T; discriminate T.
    + unfold ProcessorFamily_other. destruct (N.eqb_spec k 0xFF) as [->|A]; [left; reflexivity|]. cbn [orb].
      destruct (N.eqb_spec k 0xFFFF) as [->|B]; [right; reflexivity|]. split; [split; [exact L|exact E]|auto].
  - destruct x;
    first [ intros []; fail
          | intros _; match goal with |- comes_out _ _ ?y =>
              let o := eval vm_compute in (find (fun k => ProcessorFamily_tag (ProcessorFamily_from k) =? ProcessorFamily_tag y) (below 768 ++ [0xFFFE; 0xFFFF])) in
              match o with Some ?k => exists k; split; [reflexivity|vm_compute; reflexivity] end end
          | idtac ].
    + intros [[L E] [A B]]. exists v. split; [exact L|]. rewrite C49_ProcessorFamily_codes by exact L. unfold meaning. rewrite E.
      unfold ProcessorFamily_other. apply N.eqb_neq in A, B. rewrite A, B. reflexivity.
    + intros [->| ->]; [exists 0xFF|exists 0xFFFF]; split; reflexivity.
Qed.
Print Assumptions C77_ProcessorFamily.

Theorem C77_EventLogType : forall x, comes_out EventLogType_from 256 x <->
  match x with
  | EventLogType_Reserved v => v = 0 \/ v = 0x0F
  | EventLogType_Unused v => 0x18 <= v < 0x80
  | EventLogType_Available v => 0x80 <= v < 0xFF
  | _ => True
  end.
Proof.
  intros x. split.
  - revert x. apply (values_out EventLogType_from _ (fun x => match x with
      | EventLogType_Reserved v => (v =? 0) || (v =? 0x0F)
      | EventLogType_Unused v => (0x18 <=? v) && (v <? 0x80)
      | EventLogType_Available v => (0x80 <=? v) && (v <? 0xFF)
      | _ => true end)); [|vm_compute; reflexivity].
    intros []; intros H; try exact I; lia.
  - destruct x;
    first [ intros _; match goal with |- comes_out _ _ ?y =>
              let o := eval vm_compute in (find (fun k => EventLogType_tag (EventLogType_from k) =? EventLogType_tag y) (below 256)) in
              match o with Some ?k => exists k; split; [reflexivity|vm_compute; reflexivity] end end
          | idtac ].
    + intros [->| ->]; [exists 0|exists 0x0F]; split; reflexivity.
    + intros H. exists v. split; [lia|]. rewrite C49_EventLogType_codes by lia. unfold meaning.
      assert (N0 : named EventLogType_codes v = None) by (apply named_above with 0x18; [vm_compute; reflexivity|lia]). rewrite N0.
      unfold EventLogType_other. destruct (N.ltb_spec v 0x18); [lia|]. destruct (N.ltb_spec v 0x80); [reflexivity|lia].
    + intros H. exists v. split; [lia|]. rewrite C49_EventLogType_codes by lia. unfold meaning.
      assert (N0 : named EventLogType_codes v = None) by (apply named_above with 0x18; [vm_compute; reflexivity|lia]). rewrite N0.
      unfold EventLogType_other. destruct (N.ltb_spec v 0x18); [lia|]. destruct (N.ltb_spec v 0x80); [lia|]. destruct (N.ltb_spec v 0xFF); [reflexivity|lia].
Qed.
Print Assumptions C77_EventLogType.

Theorem C77_LogHeaderFormat : forall x, comes_out LogHeaderFormat_from 256 x <->
  match x with
  | LogHeaderFormat_Available v => 2 <= v < 0x80
  | LogHeaderFormat_OemSpecific v => 0x80 <= v < 256
  | _ => True
  end.
Proof.
  intros x. split.
  - intros [k [L <-]]. unfold LogHeaderFormat_from. destruct (N.eqb_spec k 0); [exact I|]. destruct (N.eqb_spec k 1); [exact I|].
    destruct ((0x80 <=? k) && (k <=? 0xFF)) eqn:E; lia.
  - destruct x; intros H; [exists 0|exists 1|exists v|exists v]; (split; [lia|]); try reflexivity; unfold LogHeaderFormat_from.
    + destruct (N.eqb_spec v 0); [lia|]. destruct (N.eqb_spec v 1); [lia|]. destruct ((0x80 <=? v) && (v <=? 0xFF)) eqn:E; [lia|reflexivity].
    + destruct (N.eqb_spec v 0); [lia|]. destruct (N.eqb_spec v 1); [lia|]. destruct ((0x80 <=? v) && (v <=? 0xFF)) eqn:E; [reflexivity|lia].
Qed.
Print Assumptions C77_LogHeaderFormat.

(* Oem only ever carries a type that has no name of its own, and that is not only the
   types from 80h on which the standard leaves to vendors *)
Theorem C77_InfoType : forall x, comes_out InfoType_from 256 x <->
  match x with
  | InfoType_Oem v => v < 256 /\ ~ In v [0; 1; 2; 3; 4; 7; 8; 9; 11; 12; 13; 14; 15; 16; 17; 18; 19; 20; 21; 22; 32; 127]
  | _ => True
  end.
Proof.
  intros x. split.
  - revert x. apply (values_out InfoType_from _ (fun x => match x with
      | InfoType_Oem v => (v <? 256) && negb (existsb (N.eqb v) [0; 1; 2; 3; 4; 7; 8; 9; 11; 12; 13; 14; 15; 16; 17; 18; 19; 20; 21; 22; 32; 127])
      | _ => true end)); [|vm_compute; reflexivity].
    intros []; intros H; try exact I. apply andb_true_iff in H. destruct H as [L N]. split; [lia|]. intros IN.
    apply negb_true_iff in N. assert (E : existsb (N.eqb v) [0; 1; 2; 3; 4; 7; 8; 9; 11; 12; 13; 14; 15; 16; 17; 18; 19; 20; 21; 22; 32; 127] = true)
      by (apply existsb_exists; exists v; split; [exact IN|apply N.eqb_refl]). rewrite E in N. discriminate.
  - destruct x;
    first [ intros _; match goal with |- comes_out _ _ ?y =>
              let o := eval vm_compute in (find (fun k => InfoType_tag (InfoType_from k) =? InfoType_tag y) (below 256)) in
              match o with Some ?k => exists k; split; [reflexivity|vm_compute; reflexivity] end end
          | idtac ].
    intros [L N]. exists v. split; [exact L|].
    assert (P : (if existsb (N.eqb v) [0; 1; 2; 3; 4; 7; 8; 9; 11; 12; 13; 14; 15; 16; 17; 18; 19; 20; 21; 22; 32; 127] then true else
                match InfoType_from v with InfoType_Oem w => w =? v | _ => false end) = true).
    { apply (by_bytes (fun v => if existsb (N.eqb v) [0; 1; 2; 3; 4; 7; 8; 9; 11; 12; 13; 14; 15; 16; 17; 18; 19; 20; 21; 22; 32; 127] then true else
                match InfoType_from v with InfoType_Oem w => w =? v | _ => false end)); [vm_compute; reflexivity|exact L]. }
    destruct (existsb (N.eqb v) _) eqn:E.
    + exfalso. apply N. apply existsb_exists in E. destruct E as [w [I E]]. apply N.eqb_eq in E. subst w. exact I.
    + destruct (InfoType_from v); try discriminate P. apply N.eqb_eq in P. congruence.
Qed.
Print Assumptions C77_InfoType.

(* the values of three and two bits *)
Theorem C77_CacheLevel : forall x, exists k, k < 8 /\ CacheLevel_from k = Val x.
Proof. destruct x; [exists 0|exists 1|exists 2|exists 3|exists 4|exists 5|exists 6|exists 7]; split; reflexivity. Qed.
Print Assumptions C77_CacheLevel.
Theorem C77_CacheLocation : forall x, exists k, k < 4 /\ CacheLocation_from k = Val x.
Proof. destruct x; first [exists 0; split; reflexivity|exists 1; split; reflexivity|exists 2; split; reflexivity|exists 3; split; reflexivity]. Qed.
Print Assumptions C77_CacheLocation.
Theorem C77_CacheOperationalMode : forall x, exists k, k < 4 /\ CacheOperationalMode_from k = Val x.
Proof. destruct x; first [exists 0; split; reflexivity|exists 1; split; reflexivity|exists 2; split; reflexivity|exists 3; split; reflexivity]. Qed.
Print Assumptions C77_CacheOperationalMode.

(* codes of 32 bits *)
Theorem C77_SystemManagementType : forall x, comes_out SystemManagementType_from (2 ^ 32) x <->
  match x with
  | SMT_OutOfRangeVoltageReserved v => 0x07 <= v <= 0x0F
  | SMT_OutOfRangeTemperatureReserved v => 0x15 <= v <= 0x1F
  | SMT_OutOfRangeFan v => v < 8
  | SMT_OutOfRangeSystemManagementProbe v => v < 2 ^ 16
  | SMT_OemAssigned v => 2 ^ 31 <= v < 2 ^ 32
  | SMT_Reserved v => 0x28 <= v <= 0x2F \/ 0x31 <= v < 0x10000 \/ 0x20000 <= v < 2 ^ 31
  | _ => True
  end.
Proof. exact management_values. Qed.
Print Assumptions C77_SystemManagementType.
(* a variable data format decoded from a log header never carries data *)
Theorem C77_VariableDataFormatType : forall x, comes_out VariableDataFormatType_from 256 x <->
  match x with
  | VDF_None => True
  | VDF_Handle h => h = 0
  | VDF_MultipleEvent n => n = 0
  | VDF_MultipleEventHandle h n => h = 0 /\ n = 0
  | VDF_PostResults v => v = 0
  | VDF_SystemManagementType t => t = SMT_Reserved 0xFFFF
  | VDF_MultipleEventSystemManagementType t n => t = SMT_Reserved 0xFFFF /\ n = 0
  | VDF_Unused v => 0x07 <= v <= 0x7F
  | VDF_OemAssigned v => 0x80 <= v < 256
  end.
Proof. exact format_values. Qed.
Print Assumptions C77_VariableDataFormatType.

(* "every name can come out" is false: these five never do *)
Theorem C77_every_name_refuted : forall x k,
  (In x [SlotType_U2PciExpressGen2; SlotType_U2PciExpressGen3; SlotType_U2PciExpressGen4; SlotType_U2PciExpressGen5] ->
   k < 256 -> SlotType_from k <> x) /\
  (k < 65536 -> ProcessorFamily_from k <> ProcessorFamily_AvailableForAssignment).
Proof.
  intros x k. split.
  - intros I L E. assert (C : comes_out SlotType_from 256 x) by (exists k; auto). apply C77_SlotType in C.
    cbn [In] in I. decompose [or] I; subst x; try contradiction; match goal with H : _ = SlotType_from k |- _ => rewrite <- H in C; exact C end.
  - intros L E. assert (C : comes_out ProcessorFamily_from 65536 ProcessorFamily_AvailableForAssignment) by (exists k; auto).
    apply C77_ProcessorFamily in C. exact C.
Qed.
Print Assumptions C77_every_name_refuted.

Example C77_example :
  comes_out WakeupType_from 256 WakeupType_PCI_PME /\
  ~ comes_out WakeupType_from 256 (WakeupType_Undefined 6) /\ comes_out WakeupType_from 256 (WakeupType_Undefined 9).
Proof.
  rewrite !C77_WakeupType. split; [exact I|]. split; [intros [_ H]; vm_compute in H; discriminate H|].
  split; reflexivity.
Qed.
