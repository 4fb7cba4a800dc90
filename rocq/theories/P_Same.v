(* Property C72: `==` and hashing of whole structures go by what was decoded.
   Vocabulary: S_Hash.v (equivalence, hash_agrees), S_Iter.v (here, sane, bare, forget),
   S_Same.v (same_value, lists_ok, bytes_of).  The hash of a value is the list of calls that
   it makes to the hasher. *)
From Coq Require Import String.
From Coq Require Import ZArith Lia ZifyBool ZifyNat ZifyN.
From Verif Require Import Base G_Enums M_Raw M_Entry M_Bios M_System M_Enclosure M_SystemSlots M_Strings M_GroupAssociations
  M_SystemEventLog M_Iter M_Hash M_Eq G_Eq T_Data Spec S_Iter S_Hash S_Same L_Base L_Hash L_Iter L_After L_Eq L_GEq L_Same
  S_Local P_System P_EventLog P_Local.
Local Open Scope N_scope.

(* Two structures are equal exactly when all their fields are, whatever the hidden
   counters and slices behind the lists look like. *)
Theorem C72_equal_exactly : forall x y, lists_ok x -> lists_ok y -> (Structure_eq x y = true <-> same_value x y).
Proof. exact structure_eq_value. Qed.
Print Assumptions C72_equal_exactly.
(* The lists of a structure that an iterator yields are of the kind this needs. *)
Theorem C72_decoded_lists_ok : forall c s x s', sane s -> next c s = Val (Some (Ok x), s') -> lists_ok x.
Proof. exact next_lists_ok. Qed.
Print Assumptions C72_decoded_lists_ok.

(* == is an equivalence relation, equal structures hash alike, and different structures
   feed different calls to the hasher. *)
Theorem C72_equivalence : equivalence Structure_eq.
Proof. exact (equivalence_by_hash _ _ structure_eq_hash). Qed.
Print Assumptions C72_equivalence.
Theorem C72_hash_agrees : forall x y, Structure_eq x y = true <-> Structure_hash x = Structure_hash y.
Proof. exact structure_eq_hash. Qed.
Print Assumptions C72_hash_agrees.

(* All other values that the interface hands out are equal exactly when they are the
   same, and hash alike exactly then. *)
Theorem C72_plain_values :
  (forall a b, (EntryPoint_eq a b = true <-> a = b) /\ (EntryPoint_hash a = EntryPoint_hash b <-> a = b)) /\
  (forall a b, (Structures_eq a b = true <-> a = b) /\ (Structures_hash a = Structures_hash b <-> a = b)) /\
  (forall a b, (SmbiosVersion_eq a b = true <-> a = b) /\ (SmbiosVersion_hash a = SmbiosVersion_hash b <-> a = b)) /\
  (forall a b, (InfoType_eq a b = true <-> a = b) /\ (InfoType_hash a = InfoType_hash b <-> a = b)) /\
  (forall a b, (StructureStrings_eq a b = true <-> a = b) /\ (StructureStrings_hash a = StructureStrings_hash b <-> a = b)) /\
  (forall a b, (ContainedElement_eq a b = true <-> a = b) /\ (ContainedElement_hash a = ContainedElement_hash b <-> a = b)) /\
  (forall a b, (Device_eq a b = true <-> a = b) /\ (Device_hash a = Device_hash b <-> a = b)) /\
  (forall a b, (GroupItem_eq a b = true <-> a = b) /\ (GroupItem_hash a = GroupItem_hash b <-> a = b)) /\
  (forall a b, (EventLogTypeDescriptor_eq a b = true <-> a = b) /\
               (EventLogTypeDescriptor_hash a = EventLogTypeDescriptor_hash b <-> a = b)).
Proof.
  exact (conj (plain _ EntryPoint_codec) (conj (plain _ Structures_codec) (conj (plain _ SmbiosVersion_codec)
    (conj (plain _ InfoType_codec) (conj (plain _ StructureStrings_codec) (conj (plain _ ContainedElement_codec)
    (conj (plain _ Device_codec) (conj (plain _ GroupItem_codec) (plain _ EventLogTypeDescriptor_codec))))))))).
Qed.
Print Assumptions C72_plain_values.
(* So is every enumeration and every record that can be met in them. *)
Definition goes_by_value {A} (parts : A -> list part) : Prop := forall a b,
  (derived_eq (parts a) (parts b) = true <-> a = b) /\ (derived_hash (parts a) = derived_hash (parts b) <-> a = b).
Theorem C72_every_type :
  goes_by_value WakeupType_parts /\ goes_by_value BoardType_parts /\ goes_by_value EnclosureType_parts /\
  goes_by_value State_parts /\ goes_by_value SecurityStatus_parts /\ goes_by_value ProcessorType_parts /\
  goes_by_value ProcessorFamily_parts /\ goes_by_value ProcessorUpgrade_parts /\ goes_by_value CacheLevel_parts /\
  goes_by_value CacheLocation_parts /\ goes_by_value CacheOperationalMode_parts /\
  goes_by_value CacheErrorCorrectionType_parts /\ goes_by_value SystemCacheType_parts /\
  goes_by_value CacheAssociativity_parts /\ goes_by_value ConnectorType_parts /\ goes_by_value PortType_parts /\
  goes_by_value SlotType_parts /\ goes_by_value SlotWidth_parts /\ goes_by_value CurrentUsage_parts /\
  goes_by_value SlotLength_parts /\ goes_by_value EventLogType_parts /\ goes_by_value LogHeaderFormat_parts /\
  goes_by_value MemoryArrayLocation_parts /\ goes_by_value MemoryArrayUse_parts /\
  goes_by_value MemoryArrayErrorCorrectionTypes_parts /\ goes_by_value MDErrorGranularity_parts /\
  goes_by_value MDErrorOperation_parts /\ goes_by_value MDErrorType_parts /\ goes_by_value FormFactor_parts /\
  goes_by_value MemoryTechnology_parts /\ goes_by_value MemoryType_parts /\ goes_by_value MEErrorType_parts /\
  goes_by_value MEErrorGranularity_parts /\ goes_by_value MEErrorOperation_parts /\
  goes_by_value PointingDeviceType_parts /\ goes_by_value PointingDeviceInterface_parts /\
  goes_by_value Revision_parts /\ goes_by_value RomSize_parts /\ goes_by_value Bios_parts /\
  goes_by_value System_parts /\ goes_by_value BaseBoard_parts /\ goes_by_value ContainedElementType_parts /\
  goes_by_value Voltage_parts /\ goes_by_value Processor_parts /\ goes_by_value CacheConfiguration_parts /\
  goes_by_value CacheSize_parts /\ goes_by_value CacheSize2_parts /\ goes_by_value Cache_parts /\
  goes_by_value PortConnector_parts /\ goes_by_value DeviceAndFunctionNumber_parts /\
  goes_by_value OemStrings_parts /\ goes_by_value SystemConfigurationOptions_parts /\
  goes_by_value GroupItems_parts /\ goes_by_value GroupAssociations_parts /\
  goes_by_value SystemManagementType_parts /\ goes_by_value VariableDataFormatType_parts /\
  goes_by_value AccessMethod_parts /\ goes_by_value PhysicalMemoryArray_parts /\
  goes_by_value MemoryDevice_parts /\ goes_by_value MemoryError32_parts /\
  goes_by_value MemoryArrayMappedAddress_parts /\ goes_by_value MemoryDeviceMappedAddress_parts /\
  goes_by_value BuiltInPointingDevice_parts /\ goes_by_value ManufactureDate_parts /\
  goes_by_value SerialNumber_parts /\ goes_by_value DesignCapacity_parts /\ goes_by_value DeviceChemistry_parts /\
  goes_by_value PortableBattery_parts /\ goes_by_value EntryPointV2_parts /\ goes_by_value EntryPointV3_parts.
Proof. exact (
  (conj (plain _ WakeupType_codec) (conj (plain _ BoardType_codec) (conj (plain _ EnclosureType_codec)
  (conj (plain _ State_codec) (conj (plain _ SecurityStatus_codec) (conj (plain _ ProcessorType_codec)
  (conj (plain _ ProcessorFamily_codec) (conj (plain _ ProcessorUpgrade_codec) (conj (plain _ CacheLevel_codec)
  (conj (plain _ CacheLocation_codec) (conj (plain _ CacheOperationalMode_codec)
  (conj (plain _ CacheErrorCorrectionType_codec) (conj (plain _ SystemCacheType_codec)
  (conj (plain _ CacheAssociativity_codec) (conj (plain _ ConnectorType_codec) (conj (plain _ PortType_codec)
  (conj (plain _ SlotType_codec) (conj (plain _ SlotWidth_codec) (conj (plain _ CurrentUsage_codec)
  (conj (plain _ SlotLength_codec) (conj (plain _ EventLogType_codec) (conj (plain _ LogHeaderFormat_codec)
  (conj (plain _ MemoryArrayLocation_codec) (conj (plain _ MemoryArrayUse_codec)
  (conj (plain _ MemoryArrayErrorCorrectionTypes_codec) (conj (plain _ MDErrorGranularity_codec)
  (conj (plain _ MDErrorOperation_codec) (conj (plain _ MDErrorType_codec) (conj (plain _ FormFactor_codec)
  (conj (plain _ MemoryTechnology_codec) (conj (plain _ MemoryType_codec) (conj (plain _ MEErrorType_codec)
  (conj (plain _ MEErrorGranularity_codec) (conj (plain _ MEErrorOperation_codec)
  (conj (plain _ PointingDeviceType_codec) (conj (plain _ PointingDeviceInterface_codec)
  (conj (plain _ Revision_codec) (conj (plain _ RomSize_codec) (conj (plain _ Bios_codec)
  (conj (plain _ System_codec) (conj (plain _ BaseBoard_codec) (conj (plain _ ContainedElementType_codec)
  (conj (plain _ Voltage_codec) (conj (plain _ Processor_codec) (conj (plain _ CacheConfiguration_codec)
  (conj (plain _ CacheSize_codec) (conj (plain _ CacheSize2_codec) (conj (plain _ Cache_codec)
  (conj (plain _ PortConnector_codec) (conj (plain _ DeviceAndFunctionNumber_codec)
  (conj (plain _ OemStrings_codec) (conj (plain _ SystemConfigurationOptions_codec)
  (conj (plain _ GroupItems_codec) (conj (plain _ GroupAssociations_codec)
  (conj (plain _ SystemManagementType_codec) (conj (plain _ VariableDataFormatType_codec)
  (conj (plain _ AccessMethod_codec) (conj (plain _ PhysicalMemoryArray_codec) (conj (plain _ MemoryDevice_codec)
  (conj (plain _ MemoryError32_codec) (conj (plain _ MemoryArrayMappedAddress_codec)
  (conj (plain _ MemoryDeviceMappedAddress_codec) (conj (plain _ BuiltInPointingDevice_codec)
  (conj (plain _ ManufactureDate_codec) (conj (plain _ SerialNumber_codec) (conj (plain _ DesignCapacity_codec)
  (conj (plain _ DeviceChemistry_codec) (conj (plain _ PortableBattery_codec) (conj (plain _ EntryPointV2_codec)
  (plain _ EntryPointV3_codec))))))))))))))))))))))))))))))))))))))))))))))))))))))))))))))))))))))).
Qed.
Print Assumptions C72_every_type.
(* Undecoded structures go by their version, header, data and strings. *)
Theorem C72_undecoded : forall a b,
  (RawStructure_eq a b = true <-> bare a = bare b) /\ (RawStructure_hash a = RawStructure_hash b <-> bare a = bare b).
Proof. exact raw_eq. Qed.
Print Assumptions C72_undecoded.

(* The same bytes in two tables of the same version, wherever they lie there: they decode
   to equal structures. *)
Theorem C72_copies_equal : forall c s1 s2 r1 r2 x1 s1', flat_memory c = false -> sane s1 -> sane s2 ->
  smbios_version s1 = smbios_version s2 -> here s1 r1 -> here s2 r2 -> bytes_of s1 r1 = bytes_of s2 r2 ->
  next c s1 = Val (Some (Ok x1), s1') ->
  exists x2 s2', next c s2 = Val (Some (Ok x2), s2') /\ Structure_eq x1 x2 = true /\ Structure_hash x1 = Structure_hash x2.
Proof. exact copies_equal. Qed.
Print Assumptions C72_copies_equal.
(* False where reads past a structure are tolerated: the neighbours differ. *)
Theorem C72_copies_flat_refuted : exists s1 s2 r1 r2 x1 s1' x2 s2', sane s1 /\ sane s2 /\
  smbios_version s1 = smbios_version s2 /\ here s1 r1 /\ here s2 r2 /\ bytes_of s1 r1 = bytes_of s2 r2 /\
  next ex_flat s1 = Val (Some (Ok x1), s1') /\ next ex_flat s2 = Val (Some (Ok x2), s2') /\ Structure_eq x1 x2 = false.
Proof.
  set (v := {| major := 2; minor := 7 |}).
  exists (start v 24 (ex_neighbours 77)), (start v 24 (ex_neighbours 78)).
  set (r x := {| version := v; info := InfoType_BiosLanguage; length_ := 6; handle := 0; data := [1; 0]; strings := [0; 0];
               after := drop 6 (ex_neighbours x) |}).
  exists (r 77), (r 78). do 4 eexists.
  assert (H : forall x, here (start v 24 (ex_neighbours x)) (r x)).
  { intros x. split; [|split; cbn; lia]. exists [], (drop 8 (ex_neighbours x)), 13, 0, 0. split; [reflexivity|].
    split; [reflexivity|]. split; [reflexivity|]. split; [exact (encode_strings_area [] (Forall_nil _))|]. repeat split. }
  split; [split; [apply all_bytes_dec; vm_compute; reflexivity|split; vm_compute; discriminate]|].
  split; [split; [apply all_bytes_dec; vm_compute; reflexivity|split; vm_compute; discriminate]|].
  split; [reflexivity|]. split; [apply H|]. split; [apply H|].
  repeat (split; [vm_compute; reflexivity|]). vm_compute. reflexivity.
Qed.
Print Assumptions C72_copies_flat_refuted.

(* event logs: one descriptor, another descriptor, and no descriptors of announced sizes two
   and three *)
Example C72_example : exists x y z t,
  dispatch ex_strict (ex_struct 2 7 InfoType_SystemEventLog (ex_log_data 1 2 [0x17; 5]) []) = Val (Ok x) /\
  dispatch ex_strict (ex_struct 2 7 InfoType_SystemEventLog (ex_log_data 1 2 [0x17; 6]) []) = Val (Ok y) /\
  dispatch ex_strict (ex_struct 2 7 InfoType_SystemEventLog (ex_log_data 0 2 []) []) = Val (Ok z) /\
  dispatch ex_strict (ex_struct 2 7 InfoType_SystemEventLog (ex_log_data 0 3 []) []) = Val (Ok t) /\
  lists_ok x /\ lists_ok y /\ lists_ok z /\ lists_ok t /\
  Structure_eq x y = false /\ Structure_eq x z = false /\ Structure_eq z t = true /\ z <> t.
Proof.
  do 4 eexists. do 4 (split; [vm_compute; reflexivity|]).
  do 4 (split; [intros d H; injection H as <-; reflexivity|]). do 3 (split; [vm_compute; reflexivity|]). discriminate.
Qed.
(* the second and the first structure of two tables, with the same bytes *)
Example C72_copies_example : exists s1 s2 r1 r2 x1 s1', sane s1 /\ sane s2 /\ smbios_version s1 = smbios_version s2 /\
  here s1 r1 /\ here s2 r2 /\ bytes_of s1 r1 = bytes_of s2 r2 /\ idx s1 <> idx s2 /\ buffer s1 <> buffer s2 /\
  next ex_strict s1 = Val (Some (Ok x1), s1') /\ variant_type x1 = Some 12.
Proof.
  set (v := {| major := 2; minor := 7 |}). set (b := [12; 5; 1; 0; 1; 65; 0; 0]).
  set (t1 := start v 14 ([200; 4; 0; 0; 0; 0] ++ b)). set (t2 := start v 11 (b ++ [1; 2; 3])).
  exists (moved_to 6 t1), t2.
  set (r x := {| version := v; info := InfoType_SystemConfigurationOptions; length_ := 5; handle := 1; data := [1]; strings := [65; 0; 0];
               after := [65; 0; 0] ++ x |}).
  exists (r []), (r [1; 2; 3]). do 2 eexists.
  split; [split; [apply all_bytes_dec; vm_compute; reflexivity|split; vm_compute; discriminate]|].
  split; [split; [apply all_bytes_dec; vm_compute; reflexivity|split; vm_compute; discriminate]|].
  split; [reflexivity|].
  assert (A : string_area [65; 0; 0]).
  { apply (encode_strings_area [[65]]). apply Forall_cons; [|apply Forall_nil]. split; [discriminate|]. intros [H|[]]. discriminate H. }
  split.
  { split; [|split; cbn; lia]. exists [200; 4; 0; 0; 0; 0], [], 12, 1, 0. split; [reflexivity|]. repeat (split; [reflexivity || exact A|]). reflexivity. }
  split.
  { split; [|split; cbn; lia]. exists [], [1; 2; 3], 12, 1, 0. split; [reflexivity|]. repeat (split; [reflexivity || exact A|]). reflexivity. }
  split; [vm_compute; reflexivity|]. split; [discriminate|]. split; [discriminate|]. split; vm_compute; reflexivity.
Qed.
