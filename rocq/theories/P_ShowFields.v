(* Property C87: the developer text of a value, `{:?}` or `{:#?}`, shows each field with its own
   value: numbers in decimal, texts in quotes, bits and codes by their names.
   Vocabulary: S_ShowFields.v (shown_as, shows, the contents of the types), S_ShowCodes.v (the
   names for the codes), S_Show.v (well_typed, literal), S_Text.v (numeral), S_Iter.v (sane). *)
From Coq Require Import String Ascii.
From Coq Require Import ZArith Lia ZifyBool ZifyNat ZifyN.
From Verif Require Import Base G_Enums M_Raw M_Entry M_System M_Enclosure M_Processor M_SystemSlots M_GroupAssociations M_SystemEventLog
  M_Iter M_Display M_Debug M_Eq G_Eq M_Flags M_Show G_Show
  Spec S_Iter S_Text S_Flags S_Show S_ShowFields S_ShowCodes L_Base L_Fits L_Shown L_ShowFields L_ShowCodes P_Iter P_Show.
Local Open Scope string_scope.
Local Open Scope N_scope.

(* A structure that an iterator yields is shown with all its fields and their values. *)
Theorem C87_structures : forall u c wide s x s', sane s -> well_typed SmbiosVersion_parts (smbios_version s) ->
  next c s = Val (Some (Ok x), s') -> shows u wide 0 (Structure_contents c x) (Structure_debug_text u c wide x).
Proof. intros u c wide s x s'. exact (next_shown u wide c s x s'). Qed.
Print Assumptions C87_structures.
(* So is any other whose fields fit their types. *)
Theorem C87_any_structure : forall u c wide x, well_typed Structure_parts x -> uuid_whole x ->
  shows u wide 0 (Structure_contents c x) (Structure_debug_text u c wide x).
Proof. intros u c wide x H W. exact (Structure_shown u wide 0 c x W H). Qed.
Print Assumptions C87_any_structure.
(* So are the other values that the interface hands out. *)
Theorem C87_other_values : forall u wide,
  (forall x, well_typed EntryPoint_parts x -> shows u wide 0 (EntryPoint_contents x) (EntryPoint_debug_text u wide x)) /\
  (forall x, well_typed Structures_parts x -> shows u wide 0 (Structures_contents x) (Structures_debug_text u wide x)) /\
  (forall x, well_typed SmbiosVersion_parts x -> shows u wide 0 (SmbiosVersion_contents x) (SmbiosVersion_debug_text u wide x)) /\
  (forall x, well_typed RawStructure_parts x -> shows u wide 0 (RawStructure_contents x) (RawStructure_debug_text u wide x)) /\
  (forall x, well_typed StructureStrings_parts x -> shows u wide 0 (StructureStrings_contents x) (StructureStrings_debug_text u wide x)) /\
  (forall x, well_typed ContainedElement_parts x -> shows u wide 0 (ContainedElement_contents x) (ContainedElement_debug_text u wide x)) /\
  (forall x, well_typed Device_parts x -> shows u wide 0 (Device_contents x) (Device_debug_text u wide x)) /\
  (forall x, well_typed GroupItem_parts x -> shows u wide 0 (GroupItem_contents x) (GroupItem_debug_text u wide x)) /\
  (forall x, well_typed EventLogTypeDescriptor_parts x ->
     shows u wide 0 (EventLogTypeDescriptor_contents x) (EventLogTypeDescriptor_debug_text u wide x)).
Proof.
  exact (fun u wide => conj (EntryPoint_shown u wide 0) (conj (Structures_shown u wide 0) (conj (SmbiosVersion_shown u wide 0)
    (conj (RawStructure_shown u wide 0) (conj (StructureStrings_shown u wide 0) (conj (ContainedElement_shown u wide 0)
    (conj (Device_shown u wide 0) (conj (GroupItem_shown u wide 0) (EventLogTypeDescriptor_shown u wide 0))))))))).
Qed.
Print Assumptions C87_other_values.
(* A value of an enumeration is shown by the name of its code; codes without a name of their
   own are shown with the number. *)
Theorem C87_codes : forall u wide depth limit decoded rows other k, In (limit, decoded, rows, other) coded_types -> k < limit ->
  exists t, decoded k = Val t /\ code_text wide depth rows other k (print u wide depth t).
Proof. exact coded_texts. Qed.
Print Assumptions C87_codes.

(* The text of a processor's status does not show what its code means: for a processor that
   the BIOS disabled (code 3), it names two codes, and neither of them is that one. *)
Definition ex_processor (status : N) : list N :=
  [4; 26; 9; 0; 0; 3; 1; 0; 1; 2; 3; 4; 5; 6; 7; 8; 0; 139; 100; 0; 184; 11; 184; 11; status; 1; 0; 0].
Definition ex_from20 (l : list N) : Structures :=
  {| smbios_version := {| major := 2; minor := 0 |}; smbios_len_ := len l; idx := 0; buffer := l |}.
Theorem C87_status_code_refuted : exists u x s,
  next ex_cfg (ex_from20 (ex_processor 0x43)) = Val (Some (Ok (SProcessor x)), s) /\
  In (3, "CPU_DISABLED_BY_BIOS") status_codes /\
  print u false 0 (show_flags "ProcessorStatus" ProcessorStatus_constants (processor_status x)) =
    "ProcessorStatus(CPU_SOCKET_POPULATED | CPU_ENABLED | CPU_DISABLED_BY_USER)" /\
  exists a b, Structure_debug_text u ex_cfg false (SProcessor x) =
    a ++ ", status: ProcessorStatus(CPU_SOCKET_POPULATED | CPU_ENABLED | CPU_DISABLED_BY_USER), " ++ b.
Proof.
  exists ex_chars. do 2 eexists. split; [vm_compute; reflexivity|]. split; [vm_compute; tauto|]. split; [vm_compute; reflexivity|].
  exists ("Processor(Processor { handle: 9, socket_designation: """", processor_type: CentralProcessor, processor_family: Other, " ++
    "processor_manufacturer: """", processor_id: 578437695752307201, processor_version: """", voltage: Current(11), external_clock: 100, " ++
    "max_speed: 3000, current_speed: 3000").
  exists ("processor_upgrade: Other, l1_cache_handle: None, l2_cache_handle: None, l3_cache_handle: None, serial_number: None, " ++
    "asset_tag: None, part_number: None, core_count: None, core_enabled: None, thread_count: None, processor_characteristics: None })").
  vm_compute. reflexivity.
Qed.
Print Assumptions C87_status_code_refuted.

(* ------------------------------------------------------------------ examples *)

Definition ex_system : list N := [1; 25; 1; 0; 1; 0; 0; 0; 0; 17; 34; 51; 68; 85; 102; 119; 136; 153; 170; 187; 204; 221; 238; 255; 6; 65; 67; 0; 0].
Definition ex_from23 (l : list N) : Structures :=
  {| smbios_version := {| major := 2; minor := 3 |}; smbios_len_ := len l; idx := 0; buffer := l |}.
Example C87_example : exists x s, sane (ex_from23 ex_system) /\ well_typed SmbiosVersion_parts (smbios_version (ex_from23 ex_system)) /\
  next ex_cfg (ex_from23 ex_system) = Val (Some (Ok x), s) /\ uuid_whole x /\
  Structure_debug_text ex_chars ex_cfg false x =
    "System(System { handle: 1, manufacturer: ""AC"", product: """", version: """", serial: """", " ++
    "uuid: Some(00112233-4455-6677-8899-aabbccddeeff), wakeup: Some(Power_Switch), sku: None, family: None })".
Proof.
  do 2 eexists. split; [split; [apply all_bytes_dec; vm_compute; reflexivity|split; vm_compute; discriminate]|].
  split; [repeat constructor|]. split; [vm_compute; reflexivity|]. split; [reflexivity|]. vm_compute. reflexivity.
Qed.
(* what [shows] demands, for some values *)
Example C87_shows_example :
  shows ex_chars false 0 (As_struct "Pair" [("a", As_number 7); ("b", As_option (Some (As_bytes [1; 20])))]) "Pair { a: 7, b: Some([1, 20]) }" /\
  ~ shows ex_chars false 0 (As_number 7) "07" /\
  ~ shows ex_chars false 0 (As_struct "One" [("a", As_number 7)]) "One { a: 8 }".
Proof.
  assert (N : forall s k, read_from 10 0 s = Some k -> s <> "" -> (forall t, s <> String "0" t) -> numeral 10 s k) by (intros s k A B C; split; [split; assumption|right; exact C]).
  split; [|split].
  - apply (shows_struct ex_chars false 0 "Pair" [("a", As_number 7); ("b", As_option (Some (As_bytes [1; 20])))] ["7"; "Some([1, 20])"]). constructor; [|constructor; [|constructor]].
    + constructor. apply N; [reflexivity|discriminate..].
    + apply (shows_some ex_chars false 1 (As_bytes [1; 20]) "[1, 20]"). apply (shows_bytes ex_chars false 2 [1; 20] ["1"; "20"]); [discriminate|].
      repeat constructor; try discriminate; right; discriminate.
  - intros H. inversion H as [d n s [_ [Z|Z]]| | | | | | | | | | | | |]; subst; [discriminate|]. eapply Z. reflexivity.
  - intros H. remember "One { a: 8 }" as text eqn:ET. inversion H as [| | | | | | | | | | | | |d name fields ss F]. subst d name fields.
    cbn [map snd] in F. inversion F as [|v s vs rest S1 F2]; subst. inversion F2; subst.
    inversion S1 as [d n s0 [[_ R] _]| | | | | | | | | | | | |]; subst. 
    match goal with K : _ = "One { a: 8 }" |- _ => rename K into ET end. cbn in ET. injection ET as ET.
    destruct s as [|a s]; [discriminate R|]. cbn in ET. injection ET as -> ET.
    destruct s as [|b s]; [discriminate R|]. cbn in ET. injection ET as -> ET. discriminate R.
Qed.
Example C87_codes_example :
  In (256, (fun k => Val (ConnectorType_tree (ConnectorType_from k))), ConnectorType_texts, "Undefined") coded_types /\
  print ex_chars false 0 (ConnectorType_tree (ConnectorType_from 0x1F)) = "MiniJack" /\
  code_text false 0 ConnectorType_texts "Undefined" 0x1F "MiniJack" /\ ~ code_text false 0 ConnectorType_texts "Undefined" 0x1F "Bnc" /\
  print ex_chars false 0 (ConnectorType_tree (ConnectorType_from 80)) = "Undefined(80)" /\
  code_text false 0 ConnectorType_texts "Undefined" 80 "Undefined(80)".
Proof.
  split; [unfold coded_types; cbn [In]; tauto|]. split; [vm_compute; reflexivity|]. split; [vm_compute; reflexivity|].
  split; [vm_compute; discriminate|]. split; [vm_compute; reflexivity|]. exists "80". split; [|vm_compute; reflexivity].
  split; [split; [discriminate|reflexivity]|right; discriminate].
Qed.
