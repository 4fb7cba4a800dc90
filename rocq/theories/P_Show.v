(* Property C85: the developer text of a structure, `{:?}` or `{:#?}`, shows the whole value,
   on one line (or on lines of its own) whatever the firmware put into its strings.
   Vocabulary: S_Show.v (well_typed, visible, one_line, literal, titles, shaped), S_Same.v
   (lists_ok), S_Iter.v (sane, forget, bare), S_Origin.v (shown_texts, shown_handle). *)
From Coq Require Import String Ascii.
From Coq Require Import ZArith Lia ZifyBool ZifyNat ZifyN.
From Verif Require Import Base G_Enums M_Raw M_Entry M_Enclosure M_PortConnector M_SystemSlots M_GroupAssociations M_SystemEventLog
  M_Iter M_Display M_Debug M_Hash M_Eq G_Eq M_Show G_Show
  Spec S_Iter S_Hash S_Text S_Same S_Origin S_Show L_Base L_Eq L_GEq L_Same L_Show L_GShow L_Fits L_Shown P_Iter.
Local Open Scope string_scope.
Local Open Scope N_scope.

(* Two structures have the same text exactly when all their fields are the same. *)
Theorem C85_text_exactly : forall u c alt x y, well_typed Structure_parts x -> well_typed Structure_parts y -> lists_ok x -> lists_ok y ->
  (Structure_debug_text u c alt x = Structure_debug_text u c alt y <-> forget x = forget y).
Proof. exact text_exactly. Qed.
Print Assumptions C85_text_exactly.
(* The structures that an iterator yields are of the kind this needs. *)
Theorem C85_decoded_fit : forall c s x s', sane s -> well_typed SmbiosVersion_parts (smbios_version s) ->
  next c s = Val (Some (Ok x), s') -> well_typed Structure_parts x /\ lists_ok x.
Proof. intros c s x s' HS HV H. split; [eapply next_fits; eassumption|eapply next_lists_ok; eassumption]. Qed.
Print Assumptions C85_decoded_fit.
Theorem C85_decoded_exactly : forall u c alt s x s' t y t', sane s -> sane t ->
  well_typed SmbiosVersion_parts (smbios_version s) -> well_typed SmbiosVersion_parts (smbios_version t) ->
  next c s = Val (Some (Ok x), s') -> next c t = Val (Some (Ok y), t') ->
  (Structure_debug_text u c alt x = Structure_debug_text u c alt y <-> forget x = forget y).
Proof.
  intros u c alt s x s' t y t' HS HT VS VT HX HY.
  destruct (C85_decoded_fit c s x s' HS VS HX), (C85_decoded_fit c t y t' HT VT HY). apply text_exactly; assumption.
Qed.
Print Assumptions C85_decoded_exactly.
(* Structures with the same text are equal. *)
Theorem C85_same_text_equal : forall u c alt x y, well_typed Structure_parts x -> well_typed Structure_parts y ->
  Structure_debug_text u c alt x = Structure_debug_text u c alt y -> Structure_eq x y = true.
Proof. exact text_eq. Qed.
Print Assumptions C85_same_text_equal.
(* Equal structures have the same text, unless they are event logs ... *)
Theorem C85_equal_same_text : forall u c alt x y, lists_ok x -> lists_ok y -> (forall s, x <> SSystemEventLog s) ->
  Structure_eq x y = true -> Structure_debug_text u c alt x = Structure_debug_text u c alt y.
Proof.
  intros u c alt x y LX LY HN E. apply structure_eq_value in E; [|assumption..]. destruct E as [x y E|s d e _]; [|exfalso; eapply HN; reflexivity].
  unfold Structure_debug_text. rewrite <- (forget_tree c x), <- (forget_tree c y), E. reflexivity.
Qed.
Print Assumptions C85_equal_same_text.
(* ... whose text also tells the size of the descriptors where there are none. *)
Definition ex_log (size : N) : list N :=
  [15; 23; 7; 0; 0; 16; 0; 0; 16; 0; 4; 1; 9; 0; 0; 0; 0; 0; 0; 0; 0; 0; size; 0; 0].
Definition ex_from (l : list N) : Structures :=
  {| smbios_version := {| major := 3; minor := 2 |}; smbios_len_ := len l; idx := 0; buffer := l |}.
Definition ex_chars : characters := {| printable := fun _ => true; extending := fun c => (768 <=? c) && (c <? 880) |}.
Theorem C85_equal_same_text_refuted : exists u c x y s t,
  next c (ex_from (ex_log 2)) = Val (Some (Ok x), s) /\ next c (ex_from (ex_log 3)) = Val (Some (Ok y), t) /\
  Structure_eq x y = true /\ Structure_debug_text u c false x <> Structure_debug_text u c false y.
Proof.
  exists ex_chars, ex_cfg. do 4 eexists. split; [vm_compute; reflexivity|]. split; [vm_compute; reflexivity|].
  split; [vm_compute; reflexivity|]. vm_compute. discriminate.
Qed.
Print Assumptions C85_equal_same_text_refuted.

(* The text in one line has only characters that can be seen: no line breaks, no control
   characters, whatever the strings of the firmware are. *)
Theorem C85_one_line : forall u c x, well_typed Structure_parts x -> one_line u (Structure_debug_text u c false x).
Proof. exact structure_line. Qed.
Print Assumptions C85_one_line.
Theorem C85_visible_lines : forall u c x, well_typed Structure_parts x ->
  exists l, Forall (one_line u) l /\ Structure_debug_text u c true x = several_lines l.
Proof. exact structure_many. Qed.
Print Assumptions C85_visible_lines.

(* It names the case, the type and every field, in the order of the documentation. *)
Theorem C85_shape : forall u c x, exists values, shaped x values (Structure_debug_text u c false x).
Proof. exact shape_line. Qed.
Print Assumptions C85_shape.
Theorem C85_shape_lines : forall u c x, exists values, shaped_lines x values (Structure_debug_text u c true x).
Proof. exact shape_many. Qed.
Print Assumptions C85_shape_lines.
(* The first field is the handle, in decimal. *)
Theorem C85_handle : forall u c x case type fields, titles x = (case, type, fields) -> (forall r, x <> SOther r) ->
  well_typed Structure_parts x ->
  exists d rest, numeral 10 d (shown_handle x) /\
    Structure_debug_text u c false x = case ++ "(" ++ type ++ " { handle: " ++ d ++ ", " ++ rest.
Proof. exact structure_handle. Qed.
Print Assumptions C85_handle.
(* Every text of the structure is in it, in quotes. *)
Theorem C85_texts : forall u c alt x t, well_typed Structure_parts x -> In t (shown_texts x) ->
  exists a s b, literal u t s /\ Structure_debug_text u c alt x = a ++ s ++ b.
Proof. exact structure_texts. Qed.
Print Assumptions C85_texts.

(* The texts of the other values that the interface hands out tell them apart as well. *)
Theorem C85_plain_values : forall u alt,
  (forall x y, well_typed EntryPoint_parts x -> well_typed EntryPoint_parts y ->
     (EntryPoint_debug_text u alt x = EntryPoint_debug_text u alt y <-> x = y)) /\
  (forall x y, well_typed Structures_parts x -> well_typed Structures_parts y ->
     (Structures_debug_text u alt x = Structures_debug_text u alt y <-> x = y)) /\
  (forall x y, well_typed SmbiosVersion_parts x -> well_typed SmbiosVersion_parts y ->
     (SmbiosVersion_debug_text u alt x = SmbiosVersion_debug_text u alt y <-> x = y)) /\
  (forall x y, well_typed InfoType_parts x -> well_typed InfoType_parts y ->
     (InfoType_debug_text u alt x = InfoType_debug_text u alt y <-> x = y)) /\
  (forall x y, well_typed StructureStrings_parts x -> well_typed StructureStrings_parts y ->
     (StructureStrings_debug_text u alt x = StructureStrings_debug_text u alt y <-> x = y)) /\
  (forall x y, well_typed ContainedElement_parts x -> well_typed ContainedElement_parts y ->
     (ContainedElement_debug_text u alt x = ContainedElement_debug_text u alt y <-> x = y)) /\
  (forall x y, well_typed Device_parts x -> well_typed Device_parts y ->
     (Device_debug_text u alt x = Device_debug_text u alt y <-> x = y)) /\
  (forall x y, well_typed GroupItem_parts x -> well_typed GroupItem_parts y ->
     (GroupItem_debug_text u alt x = GroupItem_debug_text u alt y <-> x = y)) /\
  (forall x y, well_typed EventLogTypeDescriptor_parts x -> well_typed EventLogTypeDescriptor_parts y ->
     (EventLogTypeDescriptor_debug_text u alt x = EventLogTypeDescriptor_debug_text u alt y <-> x = y)).
Proof.
  exact (fun u alt => conj (fun x y => plain_exactly u alt _ _ x y EntryPoint_sound EntryPoint_codec)
    (conj (fun x y => plain_exactly u alt _ _ x y Structures_sound Structures_codec)
    (conj (fun x y => plain_exactly u alt _ _ x y SmbiosVersion_sound SmbiosVersion_codec)
    (conj (fun x y => plain_exactly u alt _ _ x y InfoType_sound InfoType_codec)
    (conj (fun x y => plain_exactly u alt _ _ x y StructureStrings_sound StructureStrings_codec)
    (conj (fun x y => plain_exactly u alt _ _ x y ContainedElement_sound ContainedElement_codec)
    (conj (fun x y => plain_exactly u alt _ _ x y Device_sound Device_codec)
    (conj (fun x y => plain_exactly u alt _ _ x y GroupItem_sound GroupItem_codec)
          (fun x y => plain_exactly u alt _ _ x y EventLogTypeDescriptor_sound EventLogTypeDescriptor_codec))))))))).
Qed.
Print Assumptions C85_plain_values.
Theorem C85_raw_values : forall u alt x y, well_typed RawStructure_parts x -> well_typed RawStructure_parts y ->
  (RawStructure_debug_text u alt x = RawStructure_debug_text u alt y <-> bare x = bare y).
Proof. exact raw_exactly. Qed.
Print Assumptions C85_raw_values.
(* The kind of a structure is written as it is in errors (C82). *)
Theorem C85_kinds_as_in_errors : forall u alt d i, render alt d (InfoType_dbg i) = print u alt d (InfoType_tree i).
Proof. exact info_render. Qed.
Print Assumptions C85_kinds_as_in_errors.
(* So is a text of characters below 80h; the texts in errors have no others. *)
Theorem C85_texts_as_in_errors : forall u alt d t, Forall (fun b => b < 128) t ->
  render alt d (str_debug (show_text t)) = print u alt d (Quoted t).
Proof. exact quoted_render. Qed.
Print Assumptions C85_texts_as_in_errors.

(* ------------------------------------------------------------------ examples *)

(* two strings: a quote, a line break, a letter of two bytes, a combining accent and a bell *)
Definition ex_port : list N := [8; 9; 42; 0; 1; 0; 2; 31; 255] ++ [74; 34; 49; 10; 0; 195; 169; 204; 129; 7; 0; 0].
Example C85_example : exists x s, sane (ex_from ex_port) /\ well_typed SmbiosVersion_parts (smbios_version (ex_from ex_port)) /\
  next ex_cfg (ex_from ex_port) = Val (Some (Ok x), s) /\ shown_texts x = [[74; 34; 49; 10]; [195; 169; 204; 129; 7]] /\
  Structure_debug_text ex_chars ex_cfg false x =
    "PortConnector(PortConnector { handle: 42, internal_reference_designator: ""J\""1\n"", internal_connector_type: None, " ++
    "external_reference_designator: ""é\u{301}\u{7}"", external_connector_type: MiniJack, port_type: Other })" /\
  Structure_debug_text ex_chars ex_cfg true x = several_lines
    ["PortConnector("; "    PortConnector {"; "        handle: 42,"; "        internal_reference_designator: ""J\""1\n"",";
     "        internal_connector_type: None,"; "        external_reference_designator: ""é\u{301}\u{7}"",";
     "        external_connector_type: MiniJack,"; "        port_type: Other,"; "    },"; ")"].
Proof.
  do 2 eexists. split; [split; [apply all_bytes_dec; vm_compute; reflexivity|split; vm_compute; discriminate]|].
  split; [repeat constructor|]. split; [vm_compute; reflexivity|]. split; [vm_compute; reflexivity|].
  split; vm_compute; reflexivity.
Qed.
Example C85_literal_example : literal ex_chars [74; 34; 49; 10] """J\""1\n""" /\ visible ex_chars 233 /\ ~ visible ex_chars 769 /\ ~ visible ex_chars 7.
Proof.
  split; [|split; [|split]].
  - exists [74; 34; 49; 10], ["J"; "\"""; "1"; "\n"]. split; [repeat constructor|]. split; [reflexivity|]. split; [|reflexivity].
    constructor; [apply (spelled_as_it_is ex_chars 74); [left; lia|discriminate|discriminate]|].
    constructor; [apply spelled_by_letter; cbn; tauto|].
    constructor; [apply (spelled_as_it_is ex_chars 49); [left; lia|discriminate|discriminate]|].
    constructor; [apply spelled_by_letter; cbn; tauto|constructor].
  - right. split; [lia|]. split; [unfold scalar; lia|]. split; reflexivity.
  - intros [V|[_ [_ [_ E]]]]; [lia|discriminate E].
  - intros [V|[V _]]; lia.
Qed.
(* an entry point, the iterator over its (empty) table, and values met in lists *)
Example C85_plain_example :
  SmbiosVersion_debug_text ex_chars false {| major := 3; minor := 2 |} = "SmbiosVersion { major: 3, minor: 2 }" /\
  Structures_debug_text ex_chars false (ex_from [127]) =
    "Structures { smbios_version: SmbiosVersion { major: 3, minor: 2 }, smbios_len: 1, idx: 0, buffer: [127] }" /\
  well_typed Structures_parts (ex_from [127]) /\
  GroupItem_debug_text ex_chars false {| gi_type := 7; gi_handle := 300 |} = "GroupItem { type_: 7, handle: 300 }" /\
  well_typed GroupItem_parts {| gi_type := 7; gi_handle := 300 |} /\
  InfoType_debug_text ex_chars false (InfoType_from 200) = "Oem(200)" /\ well_typed InfoType_parts (InfoType_from 200).
Proof.
  split; [vm_compute; reflexivity|]. split; [vm_compute; reflexivity|]. split; [repeat constructor|].
  split; [vm_compute; reflexivity|]. split; [repeat constructor|]. split; [vm_compute; reflexivity|]. repeat constructor.
Qed.
