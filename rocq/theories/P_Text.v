(* Properties C53 to C58: displayed texts. *)
From Coq Require Import String Ascii.
From Coq Require Import ZArith Lia ZifyBool ZifyNat ZifyN.
From Verif Require Import Base G_Enums M_Raw M_Entry M_Bios M_Enclosure M_Processor M_SystemSlots M_SystemEventLog M_PortableBattery
  M_Display Spec S_Enums S_Text S_TextValues S_EnumTexts L_Base L_Enums L_Hardware L_Text L_Texts L_Texts2.
Local Open Scope string_scope.
Local Open Scope N_scope.
Ltac Zify.zify_post_hook ::= Z.div_mod_to_equations.

(* --------------------------------------------------------------------- C53 *)

(* Each of these enumerations shows different texts for different codes, in both the
   plain and the alternate form. *)
Theorem C53_distinct : forall alt name f, In (name, f) (byte_texts alt) -> distinct_on is_byte f.
Proof. exact byte_texts_distinct. Qed.
Print Assumptions C53_distinct.
Example C53_distinct_example : In ("PortType", fun k => PortType_display false (PortType_from k)) (byte_texts false) /\
  PortType_display false (PortType_from 0x10) = "USB" /\ PortType_display false (PortType_from 0x30) = "Undefined: 48".
Proof. split; [do 10 right; left; reflexivity|split; vm_compute; reflexivity]. Qed.

(* An undefined code is shown as its decimal numeral. *)
Theorem C53_undefined : forall alt name named f k, In (name, named, f) (undefined_texts alt) -> k < 256 -> ~ In k named ->
  exists s, f k = "Undefined: " ++ s /\ numeral 10 s k.
Proof. exact undefined_texts_numeral. Qed.
Print Assumptions C53_undefined.
Example C53_undefined_example : ~ In 0x30 (map fst PortType_codes) /\ numeral 10 "48" 0x30.
Proof.
  split; [vm_compute; intuition discriminate|]. split; [split; [discriminate|vm_compute; reflexivity]|].
  right. intros t. discriminate.
Qed.

Theorem C53_family : forall alt, distinct_on (fun k => k < 65536) (fun k => ProcessorFamily_display alt (ProcessorFamily_from k)).
Proof. exact family_distinct. Qed.
Print Assumptions C53_family.
Example C53_family_example : ProcessorFamily_display false (ProcessorFamily_from 0xB3) = "Intel® Xeon® processor" /\
  ProcessorFamily_display false (ProcessorFamily_from 0x1234) = "Available 0x1234".
Proof. split; vm_compute; reflexivity. Qed.

(* Slot types: the text identifies the value. *)
Lemma slot_texts alt j k : j < 256 -> k < 256 ->
  (SlotType_display alt (SlotType_from j) = SlotType_display alt (SlotType_from k) <-> SlotType_from j = SlotType_from k).
Proof.
  intros HJ HK. split; [|intros ->; reflexivity].
  set (canon := fun k => if k =? 171 then 31 else if k =? 177 then 32 else if k =? 184 then 36 else if k =? 190 then 37 else k).
  assert (C : forall k, k < 256 -> SlotType_from k = SlotType_from (canon k) /\ canon k < 256).
  { intros i HI. unfold canon. repeat match goal with |- context [?a =? ?b] => destruct (N.eqb_spec a b) as [->|] end;
      (split; [reflexivity|lia]). }
  destruct (C j HJ) as [-> HJ']. destruct (C k HK) as [-> HK'].
  assert (D : leads_back (map (fun k => (k, SlotType_display alt (SlotType_from k)))
    (filter (fun k => negb (existsb (N.eqb k) [171; 177; 184; 190])) (below 256))) = true) by (destruct alt; vm_compute; reflexivity).
  assert (M : forall k, k < 256 -> In (canon k, SlotType_display alt (SlotType_from (canon k))) (map (fun k => (k, SlotType_display alt (SlotType_from k)))
    (filter (fun k => negb (existsb (N.eqb k) [171; 177; 184; 190])) (below 256)))).
  { intros i HI. destruct (C i HI) as [_ HC]. apply in_map_iff. exists (canon i). split; [reflexivity|]. apply filter_In. split; [apply below_in, HC|].
    unfold canon. repeat match goal with |- context [if ?b then _ else _] => destruct b eqn:? end; try reflexivity.
    cbn [existsb]. rewrite Heqb, Heqb0, Heqb1, Heqb2. reflexivity. }
  intros E. f_equal. apply (leads_back_ok _ D _ _ (SlotType_display alt (SlotType_from (canon j)))); [apply M, HJ|].
  rewrite E. apply M, HK.
Qed.
Theorem C53_slot_type : forall alt j k, j < 256 -> k < 256 ->
  (SlotType_display alt (SlotType_from j) = SlotType_display alt (SlotType_from k) <-> SlotType_from j = SlotType_from k).
Proof. exact slot_texts. Qed.
Print Assumptions C53_slot_type.
Example C53_slot_type_example : SlotType_display false (SlotType_from 0x06) = "PCI" /\ SlotType_display false (SlotType_from 0xFE) = "Undefined: 254".
Proof. split; vm_compute; reflexivity. Qed.

(* Event log types and header formats: only the alternate text identifies the code. *)
Theorem C53_event_log_type : distinct_on is_byte (fun k => EventLogType_display true (EventLogType_from k)).
Proof. change is_byte with (fun k => k < N.of_nat 256). apply table_distinct. vm_compute. reflexivity. Qed.
Print Assumptions C53_event_log_type.
Theorem C53_event_log_type_plain_refuted : exists j k, j < 256 /\ k < 256 /\ EventLogType_from j <> EventLogType_from k /\
  EventLogType_display false (EventLogType_from j) = EventLogType_display false (EventLogType_from k).
Proof. exists 0x80, 0x81. split; [lia|]. split; [lia|]. split; [vm_compute; discriminate|vm_compute; reflexivity]. Qed.
Print Assumptions C53_event_log_type_plain_refuted.
Theorem C53_header_format : distinct_on is_byte (fun k => LogHeaderFormat_display true (LogHeaderFormat_from k)).
Proof. change is_byte with (fun k => k < N.of_nat 256). apply table_distinct. vm_compute. reflexivity. Qed.
Print Assumptions C53_header_format.
Theorem C53_header_format_plain_refuted : exists j k, j < 256 /\ k < 256 /\ LogHeaderFormat_from j <> LogHeaderFormat_from k /\
  LogHeaderFormat_display false (LogHeaderFormat_from j) = LogHeaderFormat_display false (LogHeaderFormat_from k).
Proof. exists 0x80, 0x81. split; [lia|]. split; [lia|]. split; [vm_compute; discriminate|vm_compute; reflexivity]. Qed.
Print Assumptions C53_header_format_plain_refuted.

Theorem C53_cache : forall alt,
  distinct_on (fun _ => True) (CacheLevel_display alt) /\ distinct_on (fun _ => True) (CacheLocation_display alt) /\
  distinct_on (fun _ => True) (CacheOperationalMode_display alt).
Proof.
  intros alt. repeat split; intros x y _ _ E; destruct alt, x, y; try reflexivity; discriminate E.
Qed.
Print Assumptions C53_cache.
Example C53_cache_example : CacheLevel_display false CacheLevel_L3 = "L3".
Proof. reflexivity. Qed.

(* Contained elements of an enclosure, and battery chemistries. *)
Theorem C53_contained_element : forall t1 t2 a1 a2 b1 b2,
  t1 < 256 -> t2 < 256 -> a1 < 256 -> a2 < 256 -> b1 < 256 -> b2 < 256 ->
  ContainedElement_display {| cel_type := ContainedElementType_from t1; cel_minimum := a1; cel_maximum := b1 |} =
  ContainedElement_display {| cel_type := ContainedElementType_from t2; cel_minimum := a2; cel_maximum := b2 |} ->
  t1 = t2 /\ a1 = a2 /\ b1 = b2.
Proof. exact element_text_distinct. Qed.
Print Assumptions C53_contained_element.
Example C53_contained_element_example :
  ContainedElement_display {| cel_type := ContainedElementType_from 0x0A; cel_minimum := 1; cel_maximum := 8 |} =
  "Baseboard type: Motherboard (includes processor, memory, and I/O) (1-8)".
Proof. vm_compute. reflexivity. Qed.
Theorem C53_chemistry : distinct_on is_byte (fun k => DeviceChemistry_display (DeviceChemistry_new k None)).
Proof. exact chemistry_text_distinct. Qed.
Print Assumptions C53_chemistry.

(* --------------------------------------------------------------------- C54 *)

(* A revision is "N/A" when both bytes are FFh, otherwise major.minor in decimal. *)
Theorem C54_revision : forall r, revision_bytes r ->
  (rev_major r = 0xFF /\ rev_minor r = 0xFF /\ Revision_display r = "N/A") \/
  (~ (rev_major r = 0xFF /\ rev_minor r = 0xFF) /\
   exists a b, Revision_display r = a ++ "." ++ b /\ numeral 10 a (rev_major r) /\ numeral 10 b (rev_minor r)).
Proof. exact revision_text. Qed.
Print Assumptions C54_revision.
Theorem C54_revision_distinct : distinct_on revision_bytes Revision_display.
Proof. exact revision_distinct. Qed.
Print Assumptions C54_revision_distinct.
Example C54_revision_example : Revision_display {| rev_major := 1; rev_minor := 23 |} = "1.23" /\
  Revision_display {| rev_major := 0xFF; rev_minor := 1 |} = "255.1".
Proof. split; vm_compute; reflexivity. Qed.

(* --------------------------------------------------------------------- C55 *)

(* A packed manufacture date is shown as YYYY-MM-DD: always four, two and two digits,
   reading year 1980 + bits 9-15, month bits 5-8 and day bits 0-4. *)
Theorem C55_date : forall w, w < 65536 ->
  exists y m d, ManufactureDate_display (ManufactureDate_new None (Some w)) = y ++ "-" ++ m ++ "-" ++ d /\
    String.length y = 4%nat /\ reads 10 y (1980 + w / 512) /\
    String.length m = 2%nat /\ reads 10 m (w / 32 mod 16) /\
    String.length d = 2%nat /\ reads 10 d (w mod 32).
Proof. exact date_text. Qed.
Print Assumptions C55_date.
Theorem C55_date_distinct : distinct_on (fun w => w < 65536) (fun w => ManufactureDate_display (ManufactureDate_new None (Some w))).
Proof. exact date_distinct. Qed.
Print Assumptions C55_date_distinct.
Theorem C55_serial : forall w, w < 65536 ->
  exists s, SerialNumber_display (SerialNumber_new None (Some w)) = "0x" ++ s /\ padded 16 2 s w.
Proof. exact serial_text. Qed.
Print Assumptions C55_serial.
Theorem C55_serial_distinct : distinct_on (fun w => w < 65536) (fun w => SerialNumber_display (SerialNumber_new None (Some w))).
Proof. exact serial_distinct. Qed.
Print Assumptions C55_serial_distinct.
Example C55_example : ManufactureDate_display (ManufactureDate_new None (Some 0x2841)) = "2000-02-01" /\
  SerialNumber_display (SerialNumber_new None (Some 0xA)) = "0x0A".
Proof. split; vm_compute; reflexivity. Qed.

(* A peer device is shown as ssss:bb:dd.f (Width w), which identifies its five bytes. *)
Theorem C55_device : forall d,
  device_segment_group_number d < 2 ^ 16 -> device_bus_number d < 2 ^ 8 ->
  dev (device_device_and_function_number d) < 2 ^ 8 -> fun_ (device_device_and_function_number d) < 2 ^ 8 ->
  device_data_bus_width d < 2 ^ 8 ->
  exists s b dv f w, Device_display d = s ++ ":" ++ b ++ ":" ++ dv ++ "." ++ f ++ " (Width " ++ w ++ ")" /\
    padded 16 4 s (device_segment_group_number d) /\ padded 16 2 b (device_bus_number d) /\
    padded 16 2 dv (dev (device_device_and_function_number d)) /\
    numeral 16 f (fun_ (device_device_and_function_number d)) /\ numeral 10 w (device_data_bus_width d).
Proof.
  intros d H1 H2 H3 H4 H5. do 5 eexists. split; [reflexivity|].
  change (2 ^ 16) with 65536 in *. change (2 ^ 8) with 256 in *.
  split; [apply pad_padded, show_hex_low_numeral, hex_room; [lia|room]|].
  split; [apply pad_padded, show_hex_low_numeral, hex_room; [lia|room]|].
  split; [apply pad_padded, show_hex_low_numeral, hex_room; [lia|room]|].
  split; [apply show_hex_low_numeral, hex_room; room|apply show_dec_numeral, dec_room; room].
Qed.
Print Assumptions C55_device.
Theorem C55_device_distinct : forall l1 l2 d1 d2, all_bytes l1 -> all_bytes l2 -> len l1 = 5 -> len l2 = 5 ->
  Device_from l1 = Val d1 -> Device_from l2 = Val d2 -> Device_display d1 = Device_display d2 -> l1 = l2.
Proof. exact device_text_distinct. Qed.
Print Assumptions C55_device_distinct.
Example C55_device_example :
  omap Device_display (Device_from [0x34; 0x12; 0x1A; 0xFB; 16]) = Val "1234:1a:1f.3 (Width 16)".
Proof. vm_compute. reflexivity. Qed.

(* --------------------------------------------------------------------- C56 *)

(* The displayed current voltage is exact: the f32 division and the rounding to one
   digit never show a neighbouring tenth. *)
Theorem C56_voltage : forall k, 128 <= k -> k < 256 ->
  exists s, Voltage_display (Voltage_from k) = "Current voltage: " ++ s ++ " V" /\ tenths s (k - 128).
Proof.
  intros k H1 H2.
  assert (E : Voltage_from k = Voltage_Current (k - 128)).
  { pose proof (by_bytes (fun k => (k <? 128) || match Voltage_from k with Voltage_Current v => v =? k - 128 | _ => false end)
      ltac:(vm_compute; reflexivity) k H2) as e. cbv beta in e. rewrite (proj2 (N.ltb_ge k 128) H1) in e. cbn [orb] in e.
    destruct (Voltage_from k); try discriminate. apply N.eqb_eq in e. congruence. }
  rewrite E. apply voltage_current. lia.
Qed.
Print Assumptions C56_voltage.
Theorem C56_voltage_distinct : distinct_on is_byte (fun k => Voltage_display (Voltage_from k)).
Proof. exact voltage_distinct. Qed.
Print Assumptions C56_voltage_distinct.
Example C56_voltage_example : Voltage_display (Voltage_from 0x92) = "Current voltage: 1.8 V" /\ tenths "1.8" 18.
Proof.
  split; [vm_compute; reflexivity|]. exists "1", "8". split; [reflexivity|].
  split; (split; [split; [discriminate|vm_compute; reflexivity]|right; intros t; discriminate]).
Qed.
(* 7.5.4: bit 0 of a legacy voltage stands for 5V; the text says 5.5V *)
Theorem C56_legacy_voltage_refuted : Voltage_display (Voltage_from 1) <> "Processor socket accept: 5V " /\
  Voltage_display (Voltage_from 1) = "Processor socket accept: 5.5V ".
Proof. split; [vm_compute; discriminate|vm_compute; reflexivity]. Qed.
Print Assumptions C56_legacy_voltage_refuted.

(* The displayed pitch is a tenth of the stored number, exactly... *)
Theorem C56_pitch : forall w, w < 65536 -> w <> 0 -> exists s, SlotPitch_display w = s ++ " mm" /\ tenths s w.
Proof. exact pitch_text. Qed.
Print Assumptions C56_pitch.
Theorem C56_pitch_distinct : distinct_on (fun w => w < 65536) SlotPitch_display.
Proof. exact pitch_distinct. Qed.
Print Assumptions C56_pitch_distinct.
(* ... but the stored number is in hundredths of a millimetre (7.10.12): 12.5 mm is
   stored as 1250 and shown as 125.0 mm *)
Theorem C56_pitch_unit_refuted : exists w s, w < 65536 /\ SlotPitch_display w = s ++ " mm" /\ ~ tenths s (w / 10).
Proof.
  exists 1250, "125.0". split; [lia|]. split; [vm_compute; reflexivity|].
  intros [a [b [E [[A _] [B _]]]]]. change (1250 / 10 / 10) with 12 in A. change (1250 / 10 mod 10) with 5 in B.
  assert (R : reads 10 "125" 125) by (split; [discriminate|vm_compute; reflexivity]).
  change "125.0" with ("125" ++ ".0") in E. apply (split_reads 10 _ _ 125 12) in E; [|exact R|exact A|reflexivity|reflexivity].
  destruct E. discriminate.
Qed.
Print Assumptions C56_pitch_unit_refuted.

(* --------------------------------------------------------------------- C57 *)

(* An error message identifies the error, with all its numbers. *)
Theorem C57_entry_error : distinct_on entry_error_byte InvalidEntryPointError_display.
Proof. exact entry_error_distinct. Qed.
Print Assumptions C57_entry_error.
Example C57_entry_error_example : InvalidEntryPointError_display (BadChecksum 201) = "SMBIOS entry point has an invalid checksum: 201".
Proof. vm_compute. reflexivity. Qed.
Theorem C57_structure_error : distinct_on structure_error_small MalformedStructureError_display.
Proof. exact structure_error_distinct. Qed.
Print Assumptions C57_structure_error.
Example C57_structure_error_example :
  structure_error_small (InvalidFormattedSectionLength InfoType_MemoryDevice 7 "minimum of " 0x15) /\
  MalformedStructureError_display (InvalidFormattedSectionLength InfoType_MemoryDevice 7 "minimum of " 0x15) =
  "Formatted section length of structure MemoryDevice with handle 7 should be minimum of 21 bytes".
Proof. split; [|vm_compute; reflexivity]. split; [intros t E; discriminate|]. repeat split. Qed.

(* --------------------------------------------------------------------- C58 *)

(* The code of a system management event is recovered from its value and its text. *)
Theorem C58_system_management : distinct_on (fun v => v < 2 ^ 32) (fun v => SystemManagementType_display (SystemManagementType_from v)).
Proof. exact smt_text_distinct. Qed.
Print Assumptions C58_system_management.
Theorem C58_system_management_values : distinct_on smt_small SystemManagementType_display.
Proof. exact smt_distinct. Qed.
Print Assumptions C58_system_management_values.
Example C58_system_management_example : SystemManagementType_display (SystemManagementType_from 0x10023) =
  "A system-management probe or cooling device with handle 0x0023 is out of range" /\
  SystemManagementType_display (SystemManagementType_from 0x21) = "Fan 1 Out of range".
Proof. split; vm_compute; reflexivity. Qed.
Theorem C58_variable_data : distinct_on vdf_small (VariableDataFormatType_display true).
Proof. exact vdf_distinct. Qed.
Print Assumptions C58_variable_data.
Example C58_variable_data_example : vdf_small (VDF_MultipleEventSystemManagementType (SMT_OutOfRangeFan 3) 7) /\
  VariableDataFormatType_display true (VDF_MultipleEventSystemManagementType (SMT_OutOfRangeFan 3) 7) =
  "Multiple-event system management: Type Fan 3 Out of range, Count 7".
Proof. split; [split; reflexivity|vm_compute; reflexivity]. Qed.
Theorem C58_access_method : forall m1 a1 m2 a2, m1 < 256 -> a1 < 2 ^ 32 -> m2 < 256 -> a2 < 2 ^ 32 ->
  AccessMethod_display true (AccessMethod_new m1 a1) = AccessMethod_display true (AccessMethod_new m2 a2) ->
  AccessMethod_new m1 a1 = AccessMethod_new m2 a2.
Proof. intros m1 a1 m2 a2 H1 H2 H3 H4. apply method_distinct; apply method_new_small; assumption. Qed.
Print Assumptions C58_access_method.
Example C58_access_method_example : AccessMethod_display true (AccessMethod_new 1 0x00720070) <> AccessMethod_display true (AccessMethod_new 3 0x00720070) /\
  AccessMethod_display true (AccessMethod_new 3 0xFFF80000) = "Memory-mapped physical 32-bit address: 0xFFF80000".
Proof. split; [vm_compute; discriminate|vm_compute; reflexivity]. Qed.
