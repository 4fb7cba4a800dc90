(* Properties C27-C30: processor, cache, port connector and system slots (types 4,
   7, 8 and 9).  Vocabulary: S_Hardware.v, S_Decode.v, Spec.v. *)
From Coq Require Import String.
From Coq Require Import ZArith Lia ZifyBool ZifyNat ZifyN.
From Verif Require Import Base G_Enums M_Raw M_Processor M_Cache M_PortConnector M_SystemSlots.
From Verif Require Import Spec S_Enums S_Decode S_Hardware L_Base L_Decode L_Hardware L_Cache L_Slots P_System.
Local Open Scope N_scope.

(* ------------------------------------------------------------- C27, type 4 *)

Theorem C27_processor_decodes : forall c r s, all_bytes (data r) -> Processor_area (version r) <= len (data r) ->
  (Processor_try_from c r = Val (Ok s) <-> Processor_says r s).
Proof. exact Processor_ok. Qed.
Print Assumptions C27_processor_decodes.

Theorem C27_processor_errors : forall c r e, Processor_area (version r) <= len (data r) ->
  (Processor_try_from c r = Val (Err e) <-> first_bad_text r (Processor_texts (version r)) e).
Proof. exact Processor_err. Qed.
Print Assumptions C27_processor_errors.

Theorem C27_processor_returns : forall c r, Processor_area (version r) <= len (data r) ->
  exists o, Processor_try_from c r = Val o.
Proof. exact Processor_returns. Qed.
Print Assumptions C27_processor_returns.

(* "a 2.5 structure reports the characteristics it holds" is false: they are read
   and dropped, for every 2.5 structure *)
Theorem C27_characteristics_2_5_refuted : forall c r s,
  version_is (version r) 2 5 -> Processor_try_from c r = Val (Ok s) -> processor_processor_characteristics s = None.
Proof.
  intros c r s V. unfold Processor_try_from. versions; try vlia. unfold obind. destruct (read_packed c 36 r); try discriminate.
  finds; intros H; try discriminate. injection H as <-. reflexivity.
Qed.
Print Assumptions C27_characteristics_2_5_refuted.

Definition ex_processor_data : list N :=
  [1; 3; 0xFE; 2; 1; 2; 3; 4; 5; 6; 7; 8; 3; 0x8C; 100; 0; 0xA0; 0x0F; 0x10; 0x0E; 0xC1; 0x2B;
   1; 0; 2; 0; 3; 0; 1; 2; 3; 0xFF; 8; 0xFF; 0xFC; 0x03; 0x01; 0x01; 0; 1; 9; 0; 0; 2].
Definition ex_processor ma mi := ex_struct ma mi InfoType_Processor ex_processor_data [].
Example C27_example :
  Processor_try_from ex_strict (ex_processor 3 0) = Val (Ok {|
    processor_handle := 7; processor_socket_designation := [65];
    processor_processor_type := ProcessorType_CentralProcessor; processor_processor_family := ProcessorFamily_from 0x101;
    processor_processor_manufacturer := [66; 67]; processor_processor_id := 0x0807060504030201; processor_processor_version := [68];
    processor_voltage := Voltage_Current 12; processor_external_clock := 100; processor_max_speed := 4000;
    processor_current_speed := 3600; processor_status := 0x41; processor_processor_upgrade := ProcessorUpgrade_from 0x2B;
    processor_l1_cache_handle := Some 1; processor_l2_cache_handle := Some 2; processor_l3_cache_handle := Some 3;
    processor_serial_number := Some [65]; processor_asset_tag := Some [66; 67]; processor_part_number := Some [68];
    processor_core_count := Some 0x100; processor_core_enabled := Some 8; processor_thread_count := Some 0x200;
    processor_processor_characteristics := Some 0x2FC |}) /\
  all_bytes (data (ex_processor 3 0)) /\ Processor_area {| major := 3; minor := 0 |} <= len ex_processor_data /\
  (* before 3.0 FFh is a count *)
  omap (rmap processor_core_count) (Processor_try_from ex_strict (ex_processor 2 8)) = Val (Ok (Some 0xFF)) /\
  (* before 2.6 FEh is a family *)
  omap (rmap processor_processor_family) (Processor_try_from ex_strict (ex_processor 2 5)) = Val (Ok ProcessorFamily_ProcessorFamily2) /\
  omap (rmap processor_serial_number) (Processor_try_from ex_strict (ex_processor 2 1)) = Val (Ok None) /\
  omap (rmap processor_l1_cache_handle) (Processor_try_from ex_strict (ex_processor 2 0)) = Val (Ok None).
Proof. split; [reflexivity|]. split; [apply all_bytes_dec; reflexivity|]. split; [vm_compute; discriminate|]. repeat split. Qed.
Example C27_2_5_example :
  omap (rmap processor_processor_characteristics) (Processor_try_from ex_strict (ex_processor 2 5)) = Val (Ok None) /\
  omap (rmap processor_processor_characteristics) (Processor_try_from ex_strict (ex_processor 2 6)) = Val (Ok (Some 0x2FC)).
Proof. repeat split. Qed.

(* ------------------------------------------------------------- C28, type 7 *)

Theorem C28_cache_decodes : forall c r s,
  all_bytes (data r) -> from_version (version r) 2 1 -> Cache_area (version r) <= len (data r) ->
  (Cache_try_from c r = Val (Ok s) <-> Cache_says r s).
Proof. exact Cache_ok. Qed.
Print Assumptions C28_cache_decodes.

Theorem C28_cache_errors : forall c r e, from_version (version r) 2 1 -> Cache_area (version r) <= len (data r) ->
  (Cache_try_from c r = Val (Err e) <-> first_bad_text r [0x04] e).
Proof. exact Cache_err. Qed.
Print Assumptions C28_cache_errors.

Theorem C28_cache_returns : forall c r, from_version (version r) 2 1 -> Cache_area (version r) <= len (data r) ->
  exists o, Cache_try_from c r = Val o.
Proof. exact Cache_returns. Qed.
Print Assumptions C28_cache_returns.

(* "decoding a cache structure never panics" is false: it does for every structure
   of a version up to 2.0, and for no other *)
Theorem C28_cache_panics_exactly : forall c r, Cache_try_from c r = Panic <-> before_version (version r) 2 1.
Proof. exact Cache_panics. Qed.
Print Assumptions C28_cache_panics_exactly.

(* "the fields of 2.1 and 3.1 are reported from 2.1 and 3.1 on" is false *)
Theorem C28_fields_2_1_refuted : forall c r s,
  version_is (version r) 2 1 -> Cache_try_from c r = Val (Ok s) ->
  cache_cache_speed s = None /\ cache_error_correction_type s = None /\ cache_system_cache_type s = None /\ cache_associativity s = None.
Proof.
  intros c r s V. unfold Cache_try_from. versions; try vlia. unfold obind. destruct (read_packed c 11 r) as [p| |]; try discriminate.
  destruct (CacheConfiguration_from (at_ 1 2 p)); finds; intros H; try discriminate. injection H as <-. repeat split.
Qed.
Print Assumptions C28_fields_2_1_refuted.
Theorem C28_fields_3_1_refuted : forall c r s,
  version_is (version r) 3 1 -> Cache_try_from c r = Val (Ok s) ->
  cache_maximum_cache_size_2 s = None /\ cache_installed_size_2 s = None.
Proof.
  intros c r s V. unfold Cache_try_from. versions; try vlia. unfold obind. destruct (read_packed c 15 r) as [p| |]; try discriminate.
  destruct (CacheConfiguration_from (at_ 1 2 p)); finds; intros H; try discriminate. injection H as <-. repeat split.
Qed.
Print Assumptions C28_fields_3_1_refuted.

(* Every configuration word has a meaning, and sizes in bytes are exact: no word
   overflows. *)
Theorem C28_configuration : forall w, exists x, CacheConfiguration_from w = Val x /\ configuration_means w x.
Proof. intros w. destruct (configuration_total w) as [x H]. exists x. split; [exact H|]. apply configuration_from, H. Qed.
Print Assumptions C28_configuration.
Theorem C28_size_bytes : forall c w, w < 65536 ->
  CacheSize_bytes c (CacheSize_from w) = Val (if w <? 0x8000 then w * 1024 else (w - 0x8000) * 65536).
Proof. exact size_bytes. Qed.
Print Assumptions C28_size_bytes.
Theorem C28_size2_bytes : forall c w, w < 2 ^ 32 ->
  CacheSize2_bytes c (CacheSize2_from w) = Val (if w <? 0x80000000 then w * 1024 else (w - 0x80000000) * 65536).
Proof. exact size2_bytes. Qed.
Print Assumptions C28_size2_bytes.

Definition ex_cache_data : list N :=
  [1; 0xA9; 0x01; 0x00; 0x01; 0x04; 0x80; 0x21; 0x01; 0x20; 0x00; 10; 5; 4; 7; 0x00; 0x01; 0; 0; 0x04; 0; 0; 0x80].
Definition ex_cache ma mi := ex_struct ma mi InfoType_Cache ex_cache_data [].
Example C28_example :
  Cache_try_from ex_strict (ex_cache 3 2) = Val (Ok {|
    cache_handle := 7; cache_socket_designation := [65];
    cache_cache_configuration := {| level := CacheLevel_L2; socketed := true; location := CacheLocation_External;
      enabled_at_boot_time := true; operational_mode := CacheOperationalMode_WriteBack |};
    cache_maximum_cache_size := Granularity1K 256; cache_installed_size := Granularity64K 4;
    cache_supported_sram_type := 0x21; cache_current_sram_type := 0x20; cache_cache_speed := Some 10;
    cache_error_correction_type := Some CacheErrorCorrectionType_SingleBitEcc; cache_system_cache_type := Some SystemCacheType_Data;
    cache_associativity := Some CacheAssociativity_EightWaySetAssociative;
    cache_maximum_cache_size_2 := Some (Granularity1K_2 256); cache_installed_size_2 := Some (Granularity64K_2 4) |}) /\
  all_bytes ex_cache_data /\ from_version {| major := 3; minor := 2 |} 2 1 /\ Cache_area {| major := 3; minor := 2 |} <= len ex_cache_data /\
  omap (rmap cache_installed_size_2) (Cache_try_from ex_strict (ex_cache 3 1)) = Val (Ok None) /\
  omap (rmap cache_cache_speed) (Cache_try_from ex_strict (ex_cache 2 1)) = Val (Ok None) /\
  Cache_try_from ex_strict (ex_cache 2 0) = Panic.
Proof.
  split; [reflexivity|]. split; [apply all_bytes_dec; reflexivity|]. split; [left; reflexivity|]. split; [vm_compute; discriminate|].
  repeat split.
Qed.

(* ------------------------------------------------------------- C29, type 8 *)

Theorem C29_port_decodes : forall c r s, 5 <= len (data r) ->
  (PortConnector_try_from c r = Val (Ok s) <-> PortConnector_says r s).
Proof. exact PortConnector_ok. Qed.
Print Assumptions C29_port_decodes.
Theorem C29_port_errors : forall c r e, 5 <= len (data r) ->
  (PortConnector_try_from c r = Val (Err e) <-> first_bad_text r [0x04; 0x06] e).
Proof. exact PortConnector_err. Qed.
Print Assumptions C29_port_errors.
Theorem C29_port_returns : forall c r, 5 <= len (data r) -> exists o, PortConnector_try_from c r = Val o.
Proof. exact PortConnector_returns. Qed.
Print Assumptions C29_port_returns.

Definition ex_port_data : list N := [1; 0; 2; 8; 0x09].
Example C29_example :
  PortConnector_try_from ex_strict (ex_struct 2 7 InfoType_PortConnector ex_port_data []) = Val (Ok {|
    port_handle := 7; port_internal_reference_designator := [65]; port_internal_connector_type := ConnectorType_None;
    port_external_reference_designator := [66; 67]; port_external_connector_type := ConnectorType_from 8;
    port_port_type := PortType_from 9 |}) /\ 5 <= len ex_port_data /\
  PortConnector_try_from ex_strict (ex_struct 2 7 InfoType_PortConnector [1; 0; 9; 8; 9] []) =
    Val (Err (InvalidStringIndex InfoType_PortConnector 7 9)).
Proof. split; [reflexivity|]. split; [vm_compute; discriminate|reflexivity]. Qed.

(* ------------------------------------------------------------- C30, type 9 *)

(* Any length, version and contents: a structure of an admissible length with the
   required fields decodes to what it says, every other one to an error. *)
Theorem C30_slots_decodes : forall c r s, all_bytes (data r) ->
  (SystemSlots_try_from c r = Val (Ok s) <-> length_ok r (SystemSlots_length (version r)) /\ SystemSlots_says r s).
Proof. exact SystemSlots_ok. Qed.
Print Assumptions C30_slots_decodes.
Theorem C30_slots_errors : forall c r e, all_bytes (data r) ->
  (SystemSlots_try_from c r = Val (Err e) <->
   length_error r InfoType_SystemSlots (SystemSlots_length (version r)) e \/
   (length_ok r (SystemSlots_length (version r)) /\ first_failure r SystemSlots_needs e)).
Proof. exact SystemSlots_err. Qed.
Print Assumptions C30_slots_errors.
Theorem C30_slots_returns : forall c r, all_bytes (data r) -> exists o, SystemSlots_try_from c r = Val o.
Proof. exact SystemSlots_total. Qed.
Print Assumptions C30_slots_returns.

(* Iterating the peer devices yields the groups the structure counts, in order. *)
Theorem C30_peers : forall c r s p,
  all_bytes (data r) -> SystemSlots_try_from c r = Val (Ok s) -> slots_peer_devices s = Some p ->
  exists recs ds p', bytes_at r 0x13 (5 * peer_count r) (concat recs) /\ len recs = peer_count r /\
    drains PeerDevices_next p ds p' /\ Forall2 device_means recs ds.
Proof. exact slots_peers. Qed.
Print Assumptions C30_peers.

(* Device and function numbers, and peer devices, survive the way to bytes and back. *)
Theorem C30_function_round_trip : forall k, k < 256 -> DeviceAndFunctionNumber_to (DeviceAndFunctionNumber_from k) = k.
Proof. exact function_round. Qed.
Print Assumptions C30_function_round_trip.
Theorem C30_function_back : forall df, dev df < 32 -> fun_ df < 8 -> DeviceAndFunctionNumber_from (DeviceAndFunctionNumber_to df) = df.
Proof. exact function_back. Qed.
Print Assumptions C30_function_back.
Theorem C30_device_round_trip : forall l d, all_bytes l -> len l = 5 -> Device_from l = Val d -> Device_to d = l.
Proof. exact device_round. Qed.
Print Assumptions C30_device_round_trip.

Definition ex_slots_data (gap : N) : list N :=
  [1; 0xA5; 0x0D; 3; 4; 0x34; 0x12; 0x0C; 0x03; 0xFF; 0xFF; 5; 0x21; 0x10; 2; 1; 0; 6; 0x10; 8; 2; 0; 7; 0x11; 4; gap; 9; 0x0B; 0x90; 0x01].
Definition ex_slots (gap : N) := ex_struct 3 4 InfoType_SystemSlots (ex_slots_data gap) [].
Example C30_example :
  exists p, SystemSlots_try_from ex_strict (ex_slots 0xEE) = Val (Ok {|
    slots_handle := 7; slots_slot_designation := [65]; slots_slot_type := SlotType_from 0xA5; slots_slot_data_bus_width := SlotWidth_X16;
    slots_current_usage := CurrentUsage_Available; slots_slot_length := SlotLength_LongLength; slots_slot_id := 0x1234;
    slots_slot_characteristics_1 := 0x0C; slots_slot_characteristics_2 := Some 3; slots_segment_group_number := None;
    slots_bus_number := Some 5; slots_device_and_function_number := Some {| dev := 4; fun_ := 1 |};
    slots_data_bus_width := Some 16; slots_peer_devices := Some p; slots_slot_information := Some 9;
    slots_slot_physical_width := Some SlotWidth_X8; slots_slot_pitch := Some 400 |}) /\
  (exists p', drains PeerDevices_next p
    [{| device_segment_group_number := 1; device_bus_number := 6; device_device_and_function_number := {| dev := 2; fun_ := 0 |};
        device_data_bus_width := 8 |};
     {| device_segment_group_number := 2; device_bus_number := 7; device_device_and_function_number := {| dev := 2; fun_ := 1 |};
        device_data_bus_width := 4 |}] p') /\
  all_bytes (data (ex_slots 0xEE)) /\ length_ok (ex_slots 0xEE) (SystemSlots_length (version (ex_slots 0xEE))) /\
  (* one byte short: refused *)
  SystemSlots_try_from ex_strict (ex_struct 3 4 InfoType_SystemSlots (take 12 (ex_slots_data 0)) []) =
    Val (Err (InvalidFormattedSectionLength InfoType_SystemSlots 7 "minimum of " 0x11)).
Proof.
  eexists. split; [reflexivity|]. split.
  { eexists. eapply drains_cons; [reflexivity|]. eapply drains_cons; [reflexivity|]. apply drains_nil. reflexivity. }
  split; [apply all_bytes_dec; reflexivity|]. split; [vm_compute; discriminate|reflexivity].
Qed.
(* the byte between the last peer group and the slot information is not looked at *)
Example C30_gap : SystemSlots_try_from ex_strict (ex_slots 0xEE) = SystemSlots_try_from ex_strict (ex_slots 0).
Proof. reflexivity. Qed.
