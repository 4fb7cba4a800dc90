(* Properties C22-C26: BIOS, system, baseboard and enclosure (types 0 to 3).
   Vocabulary: S_System.v (X_says: one clause per field; X_area: the bytes the
   version of the structure has after the header), S_Decode.v, Spec.v. *)
From Coq Require Import String.
From Coq Require Import ZArith Lia ZifyBool ZifyNat ZifyN.
From Verif Require Import Base G_Enums M_Raw M_Bios M_System M_BaseBoard M_Enclosure.
From Verif Require Import Spec S_Enums S_Iter S_Decode S_System L_Base L_Decode L_System L_Enclosure.
Local Open Scope N_scope.

Definition ex_strict : cfg := {| overflow_checks := true; flat_memory := false; pointer_width := W64 |}.
Definition ex_flat : cfg := {| overflow_checks := false; flat_memory := true; pointer_width := W64 |}.

(* a structure with the strings "A", "BC" and "D" *)
Definition ex_struct (ma mi : N) (i : InfoType) (d rest : list N) : RawStructure := {|
  version := {| major := ma; minor := mi |}; info := i; length_ := 4 + len d; handle := 7;
  data := d; strings := [65; 0; 66; 67; 0; 68; 0; 0]; after := rest |}.

(* ------------------------------------------------------------- C22, type 0 *)

(* With at least the bytes of its version, a BIOS structure is decoded to b exactly
   when every field of b is what the structure holds at the field's offset. *)
Theorem C22_bios_decodes : forall c r b, Bios_area (version r) <= len (data r) ->
  (Bios_try_from c r = Val (Ok b) <-> Bios_says r b).
Proof. exact Bios_ok. Qed.
Print Assumptions C22_bios_decodes.

(* The only error is that of the first text without a string. *)
Theorem C22_bios_errors : forall c r e, Bios_area (version r) <= len (data r) ->
  (Bios_try_from c r = Val (Err e) <-> first_bad_text r [0x04; 0x05; 0x08] e).
Proof. exact Bios_err. Qed.
Print Assumptions C22_bios_errors.

Theorem C22_bios_returns : forall c r, Bios_area (version r) <= len (data r) ->
  exists o, Bios_try_from c r = Val o.
Proof. exact Bios_returns. Qed.
Print Assumptions C22_bios_returns.

Definition ex_bios_data : list N :=
  [1; 2; 0x00; 0xE8; 3; 0x7F; 1; 2; 3; 4; 5; 6; 7; 8; 0x33; 0x0D; 2; 11; 0xFF; 0xFE; 0x10; 0x40].
Example C22_example :
  Bios_try_from ex_strict (ex_struct 3 1 InfoType_Bios ex_bios_data []) = Val (Ok {|
    bios_handle := 7; bios_vendor := [65]; bios_bios_version := [66; 67]; bios_starting_address_segment := 0xE800;
    bios_release_date := [68]; bios_rom_size := {| basic := 0x7F; extended := Some 0x4010 |};
    bios_characteristics := 0x0807060504030201; bios_characteristics_extension_1 := Some 0x33;
    bios_characteristics_extension_2 := Some 0x0D; bios_revision := Some {| rev_major := 2; rev_minor := 11 |};
    bios_firmware_revision := Some {| rev_major := 255; rev_minor := 254 |} |}) /\
  Bios_area {| major := 3; minor := 1 |} <= len ex_bios_data /\
  (* below 2.4 the extension bytes are not looked at *)
  omap ok (Bios_try_from ex_strict (ex_struct 2 3 InfoType_Bios (take 14 ex_bios_data) [])) = Val (Some {|
    bios_handle := 7; bios_vendor := [65]; bios_bios_version := [66; 67]; bios_starting_address_segment := 0xE800;
    bios_release_date := [68]; bios_rom_size := {| basic := 0x7F; extended := None |};
    bios_characteristics := 0x0807060504030201; bios_characteristics_extension_1 := None;
    bios_characteristics_extension_2 := None; bios_revision := None; bios_firmware_revision := None |}).
Proof. split; [reflexivity|]. split; [vm_compute; discriminate|reflexivity]. Qed.

(* --------------------------------------------------------------- C23 *)

(* the basic size counts 64 KiB blocks, less one *)
Theorem C23_basic : forall c s, basic s < 0xFF -> RomSize_to_u64 c s = Val ((basic s + 1) * (64 * 1024)).
Proof. exact rom_basic. Qed.
Print Assumptions C23_basic.

(* FFh refers to the extended size: bits 13:0 in MiB (unit 00) or GiB (unit 01) *)
Theorem C23_extended : forall c s e, basic s = 0xFF -> extended s = Some e -> e < 0x10000 ->
  RomSize_to_u64 c s =
  if e <? 0x4000 then Val (e * 1024 * 1024) else if e <? 0x8000 then Val ((e - 0x4000) * 1024 * 1024 * 1024) else Panic.
Proof. exact rom_extended. Qed.
Print Assumptions C23_extended.

(* "converting a size never panics" is false; it does exactly here *)
Theorem C23_panics_exactly : forall c s, basic s < 256 -> (forall e, extended s = Some e -> e < 0x10000) ->
  (RomSize_to_u64 c s = Panic <->
   basic s = 0xFF /\ (extended s = None \/ exists e, extended s = Some e /\ 0x8000 <= e)).
Proof. exact rom_panics. Qed.
Print Assumptions C23_panics_exactly.

(* and a decoded structure can hold such a size, in any build *)
Theorem C23_never_panics_refuted : forall c, exists r b,
  all_bytes (data r) /\ Bios_try_from c r = Val (Ok b) /\ RomSize_to_u64 c (bios_rom_size b) = Panic.
Proof.
  intros c. exists (ex_struct 2 7 InfoType_Bios [0; 0; 0; 0; 0; 0xFF; 0; 0; 0; 0; 0; 0; 0; 0; 0; 0; 0; 0; 0; 0] []).
  eexists. split; [apply all_bytes_dec; reflexivity|]. split; reflexivity.
Qed.
Print Assumptions C23_never_panics_refuted.

Example C23_example :
  RomSize_to_u64 ex_strict {| basic := 0x7F; extended := None |} = Val (8 * 1024 * 1024) /\
  RomSize_to_u64 ex_strict {| basic := 0xFF; extended := Some 0x4002 |} = Val (2 * 1024 * 1024 * 1024) /\
  RomSize_to_u64 ex_strict {| basic := 0xFF; extended := Some 16 |} = Val (16 * 1024 * 1024).
Proof. repeat split. Qed.

(* ------------------------------------------------------------- C24, type 1 *)

Theorem C24_system_decodes : forall c r s, System_area (version r) <= len (data r) ->
  (System_try_from c r = Val (Ok s) <-> System_says r s).
Proof. exact System_ok. Qed.
Print Assumptions C24_system_decodes.

Theorem C24_system_errors : forall c r e, System_area (version r) <= len (data r) ->
  (System_try_from c r = Val (Err e) <-> first_bad_text r (System_texts (version r)) e).
Proof. exact System_err. Qed.
Print Assumptions C24_system_errors.

Theorem C24_system_returns : forall c r, System_area (version r) <= len (data r) ->
  exists o, System_try_from c r = Val o.
Proof. exact System_returns. Qed.
Print Assumptions C24_system_returns.

Definition ex_system_data : list N :=
  [1; 2; 3; 0; 0x33; 0x22; 0x11; 0x00; 0x55; 0x44; 0x77; 0x66; 0x88; 0x99; 0xAA; 0xBB; 0xCC; 0xDD; 0xEE; 0xFF; 6; 1; 2].
Example C24_example :
  System_try_from ex_strict (ex_struct 2 7 InfoType_System ex_system_data []) = Val (Ok {|
    system_handle := 7; system_manufacturer := [65]; system_product := [66; 67]; system_version := [68]; system_serial := [];
    system_uuid := Some [0x00; 0x11; 0x22; 0x33; 0x44; 0x55; 0x66; 0x77; 0x88; 0x99; 0xAA; 0xBB; 0xCC; 0xDD; 0xEE; 0xFF];
    system_wakeup := Some WakeupType_Power_Switch; system_sku := Some [65]; system_family := Some [66; 67] |}) /\
  System_area {| major := 2; minor := 7 |} <= len ex_system_data /\
  (* before 2.6 the bytes of the UUID are not swapped *)
  omap (rmap system_uuid) (System_try_from ex_strict (ex_struct 2 5 InfoType_System ex_system_data [])) =
    Val (Ok (Some [0x33; 0x22; 0x11; 0x00; 0x55; 0x44; 0x77; 0x66; 0x88; 0x99; 0xAA; 0xBB; 0xCC; 0xDD; 0xEE; 0xFF])).
Proof. split; [reflexivity|]. split; [vm_compute; discriminate|reflexivity]. Qed.

(* ------------------------------------------------------------- C25, type 2 *)

(* b is r when r has the ten bytes, and r followed by the bytes after it when the
   decoder reads on into those (see C42). *)
Theorem C25_baseboard_decodes : forall c r b s, readable c 10 r b ->
  (BaseBoard_try_from c r = Val (Ok s) <-> BaseBoard_says b r s).
Proof. exact BaseBoard_ok. Qed.
Print Assumptions C25_baseboard_decodes.

Theorem C25_baseboard_errors : forall c r b e, readable c 10 r b ->
  (BaseBoard_try_from c r = Val (Err e) <-> first_bad_text b (BaseBoard_texts r) e).
Proof. exact BaseBoard_err. Qed.
Print Assumptions C25_baseboard_errors.

Theorem C25_baseboard_returns : forall c r b, readable c 10 r b -> exists o, BaseBoard_try_from c r = Val o.
Proof. exact BaseBoard_returns. Qed.
Print Assumptions C25_baseboard_returns.

(* "the chassis handle is present only if its two bytes are in the structure" is
   false: with one of them there, the other is taken from what follows *)
Theorem C25_chassis_handle_inside_refuted : exists c r s h,
  BaseBoard_try_from c r = Val (Ok s) /\ baseboard_chassis_handle s = Some h /\ ~ reaches r 0x0B 2.
Proof.
  exists ex_flat, (ex_struct 2 7 InfoType_BaseBoard [1; 2; 3; 0; 0; 1; 0; 0x34] [0x12; 10; 0; 0]).
  do 2 eexists. split; [reflexivity|]. split; [reflexivity|]. vm_compute. intros H. apply H. reflexivity.
Qed.
Print Assumptions C25_chassis_handle_inside_refuted.

Example C25_example :
  BaseBoard_try_from ex_strict (ex_struct 2 7 InfoType_BaseBoard [1; 2; 3; 0; 1; 0xE9; 2; 0x34; 0x12; 10] []) = Val (Ok {|
    baseboard_handle := 7; baseboard_manufacturer := [65]; baseboard_product := [66; 67]; baseboard_version := [68];
    baseboard_serial := []; baseboard_asset := Some [65]; baseboard_feature_flags := Some 9;
    baseboard_location_in_chassis := Some [66; 67]; baseboard_chassis_handle := Some 0x1234;
    baseboard_board_type := Some BoardType_MotherBoard |}) /\
  readable ex_strict 10 (ex_struct 2 7 InfoType_BaseBoard [1; 2; 3; 0; 1; 0xE9; 2; 0x34; 0x12; 10] [])
                        (ex_struct 2 7 InfoType_BaseBoard [1; 2; 3; 0; 1; 0xE9; 2; 0x34; 0x12; 10] []).
Proof. split; [reflexivity|]. left. split; [vm_compute; discriminate|reflexivity]. Qed.

(* ------------------------------------------------------------- C26, type 3 *)

(* record_bytes r is count times length of the contained element records, computed
   in one byte; Enclosure_fits c r excludes the builds that panic on that. *)
Theorem C26_enclosure_decodes : forall c r s,
  all_bytes (data r) -> 5 <= len (data r) -> Enclosure_fits c r ->
  (Enclosure_try_from c r = Val (Ok s) <-> Enclosure_says r s).
Proof. exact Enclosure_ok. Qed.
Print Assumptions C26_enclosure_decodes.

Theorem C26_enclosure_errors : forall c r e, 5 <= len (data r) -> Enclosure_fits c r ->
  (Enclosure_try_from c r = Val (Err e) <-> first_bad_text r (Enclosure_texts r) e).
Proof. exact Enclosure_err. Qed.
Print Assumptions C26_enclosure_errors.

(* a structure of less than nine bytes is refused (the error says five) *)
Theorem C26_enclosure_short : forall c r, len (data r) < 5 ->
  Enclosure_try_from c r = Val (Err (InvalidFormattedSectionLength (info r) (handle r) "minimum of " 5)).
Proof. exact Enclosure_short. Qed.
Print Assumptions C26_enclosure_short.

Theorem C26_enclosure_panics_exactly : forall c r,
  Enclosure_try_from c r = Panic <->
  overflow_checks c = true /\ records_overflow r /\
  (forall o, In o [0x04; 0x06; 0x07; 0x08] -> exists t, text_field r o t).
Proof. exact Enclosure_panic. Qed.
Print Assumptions C26_enclosure_panics_exactly.

Theorem C26_enclosure_in_bounds : forall c r, Enclosure_try_from c r <> UB.
Proof. exact Enclosure_no_ub. Qed.
Print Assumptions C26_enclosure_in_bounds.

(* Iterating the contained elements of a decoded structure yields its n records of
   m bytes, in order, each with the meaning of its first three bytes. *)
Theorem C26_elements : forall c r s e n m,
  all_bytes (data r) -> 5 <= len (data r) -> Enclosure_fits c r ->
  Enclosure_try_from c r = Val (Ok s) -> enclosure_contained_elements s = Some e ->
  field_is r 0x13 1 n -> field_is r 0x14 1 m -> n * m < 256 -> 3 <= m ->
  exists recs l e', take (n * m) (drop (0x15 - 4) (data r)) = concat recs /\ len recs = n /\
    Forall (fun rec => len rec = m) recs /\
    drains (ContainedElements_next c) e l e' /\ Forall2 element_means recs l.
Proof. exact Enclosure_elements. Qed.
Print Assumptions C26_elements.

(* Records of one or two bytes are read past their end. *)
Theorem C26_short_records_overread : forall c e,
  flat_memory c = false -> ce_record_length e < 3 -> ce_chunks e <> [] -> ContainedElements_next c e = UB.
Proof. exact elements_short_ub. Qed.
Print Assumptions C26_short_records_overread.

Theorem C26_short_records_exactly : forall c e, ContainedElements_next c e = UB <->
  ce_chunks e <> [] /\ len (take (ce_record_length e) (ce_chunks e)) < 3 /\
  (flat_memory c = false \/ len (ce_chunks e ++ ce_after e) < 3).
Proof. exact elements_ub_iff. Qed.
Print Assumptions C26_short_records_exactly.

(* Where memory past the end can be read, such a record shows the bytes after it, and
   iteration advances by the length the structure announces. *)
Theorem C26_short_records_flat : forall c e,
  flat_memory c = true -> ce_chunks e <> [] -> all_bytes (ce_chunks e) -> 3 <= len (ce_chunks e ++ ce_after e) ->
  exists x, ContainedElements_next c e = Val (Some x, {| ce_chunks := drop (ce_record_length e) (ce_chunks e);
      ce_after := ce_after e; ce_count := ce_count e; ce_record_length := ce_record_length e |}) /\
    element_means (ce_chunks e ++ ce_after e) x.
Proof. exact elements_flat. Qed.
Print Assumptions C26_short_records_flat.
Example C26_short_records_example :
  let e := {| ce_chunks := [0x0A; 0x91]; ce_after := [7; 8]; ce_count := 2; ce_record_length := 1 |} in
  drains (ContainedElements_next ex_flat) e
    [{| cel_type := CE_BoardType BoardType_MotherBoard; cel_minimum := 0x91; cel_maximum := 7 |};
     {| cel_type := CE_InfoType InfoType_MemoryDevice; cel_minimum := 7; cel_maximum := 8 |}]
    {| ce_chunks := []; ce_after := [7; 8]; ce_count := 2; ce_record_length := 1 |} /\
  ContainedElements_next ex_strict e = UB.
Proof.
  cbv zeta. split; [|reflexivity].
  eapply drains_cons; [reflexivity|]. eapply drains_cons; [reflexivity|]. apply drains_nil. reflexivity.
Qed.

Definition ex_enclosure : RawStructure := ex_struct 2 7 InfoType_Enclosure
  [1; 0x83; 2; 3; 0; 3; 3; 2; 3; 0x78; 0x56; 0x34; 0x12; 4; 2; 2; 3; 0x0A; 1; 2; 0x91; 0; 9; 3] [].
Example C26_example :
  exists e, Enclosure_try_from ex_strict ex_enclosure = Val (Ok {|
    enclosure_handle := 7; enclosure_manufacturer := [65]; enclosure_chassis_lock := true;
    enclosure_enclosure_type := EnclosureType_Desktop; enclosure_version := [66; 67]; enclosure_serial_number := [68];
    enclosure_asset_tag_number := []; enclosure_boot_up_state := Some State_Safe;
    enclosure_power_supply_state := Some State_Safe; enclosure_thermal_state := Some State_Unknown;
    enclosure_security_status := Some SecurityStatus_None; enclosure_oem_defined := Some 0x12345678;
    enclosure_height := Some 4; enclosure_power_cords_number := Some 2; enclosure_contained_elements := Some e;
    enclosure_sku_number := Some [68] |}) /\
  (exists e', drains (ContainedElements_next ex_strict) e
    [{| cel_type := CE_BoardType BoardType_MotherBoard; cel_minimum := 1; cel_maximum := 2 |};
     {| cel_type := CE_InfoType InfoType_MemoryDevice; cel_minimum := 0; cel_maximum := 9 |}] e') /\
  Enclosure_fits ex_strict ex_enclosure /\ field_is ex_enclosure 0x13 1 2 /\ field_is ex_enclosure 0x14 1 3 /\
  all_bytes (data ex_enclosure) /\ 5 <= len (data ex_enclosure).
Proof.
  eexists. split; [reflexivity|]. split.
  { eexists. eapply drains_cons; [reflexivity|]. eapply drains_cons; [reflexivity|]. apply drains_nil. reflexivity. }
  split; [|split; [reflexivity|split; [reflexivity|split; [apply all_bytes_dec; reflexivity|vm_compute; discriminate]]]].
  intros _ [n [m [H1 [H2 H3]]]]. vm_compute in H1, H2. injection H1 as <-. injection H2 as <-. lia.
Qed.
(* a structure meeting the panic condition: 16 records of 16 bytes *)
Example C26_panic_example :
  Enclosure_try_from ex_strict (ex_struct 2 7 InfoType_Enclosure [1; 3; 2; 3; 0; 3; 3; 2; 3; 0; 0; 0; 0; 4; 2; 16; 16] []) = Panic.
Proof. reflexivity. Qed.
