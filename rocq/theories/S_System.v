(* What the decoders of types 0 to 3 are to return (SMBIOS 7.1 to 7.4). *)
From Coq Require Import String.
From Verif Require Import Base G_Enums M_Raw M_Bios M_System M_BaseBoard M_Enclosure Spec S_Enums S_Iter S_Decode.
Local Open Scope N_scope.

(* ------------------------------------------------------------ type 0, BIOS *)

(* the bytes after the header that the structure has in its version *)
Definition Bios_area (v : SmbiosVersion) : N :=
  if since v 3 1 then 22 else if since v 2 4 then 20 else 14.

Record Bios_says (r : RawStructure) (b : Bios) : Prop := {
  _ : bios_handle b = handle r;
  _ : text_field r 0x04 (bios_vendor b);
  _ : text_field r 0x05 (bios_bios_version b);
  _ : field_is r 0x06 2 (bios_starting_address_segment b);
  _ : text_field r 0x08 (bios_release_date b);
  _ : field_is r 0x09 1 (basic (bios_rom_size b));
  _ : field_is r 0x0A 8 (bios_characteristics b);
  _ : when (from_version (version r) 2 4) (field_is r 0x12 1) (bios_characteristics_extension_1 b);
  _ : when (from_version (version r) 2 4) (field_is r 0x13 1) (bios_characteristics_extension_2 b);
  _ : when (from_version (version r) 2 4)
        (fun x => field_is r 0x14 1 (rev_major x) /\ field_is r 0x15 1 (rev_minor x)) (bios_revision b);
  _ : when (from_version (version r) 2 4)
        (fun x => field_is r 0x16 1 (rev_major x) /\ field_is r 0x17 1 (rev_minor x)) (bios_firmware_revision b);
  _ : when (from_version (version r) 3 1) (field_is r 0x18 2) (extended (bios_rom_size b))
}.

(* ---------------------------------------------------------- type 1, system *)

Definition System_area (v : SmbiosVersion) : N :=
  if since v 2 4 then 23 else if since v 2 1 then 21 else 4.

(* the UUID in network order: from 2.6 its first three parts are stored little
   endian, before that all sixteen bytes are stored as they are *)
Definition uuid_field (r : RawStructure) (u : list N) : Prop :=
  exists b0 b1 b2 b3 b4 b5 b6 b7 b8 b9 b10 b11 b12 b13 b14 b15 pre post,
    data r = pre ++ [b0; b1; b2; b3; b4; b5; b6; b7; b8; b9; b10; b11; b12; b13; b14; b15] ++ post /\
    len pre = 0x08 - 4 /\
    (before_version (version r) 2 6 -> u = [b0; b1; b2; b3; b4; b5; b6; b7; b8; b9; b10; b11; b12; b13; b14; b15]) /\
    (from_version (version r) 2 6 -> u = [b3; b2; b1; b0; b5; b4; b7; b6; b8; b9; b10; b11; b12; b13; b14; b15]).

Record System_says (r : RawStructure) (s : System) : Prop := {
  _ : system_handle s = handle r;
  _ : text_field r 0x04 (system_manufacturer s);
  _ : text_field r 0x05 (system_product s);
  _ : text_field r 0x06 (system_version s);
  _ : text_field r 0x07 (system_serial s);
  _ : when (from_version (version r) 2 1) (uuid_field r) (system_uuid s);
  _ : when (from_version (version r) 2 1) (code_field r 0x18 1 WakeupType_codes WakeupType_Undefined) (system_wakeup s);
  _ : when (from_version (version r) 2 4) (text_field r 0x19) (system_sku s);
  _ : when (from_version (version r) 2 4) (text_field r 0x1A) (system_family s)
}.

(* the texts a system structure has, in the order in which they are looked up *)
Definition System_texts (v : SmbiosVersion) : list N :=
  [0x04; 0x05; 0x06; 0x07] ++ (if since v 2 4 then [0x19; 0x1A] else []).

(* ------------------------------------------------------- type 2, baseboard *)

(* The decoder always copies ten bytes.  [b] is the structure whose bytes it finds
   there: r itself when r has ten bytes after its header. *)
Record BaseBoard_says (b r : RawStructure) (s : BaseBoard) : Prop := {
  _ : baseboard_handle s = handle r;
  _ : text_field b 0x04 (baseboard_manufacturer s);
  _ : text_field b 0x05 (baseboard_product s);
  _ : text_field b 0x06 (baseboard_version s);
  _ : text_field b 0x07 (baseboard_serial s);
  _ : when (reaches r 0x08 1) (text_field b 0x08) (baseboard_asset s);
  _ : when (reaches r 0x09 1) (flags_field b 0x09 1 [0; 1; 2; 3; 4]) (baseboard_feature_flags s);
  _ : when (reaches r 0x0A 1) (text_field b 0x0A) (baseboard_location_in_chassis s);
  _ : when (reaches r 0x0B 1) (field_is b 0x0B 2) (baseboard_chassis_handle s);
  _ : when (reaches r 0x0D 1) (code_field b 0x0D 1 BoardType_codes BoardType_Undefined) (baseboard_board_type s)
}.

(* the texts a baseboard structure has, in the order in which they are looked up *)
Definition BaseBoard_texts (r : RawStructure) : list N :=
  (if 5 <=? len (data r) then [0x08] else []) ++ (if 7 <=? len (data r) then [0x0A] else []) ++
  [0x04; 0x05; 0x06; 0x07].

(* ------------------------------------------------------- type 3, enclosure *)

(* the number of bytes of the contained element records: count times length, as
   the crate computes it (in one byte) *)
Definition record_bytes (r : RawStructure) : N :=
  match field r 0x13 1, field r 0x14 1 with
  | Some n, Some m => (n * m) mod 256
  | _, _ => 0
  end.

(* count times length does not fit into one byte *)
Definition records_overflow (r : RawStructure) : Prop :=
  exists n m, field_is r 0x13 1 n /\ field_is r 0x14 1 m /\ 256 <= n * m.

(* the build does not stop at that *)
Definition Enclosure_fits (c : cfg) (r : RawStructure) : Prop := overflow_checks c = true -> ~ records_overflow r.

(* the records, and (for reads that leave a record) the memory after them *)
Definition elements_field (r : RawStructure) (e : ContainedElements) : Prop :=
  field_is r 0x13 1 (ce_count e) /\ field_is r 0x14 1 (ce_record_length e) /\
  ce_chunks e = take (record_bytes r) (drop (0x15 - 4) (data r)) /\
  ce_after e = (if (ce_count e =? 0) || (ce_record_length e =? 0) then []
                else drop (record_bytes r) (drop (0x15 - 4) (data r)) ++ after r).

Record Enclosure_says (r : RawStructure) (s : Enclosure) : Prop := {
  _ : enclosure_handle s = handle r;
  _ : text_field r 0x04 (enclosure_manufacturer s);
  _ : mapped_field r 0x05 1 (fun k => 128 <=? k) (enclosure_chassis_lock s);
  _ : mapped_field r 0x05 1 (fun k => meaning EnclosureType_codes EnclosureType_Undefined (k mod 128)) (enclosure_enclosure_type s);
  _ : text_field r 0x06 (enclosure_version s);
  _ : text_field r 0x07 (enclosure_serial_number s);
  _ : text_field r 0x08 (enclosure_asset_tag_number s);
  _ : when (reaches r 0x09 1) (code_field r 0x09 1 State_codes State_Undefined) (enclosure_boot_up_state s);
  _ : when (reaches r 0x0A 1) (code_field r 0x0A 1 State_codes State_Undefined) (enclosure_power_supply_state s);
  _ : when (reaches r 0x0B 1) (code_field r 0x0B 1 State_codes State_Undefined) (enclosure_thermal_state s);
  _ : when (reaches r 0x0C 1) (code_field r 0x0C 1 SecurityStatus_codes SecurityStatus_Undefined) (enclosure_security_status s);
  _ : if_there r 0x0D 4 (enclosure_oem_defined s);
  _ : if_there r 0x11 1 (enclosure_height s);
  _ : if_there r 0x12 1 (enclosure_power_cords_number s);
  _ : when (reaches r 0x15 (record_bytes r)) (elements_field r) (enclosure_contained_elements s);
  _ : when (reaches r (0x15 + record_bytes r) 1) (text_field r (0x15 + record_bytes r)) (enclosure_sku_number s)
}.

Definition Enclosure_texts (r : RawStructure) : list N :=
  [0x04; 0x06; 0x07; 0x08] ++
  (if 0x15 + record_bytes r + 1 <=? 4 + len (data r) then [0x15 + record_bytes r] else []).

(* one contained element record: what it contains (bit 7 clear: a kind of board, bit
   7 set: a structure type), and how many of them at least and at most *)
Definition element_means (rec : list N) (x : ContainedElement) : Prop :=
  exists t lo hi more, rec = t :: lo :: hi :: more /\
    (t < 128 -> cel_type x = CE_BoardType (meaning BoardType_codes BoardType_Undefined t)) /\
    (128 <= t -> exists i, cel_type x = CE_InfoType i /\ type_number i = t - 128) /\
    cel_minimum x = lo /\ cel_maximum x = hi.
