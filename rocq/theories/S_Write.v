(* Writing structures: for every structure type, the bytes a firmware author writes
   for given values (SMBIOS 7.1 to 7.23), and the value a caller is to get back. *)
From Verif Require Import Base G_Enums M_Raw M_Bios M_System M_BaseBoard M_Enclosure M_Processor M_Cache.
From Verif Require Import M_PortConnector M_SystemSlots M_Strings M_GroupAssociations M_SystemEventLog.
From Verif Require Import M_PhysicalMemoryArray M_MemoryDevice M_Memory M_PortableBattery M_Iter.
From Verif Require Import Spec S_Enums S_Iter S_Decode S_System S_Hardware S_Lists S_EventLog S_Memory.
Local Open Scope N_scope.

(* ------------------------------------------------------ the formatted area *)

(* one field: a number of 1, 2, 4 or 8 bytes, a text, or some bytes as they are *)
Inductive item := U8 (x : N) | U16 (x : N) | U32 (x : N) | U64 (x : N) | Ref (t : text) | Raw (l : list N).

Definition item_size (i : item) : N :=
  match i with U8 _ => 1 | U16 _ => 2 | U32 _ => 4 | U64 _ => 8 | Ref _ => 1 | Raw l => len l end.
Definition sizes (l : list item) : N := total (map item_size l).

Definition item_ok (i : item) : Prop :=
  match i with
  | U8 x => x < 2 ^ 8 | U16 x => x < 2 ^ 16 | U32 x => x < 2 ^ 32 | U64 x => x < 2 ^ 64
  | Ref t => t = [] \/ good_string t
  | Raw l => all_bytes l
  end.

(* x in w bytes, least significant first *)
Fixpoint stored (w : nat) (x : N) : list N :=
  match w with O => [] | S w => x mod 256 :: stored w (x / 256) end.

(* The bytes.  A text is written as the number of its string, counted from k; the
   empty text is written as 0 and takes no string. *)
Fixpoint formatted (k : N) (l : list item) : list N :=
  match l with
  | [] => []
  | U8 x :: l => stored 1 x ++ formatted k l
  | U16 x :: l => stored 2 x ++ formatted k l
  | U32 x :: l => stored 4 x ++ formatted k l
  | U64 x :: l => stored 8 x ++ formatted k l
  | Raw b :: l => b ++ formatted k l
  | Ref [] :: l => 0 :: formatted k l
  | Ref (_ :: _) :: l => k :: formatted (k + 1) l
  end.

(* the strings, in this order *)
Fixpoint texts (l : list item) : list text :=
  match l with
  | [] => []
  | Ref (b :: t) :: l => (b :: t) :: texts l
  | _ :: l => texts l
  end.

(* a structure to write: type, handle, fields, and further strings *)
Record written := { w_type : N; w_handle : N; w_items : list item; w_more : list text }.

Definition encoded (w : written) : encodable := {|
  e_type := w_type w; e_handle := w_handle w;
  e_body := formatted 1 (w_items w); e_strings := texts (w_items w) ++ w_more w |}.

(* it can be written: all values fit, the length and the string numbers fit into a byte *)
Definition written_ok (w : written) : Prop :=
  w_type w < 256 /\ w_handle w < 65536 /\ Forall item_ok (w_items w) /\ Forall good_string (w_more w) /\
  sizes (w_items w) <= 251 /\ len (texts (w_items w)) < 256.

(* ----------------------------------------------------- the layout of each type *)

(* the value of a field that the version has or has not *)
Definition given {A} (b : bool) (x : A) : option A := if b then Some x else None.
(* fields that the version has or has not *)
Definition part (b : bool) (l : list item) : list item := if b then l else [].
(* one number stands for "unknown" *)
Definition unless (unknown x : N) : option N := if x =? unknown then None else Some x.
(* all bits set in k have a name *)
Definition only_named (named : list N) (k : N) : Prop := named_bits named k k.

(* a UUID as it is stored: from 2.6 on, the first three parts are swapped *)
Definition stored_uuid (v : SmbiosVersion) (u : list N) : list N :=
  match u with
  | [a; b; c; d; e; f; g; h; i; j; k; l; m; n; o; p] =>
    if since v 2 6 then [d; c; b; a; f; e; h; g; i; j; k; l; m; n; o; p] else u
  | _ => u
  end.

(* [lays_out v r s ty items more]: in version v, the structure value s is written as
   a structure of type ty with these fields and further strings; r is the structure
   that is read from it, of which s may have parts.  Where the crate knows a field
   only from a later version on than the standard, the field is written and s does
   not have it (see the theorems named _refuted). *)
Inductive lays_out (v : SmbiosVersion) (r : RawStructure) : Structure -> N -> list item -> list text -> Prop :=
| lays_bios vendor ver seg date rom chars x1 x2 ma mi fma fmi ext :
    lays_out v r (SBios {|
        bios_handle := handle r; bios_vendor := vendor; bios_bios_version := ver;
        bios_starting_address_segment := seg; bios_release_date := date;
        bios_rom_size := {| basic := rom; extended := given (since v 3 1) ext |};
        bios_characteristics := chars;
        bios_characteristics_extension_1 := given (since v 2 4) x1;
        bios_characteristics_extension_2 := given (since v 2 4) x2;
        bios_revision := given (since v 2 4) {| rev_major := ma; rev_minor := mi |};
        bios_firmware_revision := given (since v 2 4) {| rev_major := fma; rev_minor := fmi |} |})
      0 ([Ref vendor; Ref ver; U16 seg; Ref date; U8 rom; U64 chars] ++
         part (since v 2 4) [U8 x1; U8 x2; U8 ma; U8 mi; U8 fma; U8 fmi] ++
         part (since v 3 1) [U16 ext]) []
| lays_system man prod ver serial u wake sku family :
    len u = 16 ->
    lays_out v r (SSystem {|
        system_handle := handle r; system_manufacturer := man; system_product := prod;
        system_version := ver; system_serial := serial;
        system_uuid := given (since v 2 1) u;
        system_wakeup := given (since v 2 1) (meaning WakeupType_codes WakeupType_Undefined wake);
        system_sku := given (since v 2 4) sku; system_family := given (since v 2 4) family |})
      1 ([Ref man; Ref prod; Ref ver; Ref serial] ++
         part (since v 2 1) [Raw (stored_uuid v u); U8 wake] ++
         part (since v 2 4) [Ref sku; Ref family]) []
| lays_baseboard man prod ver serial asset flags loc chassis ty handles :
    only_named [0; 1; 2; 3; 4] flags ->
    lays_out v r (SBaseBoard {|
        baseboard_handle := handle r; baseboard_manufacturer := man; baseboard_product := prod;
        baseboard_version := ver; baseboard_serial := serial; baseboard_asset := Some asset;
        baseboard_feature_flags := Some flags; baseboard_location_in_chassis := Some loc;
        baseboard_chassis_handle := Some chassis;
        baseboard_board_type := Some (meaning BoardType_codes BoardType_Undefined ty) |})
      2 ([Ref man; Ref prod; Ref ver; Ref serial; Ref asset; U8 flags; Ref loc; U16 chassis; U8 ty;
          U8 (len handles)] ++ map U16 handles) []
| lays_enclosure man ty ver serial asset boot power thermal security oem height cords n m recs sku :
    len recs = n * m ->
    lays_out v r (SEnclosure {|
        enclosure_handle := handle r; enclosure_manufacturer := man;
        enclosure_chassis_lock := 128 <=? ty;
        enclosure_enclosure_type := meaning EnclosureType_codes EnclosureType_Undefined (ty mod 128);
        enclosure_version := ver; enclosure_serial_number := serial; enclosure_asset_tag_number := asset;
        enclosure_boot_up_state := Some (meaning State_codes State_Undefined boot);
        enclosure_power_supply_state := Some (meaning State_codes State_Undefined power);
        enclosure_thermal_state := Some (meaning State_codes State_Undefined thermal);
        enclosure_security_status := Some (meaning SecurityStatus_codes SecurityStatus_Undefined security);
        enclosure_oem_defined := Some oem; enclosure_height := Some height;
        enclosure_power_cords_number := Some cords;
        enclosure_contained_elements := Some {|
          ce_chunks := recs;
          (* the memory behind the records, which is not part of the Rust value *)
          ce_after := if (n =? 0) || (m =? 0) then [] else drop (0x15 - 4 + len recs) (data r) ++ after r;
          ce_count := n; ce_record_length := m |};
        enclosure_sku_number := Some sku |})
      3 [Ref man; U8 ty; Ref ver; Ref serial; Ref asset; U8 boot; U8 power; U8 thermal; U8 security; U32 oem;
         U8 height; U8 cords; U8 n; U8 m; Raw recs; Ref sku] []
| lays_processor socket ty fam man id ver volt clock max cur status upgrade l1 l2 l3 serial asset pn
    cores enabled threads chars fam2 cores2 enabled2 threads2 :
    only_named [0; 1; 2; 6] status -> only_named [0; 1; 2; 3; 4; 5; 6; 7; 9] chars ->
    lays_out v r (SProcessor {|
        processor_handle := handle r; processor_socket_designation := socket;
        processor_processor_type := meaning ProcessorType_codes ProcessorType_Undefined ty;
        processor_processor_family := meaning ProcessorFamily_codes ProcessorFamily_other
          (if since v 2 6 && (fam =? 0xFE) then fam2 else fam);
        processor_processor_manufacturer := man; processor_processor_id := id;
        processor_processor_version := ver; processor_voltage := voltage_means volt;
        processor_external_clock := clock; processor_max_speed := max; processor_current_speed := cur;
        processor_status := status;
        processor_processor_upgrade := meaning ProcessorUpgrade_codes ProcessorUpgrade_Undefined upgrade;
        processor_l1_cache_handle := given (since v 2 1) l1;
        processor_l2_cache_handle := given (since v 2 1) l2;
        processor_l3_cache_handle := given (since v 2 1) l3;
        processor_serial_number := given (since v 2 3) serial;
        processor_asset_tag := given (since v 2 3) asset;
        processor_part_number := given (since v 2 3) pn;
        processor_core_count := given (since v 2 5) (if since v 3 0 && (cores =? 0xFF) then cores2 else cores);
        processor_core_enabled := given (since v 2 5) (if since v 3 0 && (enabled =? 0xFF) then enabled2 else enabled);
        processor_thread_count := given (since v 2 5) (if since v 3 0 && (threads =? 0xFF) then threads2 else threads);
        processor_processor_characteristics := given (since v 2 6) chars |})
      4 ([Ref socket; U8 ty; U8 fam; Ref man; U64 id; Ref ver; U8 volt; U16 clock; U16 max; U16 cur; U8 status;
          U8 upgrade] ++
         part (since v 2 1) [U16 l1; U16 l2; U16 l3] ++
         part (since v 2 3) [Ref serial; Ref asset; Ref pn] ++
         part (since v 2 5) [U8 cores; U8 enabled; U8 threads; U16 chars] ++
         part (since v 2 6) [U16 fam2] ++
         part (since v 3 0) [U16 cores2; U16 enabled2; U16 threads2]) []
| lays_cache socket word conf max inst supported current speed ecc ty assoc max2 inst2 :
    from_version v 2 1 -> configuration_means word conf ->
    only_named [0; 1; 2; 3; 4; 5; 6] supported -> only_named [0; 1; 2; 3; 4; 5; 6] current ->
    lays_out v r (SCache {|
        cache_handle := handle r; cache_socket_designation := socket; cache_cache_configuration := conf;
        cache_maximum_cache_size := size_means max; cache_installed_size := size_means inst;
        cache_supported_sram_type := supported; cache_current_sram_type := current;
        cache_cache_speed := given (since v 2 2) speed;
        cache_error_correction_type :=
          given (since v 2 2) (meaning CacheErrorCorrectionType_codes CacheErrorCorrectionType_Undefined ecc);
        cache_system_cache_type := given (since v 2 2) (meaning SystemCacheType_codes SystemCacheType_Undefined ty);
        cache_associativity := given (since v 2 2) (meaning CacheAssociativity_codes CacheAssociativity_Undefined assoc);
        cache_maximum_cache_size_2 := given (since v 3 2) (size2_means max2);
        cache_installed_size_2 := given (since v 3 2) (size2_means inst2) |})
      7 ([Ref socket; U16 word; U16 max; U16 inst; U16 supported; U16 current; U8 speed; U8 ecc; U8 ty; U8 assoc] ++
         part (since v 3 1) [U32 max2; U32 inst2]) []
| lays_port internal itype external etype ptype :
    lays_out v r (SPortConnector {|
        port_handle := handle r; port_internal_reference_designator := internal;
        port_internal_connector_type := meaning ConnectorType_codes ConnectorType_Undefined itype;
        port_external_reference_designator := external;
        port_external_connector_type := meaning ConnectorType_codes ConnectorType_Undefined etype;
        port_port_type := meaning PortType_codes PortType_Undefined ptype |})
      8 [Ref internal; U8 itype; Ref external; U8 etype; U8 ptype] []
| lays_slots designation ty width usage length id c1 c2 segment bus function dwidth n peers gap inform pwidth pitch :
    len peers = 5 * n ->
    lays_out v r (SSystemSlots {|
        slots_handle := handle r; slots_slot_designation := designation;
        slots_slot_type := meaning SlotType_codes_here SlotType_Undefined ty;
        slots_slot_data_bus_width := meaning SlotWidth_codes SlotWidth_Undefined width;
        slots_current_usage := meaning CurrentUsage_codes CurrentUsage_Undefined usage;
        slots_slot_length := meaning SlotLength_codes SlotLength_Undefined length;
        slots_slot_id := id; slots_slot_characteristics_1 := c1;
        slots_slot_characteristics_2 := given (since v 2 1) c2;
        slots_segment_group_number := if since v 2 6 then unless 0xFFFF segment else None;
        slots_bus_number := if since v 2 6 then unless 0xFF bus else None;
        slots_device_and_function_number :=
          if since v 2 6 then option_map function_means (unless 0xFF function) else None;
        slots_data_bus_width := given (since v 3 2) dwidth;
        slots_peer_devices := if since v 3 2 then Some {| peer_chunks := peers |} else None;
        slots_slot_information := given (since v 3 2) inform;
        slots_slot_physical_width := given (since v 3 2) (meaning SlotWidth_codes SlotWidth_Undefined pwidth);
        slots_slot_pitch := given (since v 3 2) pitch |})
      9 ([Ref designation; U8 ty; U8 width; U8 usage; U8 length; U16 id; U8 c1] ++
         part (since v 2 1) [U8 c2] ++
         part (since v 2 6) [U16 segment; U8 bus; U8 function] ++
         part (since v 3 2) [U8 dwidth; U8 n; Raw peers; U8 gap; U8 inform; U8 pwidth; U16 pitch]) []
| lays_oem_strings more :
    lays_out v r (SOemStrings {| oem_handle := handle r; oem_strings := strings_new (strings r) |})
      11 [U8 (len more)] more
| lays_options more :
    lays_out v r (SSystemConfigurationOptions {| options_handle := handle r; options_strings := strings_new (strings r) |})
      12 [U8 (len more)] more
| lays_language flags reserved current more :
    from_version v 2 1 -> len reserved = 15 ->
    lays_out v r (SBiosLanguage {|
        language_handle := handle r; language_installable_languages := {| il_structure := r; il_index := 1 |};
        language_flags := Some flags; language_current_language := current |})
      13 [U8 (len more); U8 flags; Raw reserved; U8 current] more
| lays_group name its :
    lays_out v r (SGroupAssociations {|
        group_handle := handle r; group_group_name := name; group_items := {| gi_data := its; gi_index := 0 |} |})
      14 [Ref name; Raw its] []
| lays_log area hstart dstart m status token address format n size descs :
    len descs = n * size -> size <> 0 ->
    lays_out v r (SSystemEventLog {|
        log_handle := handle r; log_log_area_length := area; log_log_header_start_offset := hstart;
        log_log_data_start_offset := dstart; log_access_method := access_means m address;
        log_log_status := status; log_log_change_token := token;
        log_log_header_format := given (since v 2 1) (meaning LogHeaderFormat_codes LogHeaderFormat_other format);
        log_descriptors := given (since v 2 1) {| descriptors_data := descs; descriptors_size := size |} |})
      15 ([U16 area; U16 hstart; U16 dstart; U8 m; U8 status; U32 token; U32 address] ++
          part (since v 2 1) [U8 format; U8 n; U8 size; Raw descs]) []
| lays_array loc use ecc max error n ext :
    from_version v 2 2 ->
    lays_out v r (SPhysicalMemoryArray {|
        array_handle := handle r;
        array_location := meaning MemoryArrayLocation_codes_here MemoryArrayLocation_Undefined loc;
        array_use := meaning MemoryArrayUse_codes MemoryArrayUse_Undefined use;
        array_memory_error_correction :=
          meaning MemoryArrayErrorCorrectionTypes_codes MemoryArrayErrorCorrectionTypes_Undefined ecc;
        array_maximum_capacity := unless 0x80000000 max;
        array_memory_error_information_handle := unless 0xFFFE error;
        array_number_of_memory_devices := n;
        array_extended_maximum_capacity :=
          if since v 2 8 && (max =? 0x80000000) then unless 0 ext else None |})
      16 ([U8 loc; U8 use; U8 ecc; U32 max; U16 error; U16 n] ++ part (since v 2 7) [U64 ext]) []
| lays_device array error total data size form set locator bank ty detail speed man serial asset pn attributes
    ext configured vmin vmax vconf tech mode firmware mman mprod sman sprod nv vol cache logical espeed econf :
    only_named [1; 2; 3; 4; 5; 6; 7; 8; 9; 10; 11; 12; 13; 14; 15] detail -> only_named [1; 2; 3; 4; 5] mode ->
    lays_out v r (SMemoryDevice {|
        memdev_handle := handle r; memdev_physical_memory_handle := array;
        memdev_memory_error_handle := unless 0xFFFE error; memdev_total_width := unless 0xFFFF total;
        memdev_data_width := unless 0xFFFF data; memdev_size := unless 0xFFFF size;
        memdev_form_factor := meaning FormFactor_codes_here FormFactor_Undefined form;
        memdev_device_set := Some set; memdev_device_locator := locator; memdev_bank_locator := bank;
        memdev_memory_type := meaning MemoryType_codes MemoryType_Undefined ty;
        memdev_type_detail := detail; memdev_speed := unless 0 speed; memdev_manufacturer := man;
        memdev_serial := serial; memdev_asset_tag := asset; memdev_part_number := pn;
        memdev_attributes := attributes; memdev_extended_size := ext;
        memdev_configured_memory_speed := unless 0 configured; memdev_minimum_voltage := unless 0 vmin;
        memdev_maximum_voltage := unless 0 vmax; memdev_configured_voltage := unless 0 vconf;
        memdev_memory_technology := given (since v 3 2) (meaning MemoryTechnology_codes MemoryTechnology_Undefined tech);
        memdev_operating_mode_capability := given (since v 3 2) mode;
        memdev_firmware_version := given (since v 3 2) firmware;
        memdev_module_manufacturer := given (since v 3 2) mman; memdev_module_product_id := given (since v 3 2) mprod;
        memdev_memory_subsystem_controller_manufacturer_id := given (since v 3 2) sman;
        memdev_memory_subsystem_controller_product_id := given (since v 3 2) sprod;
        memdev_non_volatile_size := given (since v 3 2) nv; memdev_volatile_size := given (since v 3 2) vol;
        memdev_cache_size := given (since v 3 2) cache; memdev_logical_size := given (since v 3 2) logical;
        memdev_extended_speed := given (since v 3 3) espeed;
        memdev_extended_configured_memory_speed := given (since v 3 3) econf |})
      17 ([U16 array; U16 error; U16 total; U16 data; U16 size; U8 form; U8 set; Ref locator; Ref bank; U8 ty;
           U16 detail; U16 speed; Ref man; Ref serial; Ref asset; Ref pn; U8 attributes; U32 ext; U16 configured;
           U16 vmin; U16 vmax; U16 vconf] ++
          part (since v 3 2) [U8 tech; U16 mode; Ref firmware; U16 mman; U16 mprod; U16 sman; U16 sprod;
                              U64 nv; U64 vol; U64 cache; U64 logical] ++
          part (since v 3 3) [U32 espeed; U32 econf]) []
| lays_error ty granularity operation syndrome aaddress daddress resolution :
    lays_out v r (SMemoryError32 {|
        me_handle := handle r; me_error_type := meaning MEErrorType_codes MEErrorType_Undefined ty;
        me_error_granularity := meaning MEErrorGranularity_codes MEErrorGranularity_Undefined granularity;
        me_error_operation := meaning MEErrorOperation_codes MEErrorOperation_Undefined operation;
        me_vendor_syndrome := syndrome; me_memory_array_error_address := aaddress;
        me_device_error_address := daddress; me_error_resolution := resolution |})
      18 [U8 ty; U8 granularity; U8 operation; U32 syndrome; U32 aaddress; U32 daddress; U32 resolution] []
| lays_array_mapped start_ end_ array width estart eend :
    lays_out v r (SMemoryArrayMappedAddress {|
        ama_handle := handle r; ama_starting_address := start_; ama_ending_address := end_;
        ama_memory_array_handle := array; ama_partition_width := width;
        ama_extended_starting_address := given (since v 2 7) estart;
        ama_extended_ending_address := given (since v 2 7) eend |})
      19 ([U32 start_; U32 end_; U16 array; U8 width] ++ part (since v 2 7) [U64 estart; U64 eend]) []
| lays_device_mapped start_ end_ device array row position depth estart eend :
    lays_out v r (SMemoryDeviceMappedAddress {|
        dma_handle := handle r; dma_starting_address := start_; dma_ending_address := end_;
        dma_memory_device_handle := device; dma_memory_array_mapped_address_handle := array;
        dma_partition_row_position := row; dma_interleave_position := position;
        dma_interleaved_data_depth := depth;
        dma_extended_starting_address := given (since v 2 7) estart;
        dma_extended_ending_address := given (since v 2 7) eend |})
      20 ([U32 start_; U32 end_; U16 device; U16 array; U8 row; U8 position; U8 depth] ++
          part (since v 2 7) [U64 estart; U64 eend]) []
| lays_pointing ty interface buttons :
    lays_out v r (SBuiltInPointingDevice {|
        pd_handle := handle r; pd_type := meaning PointingDeviceType_codes PointingDeviceType_Undefined ty;
        pd_interface := meaning PointingDeviceInterface_codes PointingDeviceInterface_Undefined interface;
        pd_number_of_buttons := buttons |})
      21 [U8 ty; U8 interface; U8 buttons] []
| lays_battery loc man date serial name chemistry capacity voltage ver error sserial sdate schemistry multiplier oem :
    lays_out v r (SPortableBattery {|
        battery_handle := handle r; battery_location := loc; battery_manufacturer := man;
        battery_manufacture_date :=
          match date with
          | _ :: _ => MD_Basic date
          | [] => if since v 2 2
                  then MD_SmartBatteryDataSpecification (1980 + sdate / 512) (sdate / 32 mod 16) (sdate mod 32)
                  else MD_None
          end;
        battery_serial_number :=
          match serial with
          | _ :: _ => SN_Basic serial
          | [] => if since v 2 2 then SN_SmartBatteryDataSpecification sserial else SN_None
          end;
        battery_device_name := name;
        battery_device_chemistry :=
          if since v 2 2 && (chemistry =? 0x02) then Chem_SmartBatteryDataSpecification schemistry
          else meaning DeviceChemistry_codes Chem_Undefined chemistry;
        battery_design_capacity :=
          if capacity =? 0 then DC_Unknown else DC_Data capacity (if since v 2 2 then multiplier else 1);
        battery_design_voltage := voltage; battery_sbds_version_number := ver;
        battery_maximum_error_in_battery_data := error; battery_oem_specific := given (since v 2 2) oem |})
      22 ([Ref loc; Ref man; Ref date; Ref serial; Ref name; U8 chemistry; U16 capacity; U16 voltage; Ref ver;
           U8 error] ++
          part (since v 2 2) [U16 sserial; U16 sdate; Ref schemistry; U8 multiplier; U32 oem]) []
| lays_other ty items more :
    ~ In ty decoded_types ->
    lays_out v r (SOther r) ty items more.

(* ---------------------------------------------------------------- the table *)

(* the structures ss are written as ws, which lie before [rest] in memory *)
Inductive lays_out_table (v : SmbiosVersion) (rest : list N) : list Structure -> list written -> Prop :=
| lays_none : lays_out_table v rest [] []
| lays_more s ss w ws :
    lays_out v (raw_of v (encoded w) (table (map encoded ws) ++ rest)) s (w_type w) (w_items w) (w_more w) ->
    lays_out_table v rest ss ws ->
    lays_out_table v rest (s :: ss) (w :: ws).

(* from version 3 on the End structure ends the table: none but the last is one *)
Definition ends_last (v : SmbiosVersion) (ws : list written) : Prop :=
  3 <= major v -> forall front w back, ws = front ++ w :: back -> back <> [] -> w_type w <> 127.
