(* Specification of the structure table format (SMBIOS specification, section 6.1),
   used by P_Iter.  It describes byte layouts; it does not use the model's
   iterator. *)
From Verif Require Import Base G_Enums M_Raw M_Iter Spec.
Local Open Scope N_scope.

(* a string area: it ends with two NULs, and these are its first two adjacent NULs *)
Definition string_area (a : list N) : Prop :=
  (exists front, a = front ++ [0; 0]) /\
  forall x y, a = x ++ [0; 0] ++ y -> y = [].

Definition no_double_nul (a : list N) : Prop := forall x y, a <> x ++ [0; 0] ++ y.

(* [framed v buf pos r]: at position [pos] of [buf] there is a structure whose
   header, formatted area and string area are those of [r]. *)
Definition framed (v : SmbiosVersion) (buf : list N) (pos : N) (r : RawStructure) : Prop :=
  exists pre post kind h0 h1,
    buf = pre ++ [kind; length_ r; h0; h1] ++ data r ++ strings r ++ post /\
    len pre = pos /\
    length_ r = 4 + len (data r) /\
    string_area (strings r) /\
    info r = InfoType_from kind /\
    handle r = h0 + 256 * h1 /\
    version r = v /\
    after r = strings r ++ post.

(* bytes of a framed structure *)
Definition extent (r : RawStructure) : N := length_ r + len (strings r).

(* the iterator at another position, and the iterator that has been stopped *)
Definition moved_to (p : N) (s : Structures) : Structures :=
  {| smbios_version := smbios_version s; smbios_len_ := smbios_len_ s; idx := p; buffer := buffer s |}.
Definition stopped_at (p : N) (s : Structures) : Structures :=
  {| smbios_version := smbios_version s; smbios_len_ := p; idx := p; buffer := buffer s |}.

(* the buffer holds bytes; positions and sizes stay within 32 bits *)
Definition sane (s : Structures) : Prop :=
  all_bytes (buffer s) /\ idx s + 260 <= 2 ^ 32 /\ len (buffer s) + 260 <= 2 ^ 32.

(* One call of next, as a decision table. *)
Inductive step (c : cfg) (s : Structures) : out (option (res Structure) * Structures) -> Prop :=
| table_done :
    smbios_len_ s < idx s + 4 ->
    step c s (Val (None, s))
| position_past_buffer :
    idx s + 4 <= smbios_len_ s -> len (buffer s) < idx s ->
    step c s Panic
| header_past_buffer :
    idx s + 4 <= smbios_len_ s -> idx s <= len (buffer s) < idx s + 4 ->
    step c s UB
| length_past_table pre post kind l h0 h1 :
    idx s + 4 <= smbios_len_ s ->
    buffer s = pre ++ [kind; l; h0; h1] ++ post -> len pre = idx s ->
    smbios_len_ s <= idx s + l ->
    step c s (Val (Some (Err (BadSize (idx s) l)), stopped_at (idx s) s))
| length_past_buffer pre post kind l h0 h1 :
    buffer s = pre ++ [kind; l; h0; h1] ++ post -> len pre = idx s ->
    idx s + 4 <= smbios_len_ s -> idx s + l < smbios_len_ s -> len (buffer s) < idx s + l ->
    step c s Panic
| strings_not_terminated pre post kind l h0 h1 :
    buffer s = pre ++ [kind; l; h0; h1] ++ post -> len pre = idx s ->
    idx s + 4 <= smbios_len_ s -> idx s + l < smbios_len_ s -> idx s + l <= len (buffer s) ->
    no_double_nul (drop (idx s + l) (buffer s)) ->
    step c s (Val (Some (Err (UnterminatedStrings (idx s))), stopped_at (idx s) s))
| length_below_header pre post kind l h0 h1 x y :
    buffer s = pre ++ [kind; l; h0; h1] ++ post -> len pre = idx s ->
    idx s + 4 <= smbios_len_ s -> idx s + l < smbios_len_ s ->
    l < 4 -> drop (idx s + l) (buffer s) = x ++ [0; 0] ++ y ->
    step c s Panic
| decoded r item :
    framed (smbios_version s) (buffer s) (idx s) r ->
    idx s + 4 <= smbios_len_ s -> idx s + length_ r < smbios_len_ s ->
    dispatch c r = Val item ->
    step c s (Val (Some item,
      if (3 <=? major (smbios_version s)) && is_end (info r)
      then stopped_at (idx s + extent r) s else moved_to (idx s + extent r) s))
| decoder_panics r :
    framed (smbios_version s) (buffer s) (idx s) r ->
    idx s + 4 <= smbios_len_ s -> idx s + length_ r < smbios_len_ s ->
    dispatch c r = Panic -> step c s Panic
| decoder_overreads r :
    framed (smbios_version s) (buffer s) (idx s) r ->
    idx s + 4 <= smbios_len_ s -> idx s + length_ r < smbios_len_ s ->
    dispatch c r = UB -> step c s UB.

(* the errors that concern the division into structures *)
Definition framing_error (e : MalformedStructureError) : Prop :=
  match e with BadSize _ _ | UnterminatedStrings _ => True | _ => False end.

(* the states in which cutting out one structure panics or reads past the buffer *)
Definition framing_panics (s : Structures) : Prop :=
  idx s + 4 <= smbios_len_ s /\
  (len (buffer s) < idx s \/
   exists l, byte_at (buffer s) (idx s + 1) = Some l /\ idx s + 4 <= len (buffer s) /\ idx s + l < smbios_len_ s /\
  (len (buffer s) < idx s + l \/
      (l < 4 /\ exists x y, drop (idx s + l) (buffer s) = x ++ [0; 0] ++ y))).
Definition framing_overreads (s : Structures) : Prop :=
  idx s + 4 <= smbios_len_ s /\ idx s <= len (buffer s) < idx s + 4.

(* a structure the iterator can reach: it starts and its formatted area ends
   inside the declared table *)
Definition here (s : Structures) (r : RawStructure) : Prop :=
  framed (smbios_version s) (buffer s) (idx s) r /\
  idx s + 4 <= smbios_len_ s /\ idx s + length_ r < smbios_len_ s.

(* the structure type each variant of Structure stands for *)
Definition variant_type (x : Structure) : option N :=
  match x with
  | SBios _ => Some 0 | SSystem _ => Some 1 | SBaseBoard _ => Some 2 | SEnclosure _ => Some 3
  | SProcessor _ => Some 4 | SCache _ => Some 7 | SPortConnector _ => Some 8 | SSystemSlots _ => Some 9
  | SOemStrings _ => Some 11 | SSystemConfigurationOptions _ => Some 12 | SBiosLanguage _ => Some 13
  | SGroupAssociations _ => Some 14 | SSystemEventLog _ => Some 15 | SPhysicalMemoryArray _ => Some 16
  | SMemoryDevice _ => Some 17 | SMemoryError32 _ => Some 18 | SMemoryArrayMappedAddress _ => Some 19
  | SMemoryDeviceMappedAddress _ => Some 20 | SBuiltInPointingDevice _ => Some 21 | SPortableBattery _ => Some 22
  | SOther _ => None
  end.

(* SMBIOS specification, table 3: the type number each InfoType names *)
Definition type_number (i : InfoType) : N :=
  match i with
  | InfoType_Bios => 0 | InfoType_System => 1 | InfoType_BaseBoard => 2 | InfoType_Enclosure => 3
  | InfoType_Processor => 4 | InfoType_Cache => 7 | InfoType_PortConnector => 8 | InfoType_SystemSlots => 9
  | InfoType_OemStrings => 11 | InfoType_SystemConfigurationOptions => 12 | InfoType_BiosLanguage => 13
  | InfoType_GroupAssociations => 14 | InfoType_SystemEventLog => 15 | InfoType_PhysicalMemoryArray => 16
  | InfoType_MemoryDevice => 17 | InfoType_MemoryError32 => 18 | InfoType_MemoryArrayMappedAddress => 19
  | InfoType_MemoryDeviceMappedAddress => 20 | InfoType_BuiltInPointingDevice => 21
  | InfoType_PortableBattery => 22 | InfoType_SystemBoot => 32 | InfoType_End => 127
  | InfoType_Oem k => k
  end.

(* the structure types that have a decoder *)
Definition decoded_types : list N := [0; 1; 2; 3; 4; 7; 8; 9; 11; 12; 13; 14; 15; 16; 17; 18; 19; 20; 21; 22].

(* ------------------------------------------------------- encoding a table *)

Record encodable := { e_type : N; e_handle : N; e_body : list N; e_strings : list text }.

Definition encodable_ok (s : encodable) : Prop :=
  e_type s < 256 /\ e_handle s < 65536 /\ len (e_body s) <= 251 /\
  Forall (fun t => t <> [] /\ ~ In 0 t) (e_strings s).

(* no strings: two NULs; otherwise every string and the table end with a NUL *)
Definition encode_strings (ss : list text) : list N :=
  match ss with [] => [0; 0] | _ :: _ => terminated ss ++ [0] end.

Definition encode (s : encodable) : list N :=
  [e_type s; 4 + len (e_body s); e_handle s mod 256; e_handle s / 256] ++ e_body s ++ encode_strings (e_strings s).

Definition table (ss : list encodable) : list N := concat (map encode ss).

(* the raw structure that stands for s, followed in memory by [rest] *)
Definition raw_of (v : SmbiosVersion) (s : encodable) (rest : list N) : RawStructure := {|
  version := v; info := InfoType_from (e_type s); length_ := 4 + len (e_body s); handle := e_handle s;
  data := e_body s; strings := encode_strings (e_strings s);
  after := encode_strings (e_strings s) ++ rest |}.

(* the structures iteration shows: from version 3 on, none after the first End *)
Fixpoint shown (v : SmbiosVersion) (ss : list encodable) (rest : list N) : list RawStructure :=
  match ss with
  | [] => []
  | s :: ss' => raw_of v s (table ss' ++ rest) ::
                if (3 <=? major v) && (e_type s =? 127) then [] else shown v ss' rest
  end.

(* ----------------------------------------- what a caller sees of a structure *)

(* [after] and [ce_after] are not fields of the Rust types (they stand for the
   memory behind a slice); [forget] removes them. *)
From Verif Require Import M_Enclosure M_Strings.

Definition bare (r : RawStructure) : RawStructure := {|
  version := version r; info := info r; length_ := length_ r; handle := handle r;
  data := data r; strings := strings r; after := [] |}.

Definition bare_elements (e : ContainedElements) : ContainedElements := {|
  ce_chunks := ce_chunks e; ce_after := []; ce_count := ce_count e; ce_record_length := ce_record_length e |}.

Definition forget (x : Structure) : Structure :=
  match x with
  | SOther r => SOther (bare r)
  | SBiosLanguage b => SBiosLanguage {|
      language_handle := language_handle b;
      language_installable_languages :=
        {| il_structure := bare (il_structure (language_installable_languages b));
           il_index := il_index (language_installable_languages b) |};
      language_flags := language_flags b;
      language_current_language := language_current_language b |}
  | SEnclosure e => SEnclosure {|
      enclosure_handle := enclosure_handle e;
      enclosure_manufacturer := enclosure_manufacturer e;
      enclosure_chassis_lock := enclosure_chassis_lock e;
      enclosure_enclosure_type := enclosure_enclosure_type e;
      enclosure_version := enclosure_version e;
      enclosure_serial_number := enclosure_serial_number e;
      enclosure_asset_tag_number := enclosure_asset_tag_number e;
      enclosure_boot_up_state := enclosure_boot_up_state e;
      enclosure_power_supply_state := enclosure_power_supply_state e;
      enclosure_thermal_state := enclosure_thermal_state e;
      enclosure_security_status := enclosure_security_status e;
      enclosure_oem_defined := enclosure_oem_defined e;
      enclosure_height := enclosure_height e;
      enclosure_power_cords_number := enclosure_power_cords_number e;
      enclosure_contained_elements := option_map bare_elements (enclosure_contained_elements e);
      enclosure_sku_number := enclosure_sku_number e |}
  | _ => x
  end.

(* what the caller sees of one item, and of the way the iteration ended *)
Definition seen : res Structure -> res Structure := rmap forget.
Definition seen_ending (e : ending Structures) : ending N :=
  match e with Exhausted s => Exhausted (idx s) | Panicked => Panicked | Undefined => Undefined end.
