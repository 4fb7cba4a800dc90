(* The parts of /repo/src/lib.rs that copy packed structures, on machines of either byte
   order.  `let_as_struct!` (lib.rs:69-76) copies the bytes as they are, so an integer field
   wider than a byte is read in the order of the machine; everything else in the crate
   (`TryFromBytes`, lib.rs:584-609) asks for little endian explicitly.  The decoders of
   structures that overlay packed layouts are in M_EndianDecoders. *)
From Verif Require Import Base G_Enums M_Raw M_Entry M_Iter.
Local Open Scope N_scope.

(* most significant byte first *)
Definition be (l : list N) : N := fold_left (fun x b => 256 * x + b) l 0.

(* an integer field of a copied packed structure *)
Definition field_on (big : bool) (o w : N) (p : list N) : N :=
  if big then be (take w (drop o p)) else at_ o w p.

(* lib.rs:250-268 *)
Definition v2_on (big : bool) (p : list N) : EntryPointV2 := {|
  v2_signature := field_on big 0 4 p;
  v2_checksum := field_on big 4 1 p;
  v2_len := field_on big 5 1 p;
  v2_major := field_on big 6 1 p;
  v2_minor := field_on big 7 1 p;
  v2_struct_max := field_on big 8 2 p;
  v2_revision := field_on big 10 1 p;
  v2_formatted := take 5 (drop 11 p);
  v2_dmi_signature := take 5 (drop 16 p);
  v2_dmi_checksum := field_on big 21 1 p;
  v2_smbios_len := field_on big 22 2 p;
  v2_smbios_address := field_on big 24 4 p;
  v2_smbios_count := field_on big 28 2 p;
  v2_bcd_revision := field_on big 30 1 p
|}.
(* lib.rs:273-287 *)
Definition v3_on (big : bool) (p : list N) : EntryPointV3 := {|
  v3_signature := take 5 p;
  v3_checksum := field_on big 5 1 p;
  v3_len := field_on big 6 1 p;
  v3_major := field_on big 7 1 p;
  v3_minor := field_on big 8 1 p;
  v3_docrev := field_on big 9 1 p;
  v3_revision := field_on big 10 1 p;
  v3_reserved := field_on big 11 1 p;
  v3_smbios_len_max := field_on big 12 4 p;
  v3_smbios_address := field_on big 16 8 p
|}.

(* lib.rs:189-240 `EntryPoint::search` *)
Definition search_on (big : bool) (buffer : list N) : out (result InvalidEntryPointError EntryPoint) :=
  match find_signature buffer with
  | None => Val (Err NotFound)
  | Some (kind, start) =>
    let! sub_buffer := slice_index_from buffer start in
    let? entry_point :=
      match kind with
      | FmtV2 =>
        if negb (size_of_v2 <=? len sub_buffer) then Val (Err (EpBadSize (cast 8 (len sub_buffer)))) else
        let! p := read_struct size_of_v2 sub_buffer in
        let entry_point := v2_on big p in
        if negb (size_of_v2 <=? v2_len entry_point) then Val (Err (EpBadSize (v2_len entry_point))) else
        Val (Ok (V2 entry_point))
      | FmtV3 =>
        if negb (size_of_v3 <=? len sub_buffer) then Val (Err (EpBadSize (cast 8 (len sub_buffer)))) else
        let! p := read_struct size_of_v3 sub_buffer in
        let entry_point := v3_on big p in
        if negb (size_of_v3 <=? v3_len entry_point) then Val (Err (EpBadSize (v3_len entry_point))) else
        Val (Ok (V3 entry_point))
      end in
    if negb (2 <=? ep_major entry_point) then Val (Err (TooOldVersion (ep_major entry_point))) else
    if negb (ep_len entry_point <=? cast 8 (len sub_buffer)) then Val (Err (EpBadSize (cast 8 (len sub_buffer)))) else
    let! body := slice_index sub_buffer 0 (ep_len entry_point) in
    let sum := wrapping_sum body in
    if negb (sum =? 0) then Val (Err (BadChecksum sum)) else
    Val (Ok entry_point)
  end.

(* lib.rs:524-557 `next_raw` *)
Definition next_raw_on (big : bool) (c : cfg) (s : Structures) : out (option (res RawStructure) * Structures) :=
  let! hdr_end := u_add c 32 (idx s) size_of_header in
  if smbios_len_ s <? hdr_end then Val (None, s)
  else
  let! working := slice_index_from (buffer s) (idx s) in
  if len working <? size_of_header then UB
  else
  let kind := field_on big 0 1 working in
  let hlen := field_on big 1 1 working in
  let hhandle := field_on big 2 2 working in
  let! strings_idx := u_add c 32 (idx s) hlen in
  if smbios_len_ s <=? strings_idx then Val (Some (Err (BadSize (idx s) hlen)), s)
  else
  let! tail := slice_index_from (buffer s) strings_idx in
  match find_nulnul tail with
  | None => Val (Some (Err (UnterminatedStrings (idx s))), s)
  | Some terminator =>
    let strings_len := cast 32 (terminator + 1) in
    let! data_start := u_add c 32 (idx s) size_of_header in
    let! d := slice_index (buffer s) data_start strings_idx in
    let! strings_end := u_add c 32 strings_idx strings_len in
    let! str := slice_index (buffer s) strings_idx strings_end in
    Val (Some (Ok {|
           version := smbios_version s;
           info := InfoType_from kind;
           length_ := hlen;
           handle := hhandle;
           data := d;
           strings := str;
           after := drop strings_idx (buffer s) |}),
         {| smbios_version := smbios_version s; smbios_len_ := smbios_len_ s;
            idx := strings_end; buffer := buffer s |})
  end.
