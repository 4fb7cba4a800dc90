(* Model of the entry point half of /repo/src/lib.rs (lines 93-352). *)
From Verif Require Import Base G_Enums M_Raw.
Local Open Scope N_scope.

(* lib.rs:250-268 `struct EntryPointV2`, packed: 31 bytes *)
Record EntryPointV2 := {
  v2_signature : N;
  v2_checksum : N;
  v2_len : N;
  v2_major : N;
  v2_minor : N;
  v2_struct_max : N;
  v2_revision : N;
  v2_formatted : list N;
  v2_dmi_signature : list N;
  v2_dmi_checksum : N;
  v2_smbios_len : N;
  v2_smbios_address : N;
  v2_smbios_count : N;
  v2_bcd_revision : N
}.
Definition size_of_v2 : N := 31.

(* lib.rs:273-287 `struct EntryPointV3`, packed: 24 bytes *)
Record EntryPointV3 := {
  v3_signature : list N;
  v3_checksum : N;
  v3_len : N;
  v3_major : N;
  v3_minor : N;
  v3_docrev : N;
  v3_revision : N;
  v3_reserved : N;
  v3_smbios_len_max : N;
  v3_smbios_address : N
}.
Definition size_of_v3 : N := 24.

(* the packed layouts read by let_as_struct! at lib.rs:201 and 213: fields in
   declaration order without padding, little endian *)
Definition v2_of_bytes (p : list N) : EntryPointV2 := {|
  v2_signature := at_ 0 4 p;
  v2_checksum := at_ 4 1 p;
  v2_len := at_ 5 1 p;
  v2_major := at_ 6 1 p;
  v2_minor := at_ 7 1 p;
  v2_struct_max := at_ 8 2 p;
  v2_revision := at_ 10 1 p;
  v2_formatted := take 5 (drop 11 p);
  v2_dmi_signature := take 5 (drop 16 p);
  v2_dmi_checksum := at_ 21 1 p;
  v2_smbios_len := at_ 22 2 p;
  v2_smbios_address := at_ 24 4 p;
  v2_smbios_count := at_ 28 2 p;
  v2_bcd_revision := at_ 30 1 p
|}.

Definition v3_of_bytes (p : list N) : EntryPointV3 := {|
  v3_signature := take 5 p;
  v3_checksum := at_ 5 1 p;
  v3_len := at_ 6 1 p;
  v3_major := at_ 7 1 p;
  v3_minor := at_ 8 1 p;
  v3_docrev := at_ 9 1 p;
  v3_revision := at_ 10 1 p;
  v3_reserved := at_ 11 1 p;
  v3_smbios_len_max := at_ 12 4 p;
  v3_smbios_address := at_ 16 8 p
|}.

(* lib.rs:99-103 `enum EntryPoint` *)
Inductive EntryPoint := V2 (p : EntryPointV2) | V3 (p : EntryPointV3).

(* lib.rs:107-148, the accessors.  `as u64`/`as u32` widen and change nothing. *)
Definition ep_len (e : EntryPoint) : N := match e with V2 p => v2_len p | V3 p => v3_len p end.
Definition ep_major (e : EntryPoint) : N := match e with V2 p => v2_major p | V3 p => v3_major p end.
Definition ep_minor (e : EntryPoint) : N := match e with V2 p => v2_minor p | V3 p => v3_minor p end.
Definition ep_revision (e : EntryPoint) : N := match e with V2 p => v2_revision p | V3 p => v3_revision p end.
Definition ep_smbios_address (e : EntryPoint) : N :=
  match e with V2 p => v2_smbios_address p | V3 p => v3_smbios_address p end.
Definition ep_smbios_len (e : EntryPoint) : N :=
  match e with V2 p => v2_smbios_len p | V3 p => v3_smbios_len_max p end.
Definition ep_to_version (e : EntryPoint) : SmbiosVersion :=
  {| major := ep_major e; minor := ep_minor e |}.

(* lib.rs:306-316 `enum InvalidEntryPointError` *)
Inductive InvalidEntryPointError :=
| NotFound
| TooOldVersion (v : N)
| EpBadSize (size : N)
| BadChecksum (sum : N).

(* lib.rs:93-97 `enum EntryPointFormat` *)
Inductive EntryPointFormat := FmtV2 | FmtV3.

(* lib.rs:340-341 *)
Definition V2_SIG : list N := [0x5f; 0x53; 0x4d; 0x5f].
Definition V3_SIG : list N := [0x5f; 0x53; 0x4d; 0x33; 0x5f].
Definition STRIDE : N := 16.

(* lib.rs:343-351: the loop over buffer.chunks(STRIDE).enumerate() *)
Fixpoint find_signature_loop (idx : N) (cs : list (list N)) : option (EntryPointFormat * N) :=
  match cs with
  | [] => None
  | chunk :: cs' =>
    if starts_with chunk V2_SIG then Some (FmtV2, idx * STRIDE)
    else if starts_with chunk V3_SIG then Some (FmtV3, idx * STRIDE)
    else find_signature_loop (idx + 1) cs'
  end.

(* lib.rs:338-352 `find_signature` *)
Definition find_signature (buffer : list N) : option (EntryPointFormat * N) :=
  find_signature_loop 0 (chunks STRIDE buffer).

(* lib.rs:69-76 `let_as_struct!` on the search buffer: reading past the buffer
   is undefined *)
Definition read_struct (n : N) (b : list N) : out (list N) :=
  if n <=? len b then Val (take n b) else UB.

(* lib.rs:232-235, wrapping u8 sum *)
Definition wrapping_sum (l : list N) : N := fold_left (fun s v => (s + v) mod 256) l 0.

(* lib.rs:189-240 `EntryPoint::search` *)
Definition search (buffer : list N) : out (result InvalidEntryPointError EntryPoint) :=
  match find_signature buffer with
  | None => Val (Err NotFound)
  | Some (kind, start) =>
    let! sub_buffer := slice_index_from buffer start in
    let? entry_point :=
      match kind with
      | FmtV2 =>
        if negb (size_of_v2 <=? len sub_buffer) then Val (Err (EpBadSize (cast 8 (len sub_buffer)))) else
        let! p := read_struct size_of_v2 sub_buffer in
        let entry_point := v2_of_bytes p in
        if negb (size_of_v2 <=? v2_len entry_point) then Val (Err (EpBadSize (v2_len entry_point))) else
        Val (Ok (V2 entry_point))
      | FmtV3 =>
        if negb (size_of_v3 <=? len sub_buffer) then Val (Err (EpBadSize (cast 8 (len sub_buffer)))) else
        let! p := read_struct size_of_v3 sub_buffer in
        let entry_point := v3_of_bytes p in
        if negb (size_of_v3 <=? v3_len entry_point) then Val (Err (EpBadSize (v3_len entry_point))) else
        Val (Ok (V3 entry_point))
      end in
    if negb (2 <=? ep_major entry_point) then Val (Err (TooOldVersion (ep_major entry_point))) else
    if negb (ep_len entry_point <=? cast 8 (len sub_buffer)) then Val (Err (EpBadSize (cast 8 (len sub_buffer)))) else
    let! body := slice_index sub_buffer 0 (ep_len entry_point) in
    let sum := wrapping_sum body in
    if negb (sum =? 0) then Val (Err (BadChecksum sum)) else
    Val (Ok entry_point)
  end.
