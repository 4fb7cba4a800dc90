(* Model of /repo/src/structures/016_physical_memory_array.rs *)
From Verif Require Import Base G_Enums M_Raw.
Local Open Scope N_scope.

(* 016_physical_memory_array.rs:168-195 `struct PhysicalMemoryArray` *)
Record PhysicalMemoryArray := {
  array_handle : N;
  array_location : MemoryArrayLocation;
  array_use : MemoryArrayUse;
  array_memory_error_correction : MemoryArrayErrorCorrectionTypes;
  array_maximum_capacity : option N;
  array_memory_error_information_handle : option N;
  array_number_of_memory_devices : N;
  array_extended_maximum_capacity : option N
}.

(* 016_physical_memory_array.rs:251-279 get_word, get_dword, get_qword (w = 2, 4,
   8): `data[p..p + w]` panics outside the data and try_into always succeeds; value
   and advanced pointer *)
Definition get_uint (w pointer : N) (d : list N) : out (res (N * N)) :=
  let! s := slice_index d pointer (pointer + w) in
  Val (Ok (le s, pointer + w)).

(* 016_physical_memory_array.rs:224-249 get_optional_word, _dword, _qword *)
Definition get_optional_uint (w pointer : N) (d : list N) (none_val : N) : out (res (option N * N)) :=
  let? (x, pointer) := get_uint w pointer d in
  if x =? none_val then Val (Ok (None, pointer)) else Val (Ok (Some x, pointer)).

(* 016_physical_memory_array.rs:168 `derive(Default)`; the #[default] variants are
   the Unknown ones (lines 14, 81, 124) *)
Definition PhysicalMemoryArray_default : PhysicalMemoryArray := {|
  array_handle := 0;
  array_location := MemoryArrayLocation_Unknown;
  array_use := MemoryArrayUse_Unknown;
  array_memory_error_correction := MemoryArrayErrorCorrectionTypes_Unknown;
  array_maximum_capacity := None;
  array_memory_error_information_handle := None;
  array_number_of_memory_devices := 0;
  array_extended_maximum_capacity := None
|}.

(* 016_physical_memory_array.rs:197-222 `PhysicalMemoryArray::try_from`; the second
   component of the intermediate result is mem_pointer *)
Definition PhysicalMemoryArray_try_from (c : cfg) (r : RawStructure) : out (res PhysicalMemoryArray) :=
  let? (pma, mem_pointer) :=
    if version_gt (version r) (version_of 2 1) then
      let! location := index (data r) 0 in
      let! use := index (data r) 1 in
      let! ecc := index (data r) 2 in
      let? (maximum_capacity, p) := get_optional_uint 4 3 (data r) 0x80000000 in
      let? (error_handle, p) := get_optional_uint 2 p (data r) 0xFFFE in
      let? (devices, p) := get_uint 2 p (data r) in
      Val (Ok ({|
        array_handle := handle r;
        array_location := MemoryArrayLocation_from location;
        array_use := MemoryArrayUse_from use;
        array_memory_error_correction := MemoryArrayErrorCorrectionTypes_from ecc;
        array_maximum_capacity := maximum_capacity;
        array_memory_error_information_handle := error_handle;
        array_number_of_memory_devices := devices;
        array_extended_maximum_capacity := None
      |}, p))
    else Val (Ok (PhysicalMemoryArray_default, 0)) in
  if version_gt (version r) (version_of 2 7) then
    let? extended :=
      match array_maximum_capacity pma with
      | None => let? (x, _) := get_optional_uint 8 mem_pointer (data r) 0 in Val (Ok x)
      | Some _ => Val (Ok None)
      end in
    Val (Ok {|
      array_handle := array_handle pma;
      array_location := array_location pma;
      array_use := array_use pma;
      array_memory_error_correction := array_memory_error_correction pma;
      array_maximum_capacity := array_maximum_capacity pma;
      array_memory_error_information_handle := array_memory_error_information_handle pma;
      array_number_of_memory_devices := array_number_of_memory_devices pma;
      array_extended_maximum_capacity := extended
    |})
  else Val (Ok pma).
