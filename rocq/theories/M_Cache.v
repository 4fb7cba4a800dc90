(* Model of /repo/src/structures/007_cache.rs *)
From Verif Require Import Base G_Enums M_Raw.
Local Open Scope N_scope.

(* 007_cache.rs:52-66 `struct CacheConfiguration` *)
Record CacheConfiguration := {
  level : CacheLevel;
  socketed : bool;
  location : CacheLocation;
  enabled_at_boot_time : bool;
  operational_mode : CacheOperationalMode
}.

(* 007_cache.rs:94-99 `enum CacheSize` and 162-167 `enum CacheSize2` *)
Inductive CacheSize := Granularity1K (v : N) | Granularity64K (v : N).
Inductive CacheSize2 := Granularity1K_2 (v : N) | Granularity64K_2 (v : N).

(* 007_cache.rs:18-50 `struct Cache`; CacheSramType is its bits *)
Record Cache := {
  cache_handle : N;
  cache_socket_designation : text;
  cache_cache_configuration : CacheConfiguration;
  cache_maximum_cache_size : CacheSize;
  cache_installed_size : CacheSize;
  cache_supported_sram_type : N;
  cache_current_sram_type : N;
  cache_cache_speed : option N;
  cache_error_correction_type : option CacheErrorCorrectionType;
  cache_system_cache_type : option SystemCacheType;
  cache_associativity : option CacheAssociativity;
  cache_maximum_cache_size_2 : option CacheSize2;
  cache_installed_size_2 : option CacheSize2
}.

(* 007_cache.rs:101-113 `bitflags! CacheSramType` names bits 0..6 *)
Definition CacheSramType_truncate (w : N) : N := N.land w 0x7F.

(* 007_cache.rs:274-284 `impl From<u16> for CacheConfiguration`; the three From
   impls it uses end in unreachable!(), so they return an outcome *)
Definition CacheConfiguration_from (word : N) : out CacheConfiguration :=
  let! level := CacheLevel_from (N.land word 0x07) in
  let! location := CacheLocation_from (N.shiftr (N.land word 0x60) 5) in
  let! operational_mode := CacheOperationalMode_from (N.shiftr (N.land word 0x300) 8) in
  Val {| level := level;
         socketed := N.shiftr (N.land word 0x08) 3 =? 1;
         location := location;
         enabled_at_boot_time := N.shiftr (N.land word 0x80) 7 =? 1;
         operational_mode := operational_mode |}.

(* 007_cache.rs:286-295 `impl From<u16> for CacheSize`; !(1 << 15) = 0x7FFF *)
Definition CacheSize_from (word : N) : CacheSize :=
  let val := N.land word 0x7FFF in
  if N.land word 0x8000 =? 0 then Granularity1K val else Granularity64K val.

(* 007_cache.rs:296-303 `CacheSize::bytes`; u64 arithmetic *)
Definition CacheSize_bytes (c : cfg) (s : CacheSize) : out N :=
  match s with
  | Granularity1K v => u_mul c 64 v (2 ^ 10)
  | Granularity64K v => u_mul c 64 v (2 ^ 16)
  end.

(* 007_cache.rs:474-483 `impl From<u32> for CacheSize2`; !(1 << 31) = 0x7FFFFFFF *)
Definition CacheSize2_from (dword : N) : CacheSize2 :=
  let val := N.land dword 0x7FFFFFFF in
  if N.land dword 0x80000000 =? 0 then Granularity1K_2 val else Granularity64K_2 val.

(* 007_cache.rs:484-491 `CacheSize2::bytes` *)
Definition CacheSize2_bytes (c : cfg) (s : CacheSize2) : out N :=
  match s with
  | Granularity1K_2 v => u_mul c 64 v (2 ^ 10)
  | Granularity64K_2 v => u_mul c 64 v (2 ^ 16)
  end.

(* 007_cache.rs:170-272 `Cache::try_from`; packed layouts of 23, 15 and 11 bytes.
   The comparisons are strict: 3.1, 2.1 and 2.0 fall through to the next branch. *)
Definition Cache_try_from (c : cfg) (r : RawStructure) : out (res Cache) :=
  if version_gt (version r) (version_of 3 1) then
    let! p := read_packed c 23 r in
    let? socket_designation := Val (find_string r (at_ 0 1 p)) in
    let! cache_configuration := CacheConfiguration_from (at_ 1 2 p) in
    Val (Ok {|
      cache_handle := handle r;
      cache_socket_designation := socket_designation;
      cache_cache_configuration := cache_configuration;
      cache_maximum_cache_size := CacheSize_from (at_ 3 2 p);
      cache_installed_size := CacheSize_from (at_ 5 2 p);
      cache_supported_sram_type := CacheSramType_truncate (at_ 7 2 p);
      cache_current_sram_type := CacheSramType_truncate (at_ 9 2 p);
      cache_cache_speed := Some (at_ 11 1 p);
      cache_error_correction_type := Some (CacheErrorCorrectionType_from (at_ 12 1 p));
      cache_system_cache_type := Some (SystemCacheType_from (at_ 13 1 p));
      cache_associativity := Some (CacheAssociativity_from (at_ 14 1 p));
      cache_maximum_cache_size_2 := Some (CacheSize2_from (at_ 15 4 p));
      cache_installed_size_2 := Some (CacheSize2_from (at_ 19 4 p))
    |})
  else if version_gt (version r) (version_of 2 1) then
    let! p := read_packed c 15 r in
    let? socket_designation := Val (find_string r (at_ 0 1 p)) in
    let! cache_configuration := CacheConfiguration_from (at_ 1 2 p) in
    Val (Ok {|
      cache_handle := handle r;
      cache_socket_designation := socket_designation;
      cache_cache_configuration := cache_configuration;
      cache_maximum_cache_size := CacheSize_from (at_ 3 2 p);
      cache_installed_size := CacheSize_from (at_ 5 2 p);
      cache_supported_sram_type := CacheSramType_truncate (at_ 7 2 p);
      cache_current_sram_type := CacheSramType_truncate (at_ 9 2 p);
      cache_cache_speed := Some (at_ 11 1 p);
      cache_error_correction_type := Some (CacheErrorCorrectionType_from (at_ 12 1 p));
      cache_system_cache_type := Some (SystemCacheType_from (at_ 13 1 p));
      cache_associativity := Some (CacheAssociativity_from (at_ 14 1 p));
      cache_maximum_cache_size_2 := None;
      cache_installed_size_2 := None
    |})
  else if version_gt (version r) (version_of 2 0) then
    let! p := read_packed c 11 r in
    let? socket_designation := Val (find_string r (at_ 0 1 p)) in
    let! cache_configuration := CacheConfiguration_from (at_ 1 2 p) in
    Val (Ok {|
      cache_handle := handle r;
      cache_socket_designation := socket_designation;
      cache_cache_configuration := cache_configuration;
      cache_maximum_cache_size := CacheSize_from (at_ 3 2 p);
      cache_installed_size := CacheSize_from (at_ 5 2 p);
      cache_supported_sram_type := CacheSramType_truncate (at_ 7 2 p);
      cache_current_sram_type := CacheSramType_truncate (at_ 9 2 p);
      cache_cache_speed := None;
      cache_error_correction_type := None;
      cache_system_cache_type := None;
      cache_associativity := None;
      cache_maximum_cache_size_2 := None;
      cache_installed_size_2 := None
    |})
  else Panic.
