(* Model of the flag types that /repo/src declares with `bitflags!` (bitflags 2.9.1).
   The macro and its crate are not in /repo; the operations below are modelled after
   their documentation. *)
From Coq Require Import String.
From Verif Require Import Base.
Local Open Scope string_scope.
Local Open Scope N_scope.

(* the constants of a type: name and bits, in the order of the declaration *)
Definition constants := list (string * N).

(* `all`: the bits of all constants *)
Definition all_bits (cs : constants) : N := fold_right N.lor 0 (map snd cs).
(* `from_bits_truncate`: unknown bits are dropped *)
Definition from_bits_truncate (cs : constants) (bits : N) : N := N.land bits (all_bits cs).
(* `from_bits`: None if there are unknown bits *)
Definition from_bits (cs : constants) (bits : N) : option N :=
  if from_bits_truncate cs bits =? bits then Some bits else None.
(* `contains`, `intersects`, `is_empty`, `is_all` *)
Definition contains (x other : N) : bool := N.land x other =? other.
Definition intersects (x other : N) : bool := negb (N.land x other =? 0).
Definition is_empty (x : N) : bool := x =? 0.
Definition is_all (cs : constants) (x : N) : bool := N.lor (all_bits cs) x =? x.
(* `iter_names`: the constants contained in the source, in the order of the
   declaration, without those whose bits have all been covered before *)
Fixpoint iter_names_loop (source remaining : N) (cs : constants) : constants :=
  match cs with
  | [] => []
  | (name, bits) :: cs =>
    if contains source bits && intersects remaining bits
    then (name, bits) :: iter_names_loop source (N.ldiff remaining bits) cs
    else iter_names_loop source remaining cs
  end.
Definition iter_names (cs : constants) (x : N) : constants := iter_names_loop x x cs.

(* 002_baseboard.rs:74-84 *)
Definition BaseBoardFlags_constants : constants := [
  ("HOSTING", 1); ("REQUIRES_DAUGHTER", 2); ("IS_REMOVABLE", 4); ("IS_REPLACEABLE", 8); ("IS_HOT_SWAPPABLE", 16)].

(* 004_processor.rs:42-53 *)
Definition ProcessorStatus_constants : constants := [
  ("CPU_SOCKET_POPULATED", 64); ("CPU_ENABLED", 1); ("CPU_DISABLED_BY_USER", 2); ("CPU_DISABLED_BY_BIOS", 3);
  ("CPU_IDLE", 4); ("CPU_OTHER", 7)].

(* 004_processor.rs:55-69 *)
Definition ProcessorCharacteristics_constants : constants := [
  ("RESERVED", 1); ("UNKNOWN", 2); ("CAPABLE_64BIT", 4); ("MULTICORE", 8); ("HARDWARE_THREAD", 16);
  ("EXECUTE_PROTECTION", 32); ("ENHANCED_VIRTUALIZATION", 64); ("POWER_PERFORMANCE_CONTROL", 128); ("ARM64_SOC_ID", 512)].

(* 004_processor.rs:393-401 *)
Definition VoltageLegacy_constants : constants := [
  ("VOLTAGE_CAPABILITY_5V0", 1); ("VOLTAGE_CAPABILITY_3V3", 2); ("VOLTAGE_CAPABILITY_2V9", 4)].

(* 007_cache.rs:101-113 *)
Definition CacheSramType_constants : constants := [
  ("OTHER", 1); ("UNKNOWN", 2); ("NONBURST", 4); ("BURST", 8); ("PIPELINE_BURST", 16); ("SYNCHRONOUS", 32); ("ASYNCHRONOUS", 64)].

(* 017_memory_device.rs:256-277 *)
Definition Detail_constants : constants := [
  ("RESERVED", 0); ("OTHER", 2); ("UNKNOWN", 4); ("FAST_PAGED", 8); ("STATIC_COLUMN", 16); ("PSEUDO_STATIC", 32);
  ("RAMBUS", 64); ("SYNCHRONOUS", 128); ("CMOS", 256); ("EDO", 512); ("WINDOW_DRAM", 1024); ("CACHE_DRAM", 2048);
  ("NON_VOLATILE", 4096); ("REGISTERED", 8192); ("UNREGISTERED", 16384); ("LRDIMM", 32768)].

(* 017_memory_device.rs:285-295 *)
Definition OperatingModes_constants : constants := [
  ("RESERVED", 0); ("OTHER", 2); ("UNKNOWN", 4); ("VOLATILE", 8); ("BYTE_ACCESSIBLE_PERSISTENT", 16);
  ("BLOCK_ACCESSIBLE_PERSISTENT", 32)].
