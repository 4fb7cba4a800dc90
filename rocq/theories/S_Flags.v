(* Flag words (bitflags types): which bit the standard gives each flag, and what a caller
   is to learn about it. *)
From Coq Require Import String.
From Verif Require Import Base M_Raw M_Flags Spec.
Local Open Scope string_scope.
Local Open Scope N_scope.

(* the bits of a constant, by its name *)
Fixpoint constant (cs : constants) (name : string) : option N :=
  match cs with
  | [] => None
  | (n, bits) :: cs => if (n =? name)%string then Some bits else constant cs name
  end.

(* 7.3.1: baseboard feature flags *)
Definition board_features : list (N * string) := [
  (0, "HOSTING"); (1, "REQUIRES_DAUGHTER"); (2, "IS_REMOVABLE"); (3, "IS_REPLACEABLE"); (4, "IS_HOT_SWAPPABLE")].
(* 7.5.4: legacy voltages *)
Definition voltage_capabilities : list (N * string) := [
  (0, "VOLTAGE_CAPABILITY_5V0"); (1, "VOLTAGE_CAPABILITY_3V3"); (2, "VOLTAGE_CAPABILITY_2V9")].
(* 7.5.9: processor characteristics; bit 8 (128-bit capable) has no constant *)
Definition processor_characteristics : list (N * string) := [
  (0, "RESERVED"); (1, "UNKNOWN"); (2, "CAPABLE_64BIT"); (3, "MULTICORE"); (4, "HARDWARE_THREAD");
  (5, "EXECUTE_PROTECTION"); (6, "ENHANCED_VIRTUALIZATION"); (7, "POWER_PERFORMANCE_CONTROL"); (9, "ARM64_SOC_ID")].
(* 7.8.2: SRAM types *)
Definition sram_types : list (N * string) := [
  (0, "OTHER"); (1, "UNKNOWN"); (2, "NONBURST"); (3, "BURST"); (4, "PIPELINE_BURST"); (5, "SYNCHRONOUS"); (6, "ASYNCHRONOUS")].
(* 7.18.3: type detail of a memory device; bit 0 is reserved *)
Definition type_details : list (N * string) := [
  (1, "OTHER"); (2, "UNKNOWN"); (3, "FAST_PAGED"); (4, "STATIC_COLUMN"); (5, "PSEUDO_STATIC"); (6, "RAMBUS");
  (7, "SYNCHRONOUS"); (8, "CMOS"); (9, "EDO"); (10, "WINDOW_DRAM"); (11, "CACHE_DRAM"); (12, "NON_VOLATILE");
  (13, "REGISTERED"); (14, "UNREGISTERED"); (15, "LRDIMM")].
(* 7.18.7: operating mode capability; bit 0 is reserved *)
Definition operating_modes : list (N * string) := [
  (1, "OTHER"); (2, "UNKNOWN"); (3, "VOLATILE"); (4, "BYTE_ACCESSIBLE_PERSISTENT"); (5, "BLOCK_ACCESSIBLE_PERSISTENT")].

(* the types in which every flag is a bit *)
Definition flag_types : list (constants * list (N * string)) := [
  (BaseBoardFlags_constants, board_features);
  (VoltageLegacy_constants, voltage_capabilities);
  (ProcessorCharacteristics_constants, processor_characteristics);
  (CacheSramType_constants, sram_types);
  (Detail_constants, type_details);
  (OperatingModes_constants, operating_modes)].

(* What a caller learns from x, the flags decoded from the word k: each flag is there
   exactly if its bit is set, and the names that are listed are those of the set bits. *)
Definition tells (cs : constants) (names : list (N * string)) (k x : N) : Prop :=
  (forall bit name, In (bit, name) names ->
    exists f, constant cs name = Some f /\ contains x f = N.testbit k bit /\ intersects x f = N.testbit k bit) /\
  map fst (iter_names cs x) = map snd (filter (fun p => N.testbit k (fst p)) names).

(* 7.5: processor status: bit 6 tells whether the socket is populated, bits 2:0 are a
   code.  The constants of the codes: *)
Definition status_codes : list (N * string) := [
  (1, "CPU_ENABLED"); (2, "CPU_DISABLED_BY_USER"); (3, "CPU_DISABLED_BY_BIOS"); (4, "CPU_IDLE"); (7, "CPU_OTHER")].

(* What a caller learns about the status k of a processor from the decoded flags x: the
   code is in the bits of CPU_OTHER, and has to be compared with the constants. *)
Definition tells_status (k x : N) : Prop :=
  (exists f, constant ProcessorStatus_constants "CPU_SOCKET_POPULATED" = Some f /\ contains x f = N.testbit k 6) /\
  (forall code name, In (code, name) status_codes ->
    exists f m, constant ProcessorStatus_constants name = Some f /\ constant ProcessorStatus_constants "CPU_OTHER" = Some m /\
      (N.land x m = f <-> k mod 8 = code)).

(* the field at the offset holds some word, and x is its flags *)
Definition told (r : RawStructure) (offset w : N) (cs : constants) (names : list (N * string)) (x : N) : Prop :=
  exists k, field_is r offset w k /\ tells cs names k x.
