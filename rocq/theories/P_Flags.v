(* Property C76: flags mean the bits the standard gives them. *)
From Coq Require Import String.
From Coq Require Import ZArith Lia ZifyBool ZifyNat ZifyN.
From Verif Require Import Base G_Enums M_Raw M_BaseBoard M_Processor M_Cache M_MemoryDevice M_Flags T_Data
  Spec S_Decode S_System S_Hardware S_Memory S_Flags L_Base L_Flags P_System P_Hardware P_Memory.
Local Open Scope string_scope.
Local Open Scope N_scope.
Ltac Zify.zify_post_hook ::= Z.div_mod_to_equations.

(* For each of the six types whose flags are bits and every word whatsoever: after the
   unknown bits have been dropped, each flag is contained exactly if its bit was set, and
   the names listed are those of the set bits, lowest first. *)
Theorem C76_flags : forall cs names k, In (cs, names) flag_types -> tells cs names k (from_bits_truncate cs k).
Proof. exact truncated_tells. Qed.
Print Assumptions C76_flags.
(* The flags are empty exactly if no bit with a flag is set, all of them are there exactly if
   each such bit is set, and a word is accepted as flags exactly if it has no other bits. *)
Theorem C76_whole_words : forall cs names k, In (cs, names) flag_types ->
  (is_empty (from_bits_truncate cs k) = true <-> forall bit name, In (bit, name) names -> N.testbit k bit = false) /\
  (is_all cs (from_bits_truncate cs k) = true <-> forall bit name, In (bit, name) names -> N.testbit k bit = true) /\
  (forall x, from_bits cs k = Some x <-> x = k /\ forall bit, N.testbit k bit = true -> exists name, In (bit, name) names).
Proof. exact whole_words. Qed.
Print Assumptions C76_whole_words.
(* the decoders drop exactly the bits that belong to no constant *)
Theorem C76_truncate : forall k,
  BaseBoardFlags_truncate k = from_bits_truncate BaseBoardFlags_constants k /\
  ProcessorStatus_truncate k = from_bits_truncate ProcessorStatus_constants k /\
  ProcessorCharacteristics_truncate k = from_bits_truncate ProcessorCharacteristics_constants k /\
  CacheSramType_truncate k = from_bits_truncate CacheSramType_constants k /\
  Detail_truncate k = from_bits_truncate Detail_constants k /\
  OperatingModes_truncate k = from_bits_truncate OperatingModes_constants k /\
  (N.land k 0x80 = 0 -> N.land k 0x78 = 0 -> Voltage_from k = Voltage_Legacy (from_bits_truncate VoltageLegacy_constants k)).
Proof. exact truncates. Qed.
Print Assumptions C76_truncate.

(* So a decoded structure tells each flag from the bytes it was read from. *)
Theorem C76_board : forall c r b s f, readable c 10 r b -> BaseBoard_try_from c r = Val (Ok s) ->
  baseboard_feature_flags s = Some f -> told b 0x09 1 BaseBoardFlags_constants board_features f.
Proof. exact board_told. Qed.
Print Assumptions C76_board.
Theorem C76_processor : forall c r s,
  all_bytes (data r) -> Processor_area (version r) <= len (data r) -> Processor_try_from c r = Val (Ok s) ->
  (exists k, field_is r 0x18 1 k /\ tells_status k (processor_status s)) /\
  (forall f, processor_processor_characteristics s = Some f ->
    told r 0x26 2 ProcessorCharacteristics_constants processor_characteristics f) /\
  (forall f, processor_voltage s = Voltage_Legacy f -> told r 0x11 1 VoltageLegacy_constants voltage_capabilities f).
Proof. exact processor_told. Qed.
Print Assumptions C76_processor.
Theorem C76_cache : forall c r s,
  all_bytes (data r) -> from_version (version r) 2 1 -> Cache_area (version r) <= len (data r) -> Cache_try_from c r = Val (Ok s) ->
  told r 0x0B 2 CacheSramType_constants sram_types (cache_supported_sram_type s) /\
  told r 0x0D 2 CacheSramType_constants sram_types (cache_current_sram_type s).
Proof. exact cache_told. Qed.
Print Assumptions C76_cache.
Theorem C76_memory_device : forall c r s, MemoryDevice_try_from c r = Val (Ok s) ->
  told r 0x13 2 Detail_constants type_details (memdev_type_detail s) /\
  (forall f, memdev_operating_mode_capability s = Some f -> told r 0x29 2 OperatingModes_constants operating_modes f).
Proof. exact memory_told. Qed.
Print Assumptions C76_memory_device.

(* "each status is told by `contains`" is false: the status is a code, not a set of
   flags.  A processor disabled by the BIOS (code 3) is, going by `contains`, enabled and
   disabled by the user as well, and one with status "other" (7) is everything. *)
Theorem C76_status_contains_refuted : forall k, (k mod 8 = 3 \/ k mod 8 = 7) ->
  forall n f, In (n, f) [("CPU_ENABLED", 1); ("CPU_DISABLED_BY_USER", 2); ("CPU_DISABLED_BY_BIOS", 3)] ->
  constant ProcessorStatus_constants n = Some f /\ contains (ProcessorStatus_truncate k) f = true.
Proof.
  intros k H n f I.
  assert (T : N.testbit k 0 = true /\ N.testbit k 1 = true).
  { rewrite <- (N.mod_pow2_bits_low k 3 0), <- (N.mod_pow2_bits_low k 3 1) by lia. change (2 ^ 3) with 8. destruct H as [-> | ->]; split; reflexivity. }
  destruct T as [T0 T1]. unfold ProcessorStatus_truncate.
  cbn [In] in I. decompose [or] I; try contradiction; match goal with E : _ = (n, f) |- _ => injection E as <- <- end; (split; [reflexivity|]).
  - change 1 with (2 ^ 0). rewrite contains_bit, N.land_spec, T0. reflexivity.
  - change 2 with (2 ^ 1). rewrite contains_bit, N.land_spec, T1. reflexivity.
  - rewrite status_bios, !N.land_spec, T0, T1. reflexivity.
Qed.
Print Assumptions C76_status_contains_refuted.
(* "the names listed for a status include the name of its code" is false: for no status
   are CPU_DISABLED_BY_BIOS and CPU_OTHER ever listed *)
Theorem C76_status_listed_refuted : forall x n f, x < 256 ->
  In (n, f) (iter_names ProcessorStatus_constants x) -> n <> "CPU_DISABLED_BY_BIOS" /\ n <> "CPU_OTHER".
Proof. exact status_listed. Qed.
Print Assumptions C76_status_listed_refuted.
(* "RESERVED tells whether the reserved bit is set" is false for memory devices: the
   constant has no bits, so every value contains it and none lists it *)
Theorem C76_reserved_refuted : forall cs, In cs [Detail_constants; OperatingModes_constants] ->
  exists f, constant cs "RESERVED" = Some f /\ forall x, contains x f = true /\ intersects x f = false /\ ~ In ("RESERVED", f) (iter_names cs x).
Proof.
  intros cs I. exists 0. split; [cbn [In] in I; destruct I as [<-|[<-|[]]]; reflexivity|]. intros x.
  unfold contains, intersects. rewrite N.land_0_r. split; [reflexivity|split; [reflexivity|]].
  assert (G : forall cs rem n, ~ In (n, 0) (iter_names_loop x rem cs)).
  { clear. induction cs as [|[m v] cs IH]; intros rem n; [intros []|]. cbn [iter_names_loop].
    destruct (contains x v && intersects rem v) eqn:E; [|apply IH]. intros [X|X]; [|apply (IH _ _ X)].
    injection X as -> ->. unfold intersects in E. rewrite N.land_0_r, andb_false_r in E. discriminate. }
  apply G.
Qed.
Print Assumptions C76_reserved_refuted.
(* "every characteristic of a processor is reported" is false: bit 8, by which the
   standard says that the processor is 128-bit capable, has no constant and is dropped *)
Theorem C76_128_bit_refuted : forall c r s f, all_bytes (data r) -> Processor_area (version r) <= len (data r) ->
  Processor_try_from c r = Val (Ok s) -> processor_processor_characteristics s = Some f -> N.testbit f 8 = false.
Proof.
  intros c r s f A L H E. apply (C27_processor_decodes c r s A L) in H. destruct H as [_ _ _ _ _ _ _ _ _ _ _ _ _ _ _ _ _ _ _ _ _ _ C].
  rewrite E in C. destruct C as [[_ [x [X [k [_ C]]]]]|[_ X]]; [|discriminate]. injection X as <-. rewrite (C 8). cbn. apply andb_false_r.
Qed.
Print Assumptions C76_128_bit_refuted.

(* concrete cases *)
Example C76_example :
  from_bits_truncate CacheSramType_constants 0xFFA5 = 0x25 /\
  map fst (iter_names CacheSramType_constants 0x25) = ["OTHER"; "NONBURST"; "SYNCHRONOUS"] /\
  is_empty (from_bits_truncate CacheSramType_constants 0xFF80) = true /\ is_all CacheSramType_constants 0x7F = true /\
  from_bits CacheSramType_constants 0x25 = Some 0x25 /\ from_bits CacheSramType_constants 0xA5 = None /\
  contains 0x25 4 = true /\ contains 0x25 8 = false /\
  In (CacheSramType_constants, sram_types) flag_types.
Proof. repeat split; try reflexivity. cbn. tauto. Qed.
Example C76_processor_example : exists s,
  Processor_try_from ex_strict (ex_processor 3 0) = Val (Ok s) /\ processor_processor_characteristics s = Some 0x2FC /\
  map fst (iter_names ProcessorCharacteristics_constants 0x2FC) =
    ["CAPABLE_64BIT"; "MULTICORE"; "HARDWARE_THREAD"; "EXECUTE_PROTECTION"; "ENHANCED_VIRTUALIZATION"; "POWER_PERFORMANCE_CONTROL"; "ARM64_SOC_ID"] /\
  all_bytes (data (ex_processor 3 0)) /\ Processor_area (version (ex_processor 3 0)) <= len (data (ex_processor 3 0)).
Proof.
  eexists. split; [vm_compute; reflexivity|]. split; [reflexivity|]. split; [vm_compute; reflexivity|]. split; [|vm_compute; discriminate].
  apply C27_example.
Qed.
Example C76_status_example :
  map fst (iter_names ProcessorStatus_constants 0x41) = ["CPU_SOCKET_POPULATED"; "CPU_ENABLED"] /\
  map fst (iter_names ProcessorStatus_constants 0x43) = ["CPU_SOCKET_POPULATED"; "CPU_ENABLED"; "CPU_DISABLED_BY_USER"] /\
  N.land 0x43 7 = 3.
Proof. repeat split. Qed.
