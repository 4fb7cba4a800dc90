(* C66: what the announced version changes. *)
From Coq Require Import String Lia.
From Verif Require Import Base G_Enums M_Raw M_Entry M_Bios M_System M_Processor M_Cache M_Strings M_PhysicalMemoryArray M_Iter.
From Verif Require Import Spec S_Iter S_Versions L_Versions P_System P_Hardware P_Memory.
Local Open Scope N_scope.

(* Decoding the same bytes in a newer version: what the older version showed stays
   there and stays the same, up to the changes that [grows] lists. *)
Theorem C66_newer_versions_only_add : forall c r v w x y, no_later v w ->
  dispatch c (at_version v r) = Val (Ok x) -> dispatch c (at_version w r) = Val (Ok y) -> grows v w x y.
Proof. exact dispatch_grows. Qed.
Print Assumptions C66_newer_versions_only_add.

(* The same for whole tables.  From 3.0 on the end marker ends the iteration, so the
   two versions are to be on the same side of that. *)
Theorem C66_tables : forall c v w l, no_later v w -> (3 <= major v <-> 3 <= major w) -> forall s e l' e',
  drains (next c) (announcing v s) l e -> drains (next c) (announcing w s) l' e' -> Forall2 (item_grows v w) l l'.
Proof. exact drains_grow. Qed.
Print Assumptions C66_tables.

(* Where a table is cut into structures does not depend on the version at all. *)
Theorem C66_framing_ignores_version : forall c v s o s', next_raw c s = Val (o, s') ->
  next_raw c (announcing v s) = Val (option_map (rmap (at_version v)) o, announcing v s').
Proof. intros c v s o s' H. rewrite next_raw_announcing, H. reflexivity. Qed.
Print Assumptions C66_framing_ignores_version.

Definition ver (a b : N) : SmbiosVersion := {| major := a; minor := b |}.

(* the exceptions are real: the byte order of the UUID, the processor family, the
   core count, the current language and everything in a memory array *)
Theorem C66_uuid_refuted : exists c r x y u u', dispatch c (at_version (ver 2 4) r) = Val (Ok (SSystem x)) /\
  dispatch c (at_version (ver 2 6) r) = Val (Ok (SSystem y)) /\ system_uuid x = Some u /\ system_uuid y = Some u' /\ u <> u'.
Proof.
  exists ex_strict, (ex_struct 2 7 InfoType_System ex_system_data []). do 4 eexists.
  split; [reflexivity|]. split; [reflexivity|]. split; [reflexivity|]. split; [reflexivity|]. vm_compute. discriminate.
Qed.
Print Assumptions C66_uuid_refuted.

Definition ex_family_data : list N :=
  [1; 3; 0xFE; 2; 1; 2; 3; 4; 5; 6; 7; 8; 3; 0x8C; 100; 0; 200; 0; 44; 1; 0x41; 1; 1; 0; 2; 0; 3; 0; 0; 0; 0;
   0xFF; 0xFF; 0xFF; 4; 0; 0x01; 0x01; 0x20; 1; 0x30; 1; 0x40; 1].
Theorem C66_processor_refuted : exists c r x y, dispatch c (at_version (ver 2 5) r) = Val (Ok (SProcessor x)) /\
  dispatch c (at_version (ver 3 0) r) = Val (Ok (SProcessor y)) /\
  processor_processor_family x <> processor_processor_family y /\
  processor_core_count x = Some 255 /\ processor_core_count y = Some 0x120.
Proof.
  exists ex_strict, (ex_struct 2 7 InfoType_Processor ex_family_data []). do 2 eexists.
  split; [reflexivity|]. split; [reflexivity|]. split; [vm_compute; discriminate|]. split; reflexivity.
Qed.
Print Assumptions C66_processor_refuted.

Theorem C66_language_refuted : exists c r x y, dispatch c (at_version (ver 2 0) r) = Val (Ok (SBiosLanguage x)) /\
  dispatch c (at_version (ver 2 1) r) = Val (Ok (SBiosLanguage y)) /\
  language_current_language x = 0 /\ language_current_language y = 2.
Proof.
  exists ex_strict, (ex_struct 2 7 InfoType_BiosLanguage [3; 1; 0; 0; 0; 0; 0; 0; 0; 0; 0; 0; 0; 0; 0; 0; 0; 2] []).
  do 2 eexists. split; [reflexivity|]. split; [reflexivity|]. split; reflexivity.
Qed.
Print Assumptions C66_language_refuted.

Theorem C66_array_refuted : exists c r x y, dispatch c (at_version (ver 2 1) r) = Val (Ok (SPhysicalMemoryArray x)) /\
  dispatch c (at_version (ver 2 2) r) = Val (Ok (SPhysicalMemoryArray y)) /\
  array_handle x <> array_handle y /\ array_number_of_memory_devices x = 0 /\ array_number_of_memory_devices y <> 0.
Proof.
  exists ex_strict, (ex_array 3 0 19). do 2 eexists. split; [reflexivity|]. split; [reflexivity|].
  split; [vm_compute; discriminate|]. split; [reflexivity|vm_compute; discriminate].
Qed.
Print Assumptions C66_array_refuted.

(* fields do appear: the hypotheses of C66_newer_versions_only_add on three versions
   of one BIOS structure *)
Example C66_example : let r := ex_struct 2 7 InfoType_Bios ex_bios_data [] in exists x y z,
  dispatch ex_strict (at_version (ver 2 3) r) = Val (Ok (SBios x)) /\
  dispatch ex_strict (at_version (ver 2 4) r) = Val (Ok (SBios y)) /\
  dispatch ex_strict (at_version (ver 3 1) r) = Val (Ok (SBios z)) /\
  no_later (ver 2 3) (ver 2 4) /\ no_later (ver 2 4) (ver 3 1) /\
  bios_revision x = None /\ bios_revision y = bios_revision z /\ bios_revision y <> None /\
  extended (bios_rom_size y) = None /\ extended (bios_rom_size z) <> None.
Proof.
  cbv zeta. do 3 eexists. split; [reflexivity|]. split; [reflexivity|]. split; [reflexivity|].
  split; [unfold no_later, ver; cbn [major minor]; lia|]. split; [unfold no_later, ver; cbn [major minor]; lia|].
  split; [reflexivity|]. split; [reflexivity|]. split; [vm_compute; discriminate|].
  split; [reflexivity|vm_compute; discriminate].
Qed.
(* and tables on which both iterations end *)
Example C66_tables_example :
  let s := {| smbios_version := ver 2 0; smbios_len_ := 12; idx := 0;
              buffer := [11; 5; 1; 0; 2; 65; 0; 66; 0; 0; 0; 0] |} in
  exists l e l' e', drains (next ex_strict) (announcing (ver 2 1) s) l e /\
    drains (next ex_strict) (announcing (ver 2 7) s) l' e' /\ len l = 1 /\ len l' = 1.
Proof.
  cbv zeta. do 4 eexists. split; [|split].
  - eapply drains_cons; [reflexivity|]. apply drains_nil. reflexivity.
  - eapply drains_cons; [reflexivity|]. apply drains_nil. reflexivity.
  - split; reflexivity.
Qed.
