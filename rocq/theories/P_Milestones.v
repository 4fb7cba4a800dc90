(* C106: the versions at which the reading of a table changes.  Specification: S_Milestones.v. *)
From Coq Require Import String Lia.
From Verif Require Import Base G_Enums M_Raw M_Entry M_Cache M_PhysicalMemoryArray M_Iter.
From Verif Require Import Spec S_Iter S_Versions S_Milestones L_Versions L_Milestones P_System P_Versions P_Iter.
Local Open Scope N_scope.

(* Two announced versions decode all structures of a type in the same way (same outcome, same
   error, same value) if and only if none of the milestones of that type lies between them. *)
Theorem C106_exactly : forall i v w,
  (forall c r, info r = i -> dispatch c (at_version w r) = renumbered_course w (dispatch c (at_version v r))) <->
  same_side v w (milestones i).
Proof. exact same_exactly. Qed.
Print Assumptions C106_exactly.

(* The same for the iterator: a step over the same bytes is the same in both versions, for all
   bytes, if and only if no milestone of any type lies between them. *)
Theorem C106_tables_exactly : forall v w,
  (forall c s, next c (announcing w s) = renumbered_step w (next c (announcing v s))) <-> same_side v w all_milestones.
Proof. exact tables_exactly. Qed.
Print Assumptions C106_tables_exactly.

(* So are whole iterations. *)
Theorem C106_tables : forall c v w s l e, same_side v w all_milestones ->
  drains (next c) (announcing v s) l e ->
  drains (next c) (announcing w s) (map (renumbered_item w) l) (announcing w e).
Proof. exact drains_same. Qed.
Print Assumptions C106_tables.

(* Versions that came after the crate was written: from 3.2 on everything is read alike,
   whatever entry points announce it. *)
Theorem C106_later_versions : forall c e e' t l s,
  from_version (ep_to_version e) 3 2 -> from_version (ep_to_version e') 3 2 -> ep_smbios_len e = ep_smbios_len e' ->
  drains (next c) (structures e t) l s ->
  exists s', drains (next c) (structures e' t) (map (renumbered_item (ep_to_version e')) l) s'.
Proof.
  intros c e e' t l s H H' L D. exists (announcing (ep_to_version e') s).
  replace (structures e' t) with (announcing (ep_to_version e') (structures e t)) by (unfold announcing, structures; cbn; rewrite L; reflexivity).
  apply (drains_same c (ep_to_version e)); [exact (from_last _ _ H H')|exact D].
Qed.
Print Assumptions C106_later_versions.

(* The standard gave caches their larger sizes in 3.1, and memory arrays their contents in 2.1
   and their larger capacity in 2.7.  In tables of just these versions they are read as in the
   version before. *)
Theorem C106_standard_refuted : forall c r,
  (info r = InfoType_Cache -> dispatch c (at_version (ver 3 1) r) = dispatch c (at_version (ver 3 0) r)) /\
  (info r = InfoType_PhysicalMemoryArray ->
    dispatch c (at_version (ver 2 1) r) = dispatch c (at_version (ver 2 0) r) /\
    dispatch c (at_version (ver 2 7) r) = dispatch c (at_version (ver 2 6) r)).
Proof.
  assert (P : forall c r i v w, info r = i -> i = InfoType_Cache \/ i = InfoType_PhysicalMemoryArray ->
    same_side v w (milestones i) -> dispatch c (at_version w r) = dispatch c (at_version v r)).
  { intros c r i v w <- K S. rewrite (dispatch_same c r v w S). unfold dispatch. cbn [info at_version].
    destruct K as [K|K]; rewrite K; apply plain_course; reflexivity. }
  intros c r. split; [intros I|intros I; split]; (apply (P c r _ _ _ I); [tauto|]);
    intros a b HI; cbn [milestones In] in HI;
    repeat (destruct HI as [HI|HI]; [apply pair_equal_spec in HI as [<- <-]; unfold from_version; cbn; lia|]); contradiction HI.
Qed.
Print Assumptions C106_standard_refuted.

(* 2.9 and 3.0 lie on the same side of every milestone of a BIOS structure, 3.0 and 3.1 do not,
   and the decoded values show it. *)
Example C106_example :
  same_side (ver 2 9) (ver 3 0) (milestones InfoType_Bios) /\ ~ same_side (ver 3 0) (ver 3 1) (milestones InfoType_Bios) /\
  dispatch ex_strict (at_version (ver 2 9) (ex_struct 2 0 InfoType_Bios ex_bios_data [])) =
  dispatch ex_strict (at_version (ver 3 0) (ex_struct 2 0 InfoType_Bios ex_bios_data [])) /\
  dispatch ex_strict (at_version (ver 3 0) (ex_struct 2 0 InfoType_Bios ex_bios_data [])) <>
  dispatch ex_strict (at_version (ver 3 1) (ex_struct 2 0 InfoType_Bios ex_bios_data [])).
Proof.
  split; [|split; [|split]].
  - intros a b H. cbn in H. repeat (destruct H as [H|H]; [apply pair_equal_spec in H as [<- <-]; unfold from_version; cbn; lia|]). contradiction H.
  - intros H. specialize (H 3 1 ltac:(cbn; tauto)). unfold from_version in H. cbn in H. lia.
  - vm_compute. reflexivity.
  - vm_compute. discriminate.
Qed.

(* 3.7 and 9.0 are on the same side of all milestones. *)
Example C106_later_example : same_side (ver 3 7) (ver 9 0) all_milestones /\ ~ same_side (ver 2 8) (ver 3 0) all_milestones.
Proof.
  split; [apply from_last; unfold from_version; cbn; lia|].
  intros H. specialize (H 3 0 ltac:(cbn; tauto)). unfold from_version in H. cbn in H. lia.
Qed.

(* A table with a cache of 3.2 in it and an entry point of that version that can be gone through. *)
Definition ex_cache_table : list N :=
  [7; 27; 7; 0; 1; 0xA9; 0x01; 0x00; 0x01; 0x04; 0x80; 0x21; 0x01; 0x20; 0x00; 10; 5; 4; 7; 0x00; 0x01; 0; 0; 0x04; 0; 0; 0x80;
   65; 0; 0].
Example C106_table_example : from_version (ep_to_version (ex_v3 30)) 3 2 /\
  exists x s, drains (next ex_cfg) (structures (ex_v3 30) ex_cache_table) [Ok (SCache x)] s /\
    cache_maximum_cache_size_2 x <> None.
Proof.
  split; [unfold from_version; cbn; lia|]. do 2 eexists. split.
  - eapply drains_cons; [vm_compute; reflexivity|]. apply drains_nil. vm_compute. reflexivity.
  - vm_compute. discriminate.
Qed.
