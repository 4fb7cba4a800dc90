(* Property C79: what does and what does not depend on the byte order of the machine.
   M_Endian models the reading of entry points and headers on both kinds of machines; all
   other properties but C84 are about little-endian ones. *)
From Coq Require Import ZArith Lia ZifyBool ZifyNat ZifyN.
From Verif Require Import Base G_Enums M_Raw M_Entry M_Iter M_Endian T_Data Spec S_Endian L_Base L_Endian P_Iter.
Local Open Scope N_scope.

(* The rest of the model is the one of a little-endian machine. *)
Theorem C79_little_endian : (forall b, search_on false b = search b) /\ (forall c s, next_raw_on false c s = next_raw c s).
Proof. exact little_machine. Qed.
Print Assumptions C79_little_endian.

(* A big-endian machine accepts the same entry points, and gives the same errors for the
   others, but has the bytes of the wide fields in the opposite order. *)
Theorem C79_entry_point : forall b, all_bytes b ->
  (exists e f, search b = Val (Ok e) /\ search_on true b = Val (Ok f) /\ mirrored e f) \/
  (exists x, search b = Val (Err x) /\ search_on true b = Val (Err x)).
Proof. exact search_mirror. Qed.
Print Assumptions C79_entry_point.

(* From the same state both machines frame the same structure, up to its handle, and move
   on to the same state; whatever else happens is the same. *)
Theorem C79_structure : forall c s, all_bytes (buffer s) ->
  (exists r t s', next_raw c s = Val (Some (Ok r), s') /\ next_raw_on true c s = Val (Some (Ok t), s') /\ mirrored_raw r t) \/
  (next_raw_on true c s = next_raw c s /\ forall r s', next_raw c s <> Val (Some (Ok r), s')).
Proof. exact next_raw_mirror. Qed.
Print Assumptions C79_structure.

Definition unwrap (x : out (result InvalidEntryPointError EntryPoint)) : EntryPoint :=
  match x with Val (Ok e) => e | _ => ex_v2 0 end.

(* "The accessors give the stored numbers on every machine" is false: the entry point file
   that comes with the crate announces 2736 bytes; a big-endian machine reads 45066. *)
Theorem C79_same_numbers_refuted : exists b e f, search b = Val (Ok e) /\ search_on true b = Val (Ok f) /\
  ep_smbios_len e = 2736 /\ ep_smbios_len f = 45066 /\ ep_smbios_address e <> ep_smbios_address f.
Proof.
  exists entry_bin, (unwrap (search entry_bin)), (unwrap (search_on true entry_bin)).
  split; [vm_compute; reflexivity|]. split; [vm_compute; reflexivity|]. split; [vm_compute; reflexivity|].
  split; [vm_compute; reflexivity|]. vm_compute. discriminate.
Qed.
Print Assumptions C79_same_numbers_refuted.

(* With that length the iteration over the table file does not stop at its end: where a
   little-endian machine stops after 69 structures, a big-endian one reads a header behind the buffer. *)
Theorem C79_table_refuted : exists l1 s1 l2,
  runs (next_raw_on false ex_cfg) (structures (unwrap (search_on false entry_bin)) dmi_bin) l1 (Exhausted s1) /\
  runs (next_raw_on true ex_cfg) (structures (unwrap (search_on true entry_bin)) dmi_bin) l2 Undefined /\
  len l1 = 69 /\ len l2 = 69.
Proof.
  assert (E1 : match chase (next_raw_on false ex_cfg) 200 (structures (unwrap (search_on false entry_bin)) dmi_bin) with
               | Some (Exhausted _, k) => k =? 69 | _ => false end = true) by (vm_compute; reflexivity).
  assert (E2 : chase (next_raw_on true ex_cfg) 200 (structures (unwrap (search_on true entry_bin)) dmi_bin) = Some (Undefined, 69))
    by (vm_compute; reflexivity).
  destruct (chase (next_raw_on false ex_cfg) 200 (structures (unwrap (search_on false entry_bin)) dmi_bin)) as [[[s1| |] k1]|] eqn:C1;
    try discriminate E1.
  apply N.eqb_eq in E1. subst k1.
  destruct (chase_runs _ _ _ _ _ C1) as [l1 [R1 K1]]. destruct (chase_runs _ _ _ _ _ E2) as [l2 [R2 K2]].
  exists l1, s1, l2. split; [exact R1|]. split; [exact R2|]. split; assumption.
Qed.
Print Assumptions C79_table_refuted.
Example C79_example : reversed 2 2736 45066.
Proof. exists [0xB0; 0x0A]. repeat split; repeat constructor. Qed.
