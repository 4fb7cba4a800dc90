(* C10 and C11 without the 32 bit bound of sane: buffers of more than 4 GiB.
   Vocabulary: Spec.v, S_Iter.v. *)
From Verif Require Import Base M_Raw M_Entry M_Iter Spec S_Iter L_Huge P_System P_Iter.
Local Open Scope N_scope.

(* In builds that wrap, iteration need not end (C11 for larger buffers is false),
   whatever the entry point says: positions wrap and come back to the start. *)
Theorem C11_huge_refuted : forall c e, overflow_checks c = false -> 100 <= ep_smbios_len e ->
  exists b, all_bytes b /\ forall l en, ~ runs (next c) (structures e b) l en.
Proof. exact wide_endless. Qed.
Print Assumptions C11_huge_refuted.

(* In all builds, strings of more than 4 GiB are cut (C10 for larger buffers is
   false), and iteration goes on in their middle. *)
Theorem C10_huge_refuted : forall c e, 100 <= ep_smbios_len e ->
  exists b r s', all_bytes b /\ string_area (drop 4 b) /\
    next c (structures e b) = Val (Some (Ok (SOther r)), s') /\ ~ string_area (strings r) /\ idx s' = 14.
Proof. exact long_cut. Qed.
Print Assumptions C10_huge_refuted.

Example C11_huge_example : overflow_checks ex_flat = false /\ 100 <= ep_smbios_len (ex_v2 1000) /\
  100 <= ep_smbios_len (ex_v3 100000).
Proof. split; [reflexivity|]. split; vm_compute; discriminate. Qed.
