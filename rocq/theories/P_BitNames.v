(* Property C74: the flags of a flag word carry the names that the standard gives its bits.
   Vocabulary: S_BitNames.v (the names by bit number, named_by). *)
From Coq Require Import String.
From Coq Require Import ZArith Lia ZifyBool ZifyNat ZifyN.
From Verif Require Import Base G_Enums M_Raw M_Bitfield G_Layouts M_Bios M_SystemSlots M_Strings M_SystemEventLog.
From Verif Require Import Spec S_Decode S_Bitfield S_System S_Hardware S_Lists S_EventLog S_BitNames.
From Verif Require Import L_Base L_Decode L_Bitfield L_BitNames P_System P_Hardware P_Lists P_EventLog.
Local Open Scope N_scope.

(* Iterating any value of any flag word yields one flag per bit, in order; each tells
   whether its bit is set, and carries the name of that bit. *)
Theorem C74_names : forall c size v l names, In (size, l, names) named_layouts -> named_by c size v l names.
Proof. exact named_iter. Qed.
Print Assumptions C74_names.

(* these are all flag words that there are *)
Theorem C74_all_layouts : map fst named_layouts = all_layouts.
Proof. reflexivity. Qed.
Print Assumptions C74_all_layouts.

(* Every bit of the word has a name or a note in the tables, and no bit beyond it has. *)
Theorem C74_every_bit : forall size l names k, In (size, l, names) named_layouts ->
  (k < size * 8 <-> exists t, called names k = Some t).
Proof. exact one_name. Qed.
Print Assumptions C74_every_bit.

(* The same from the bytes of a structure: BIOS (types Characteristics,
   CharacteristicsExtension1 and 2), ... *)
Theorem C74_bios : forall c r b, Bios_area (version r) <= len (data r) -> Bios_try_from c r = Val (Ok b) ->
  (field_is r 0x0A 8 (bios_characteristics b) /\ named_by c 8 (bios_characteristics b) Characteristics_layout bios_bits) /\
  when (from_version (version r) 2 4)
    (fun x => field_is r 0x12 1 x /\ named_by c 1 x CharacteristicsExtension1_layout bios_extension_1_bits)
    (bios_characteristics_extension_1 b) /\
  when (from_version (version r) 2 4)
    (fun x => field_is r 0x13 1 x /\ named_by c 1 x CharacteristicsExtension2_layout bios_extension_2_bits)
    (bios_characteristics_extension_2 b).
Proof.
  intros c r b H D. apply C22_bios_decodes in D; [|exact H]. destruct D.
  split; [split; [assumption|apply named_iter; cbn [named_layouts In]; tauto]|].
  split; eapply when_more; try eassumption; intros x F; (split; [exact F|]; apply named_iter; cbn [named_layouts In]; tauto).
Qed.
Print Assumptions C74_bios.
(* ... system slots (SlotCharacteristics1 and 2), ... *)
Theorem C74_slots : forall c r s, all_bytes (data r) -> SystemSlots_try_from c r = Val (Ok s) ->
  field_is r 0x0B 1 (slots_slot_characteristics_1 s) /\
  named_by c 1 (slots_slot_characteristics_1 s) SlotCharacteristics1_layout slot_1_bits /\
  forall x, slots_slot_characteristics_2 s = Some x ->
    field_is r 0x0C 1 x /\ named_by c 1 x SlotCharacteristics2_layout slot_2_bits.
Proof.
  intros c r s H D. apply C30_slots_decodes in D; [|exact H]. destruct D as [_ D]. destruct D.
  split; [assumption|]. split; [apply named_iter; cbn [named_layouts In]; tauto|].
  intros x E. split; [|apply named_iter; cbn [named_layouts In]; tauto].
  match goal with K : if_there r 0x0C 1 _ |- _ => unfold if_there in K; rewrite K in E end. exact E.
Qed.
Print Assumptions C74_slots.
(* ... BIOS language (LanguageFlags) and event log (LogStatus). *)
Theorem C74_language : forall c r s, BiosLanguage_area (version r) <= len (data r) -> BiosLanguage_try_from c r = Val (Ok s) ->
  when (from_version (version r) 2 1)
    (fun x => field_is r 0x05 1 x /\ named_by c 1 x LanguageFlags_layout language_bits) (language_flags s).
Proof.
  intros c r s H D. apply C32_language_decodes in D; [|exact H]. destruct D.
  eapply when_more; [eassumption|]. intros x F. split; [exact F|]. apply named_iter; cbn [named_layouts In]; tauto.
Qed.
Print Assumptions C74_language.
Theorem C74_log : forall c r s, all_bytes (data r) -> SystemEventLog_try_from c r = Val (Ok s) ->
  field_is r 0x0B 1 (log_log_status s) /\ named_by c 1 (log_log_status s) LogStatus_layout log_bits.
Proof.
  intros c r s H D. apply C34_log_decodes in D; [|exact H]. destruct D as (_ & _ & D). destruct D.
  split; [assumption|]. apply named_iter; cbn [named_layouts In]; tauto.
Qed.
Print Assumptions C74_log.

(* ------------------------------------------------------------------ examples *)

(* a BIOS structure of version 2.4 with PCI and UEFI *)
Example C74_example : exists b it1 it2,
  Bios_try_from ex_strict (ex_struct 2 4 InfoType_Bios [1; 2; 0; 0xE0; 1; 3; 0x80; 0; 0; 0; 0; 0; 0; 0; 0; 8; 1; 2; 3; 4] []) = Val (Ok b) /\
  significants_next ex_strict (iter_new 8 (bios_characteristics b) Characteristics_layout) =
    Val (Some {| position := 7; is_set := true; type_ := Significant "PCI is supported" "PCI is supported" |}, it1) /\
  (exists x, bios_characteristics_extension_2 b = Some x /\
    significants_next ex_strict (iter_new 1 x CharacteristicsExtension2_layout) =
    Val (Some {| position := 3; is_set := true; type_ := Significant "UEFI is supported" "UEFI is supported" |}, it2)) /\
  Bios_area {| major := 2; minor := 4 |} <= 20.
Proof.
  do 3 eexists. split; [vm_compute; reflexivity|]. split; [vm_compute; reflexivity|].
  split; [eexists; split; [vm_compute; reflexivity|vm_compute; reflexivity]|]. vm_compute. discriminate.
Qed.
Example C74_example_names : called bios_bits 7 = Some (Significant "PCI is supported" "PCI is supported") /\
  called bios_bits 40 = Some (FReserved "Reserved for BIOS vendor") /\ called bios_bits 64 = None /\
  called post_bits 39 = Some (Significant "PCI Memory Conflict" "PCI Memory Conflict").
Proof. repeat split. Qed.
