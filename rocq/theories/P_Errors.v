(* Property C60: decoding errors tell the truth about the structure. *)
From Coq Require Import String.
From Coq Require Import ZArith Lia ZifyBool ZifyNat ZifyN.
From Verif Require Import Base G_Enums M_Raw M_Entry M_Iter M_Accessors Spec S_Decode S_Iter S_Lists S_Errors L_Base L_Iter L_Frame L_Errors P_System P_Lists.
Local Open Scope N_scope.

(* A decoding error names the type and the handle of the structure it is reported
   for; a reported string number has no string; a reported length is not met. *)
Theorem C60_errors_accurate : forall c r e, length_ r = 4 + len (data r) -> length_ r < 256 ->
  dispatch c r = Val (Err e) -> accurate r e.
Proof. intros c r e HL HB. apply says_dispatch; assumption. Qed.
Print Assumptions C60_errors_accurate.

(* ... and this is the structure at the iterator's position. *)
Theorem C60_iterator_errors_accurate : forall c s e s', sane s -> next c s = Val (Some (Err e), s') ->
  (exists l, e = BadSize (idx s) l) \/ e = UnterminatedStrings (idx s) \/
  exists r, framed (smbios_version s) (buffer s) (idx s) r /\ accurate r e.
Proof.
  intros c s e s' HS H. pose proof H as H0. apply next_iff in H; [|exact HS]. inversion H; subst.
  - left. eauto.
  - right. left. reflexivity.
  - right. right. exists r. split; [assumption|]. eapply says_dispatch; [| |eassumption].
    + match goal with F : framed _ _ _ r |- _ => destruct F as [pre [post [k [h0 [h1 [_ [_ [F _]]]]]]]] end. lia.
    + match goal with F : framed _ _ _ r |- _ => destruct F as [pre [post [k [h0 [h1 [E [_ _]]]]]]] end.
      destruct HS as [HB _]. rewrite E in HB. apply all_bytes_app in HB. destruct HB as [_ HB].
      inversion HB as [|? ? _ HB2]. inversion HB2 as [|? ? HB3 _]. exact HB3.
Qed.
Print Assumptions C60_iterator_errors_accurate.

Example C60_example : exists r e, dispatch ex_strict r = Val (Err e) /\ length_ r = 4 + len (data r) /\ length_ r < 256 /\
  e = InvalidFormattedSectionLength InfoType_MemoryError32 7 "" 0x17 /\ accurate r e.
Proof.
  exists (ex_struct 2 7 InfoType_MemoryError32 [1; 2; 3] []). eexists. split; [reflexivity|]. split; [reflexivity|]. split; [reflexivity|].
  split; [reflexivity|]. split; [reflexivity|]. split; [reflexivity|]. left. split; [reflexivity|discriminate].
Qed.

(* Error::source gives a cause only when a field is missing. *)
Theorem C60_source : forall c r e, length_ r = 4 + len (data r) -> length_ r < 256 ->
  dispatch c r = Val (Err e) -> MalformedStructureError_source e = true -> 4 + len (data r) < last_field_end (info r).
Proof.
  intros c r e HL HB H S. pose proof (C60_errors_accurate c r e HL HB H) as A. destruct e; try discriminate S. exact A.
Qed.
Print Assumptions C60_source.
Example C60_source_example : exists r e, dispatch ex_strict r = Val (Err e) /\ length_ r = 4 + len (data r) /\
  length_ r = 0x1B /\ info r = InfoType_MemoryDevice /\ MalformedStructureError_source e = true.
Proof.
  exists (ex_struct 2 3 InfoType_MemoryDevice [0;16; 0;0; 0;0; 0;0; 0;4; 9; 0; 1; 2; 24; 0;0; 0;0; 1; 2; 3; 1] []).
  eexists. split; [reflexivity|]. split; [reflexivity|]. split; [reflexivity|]. split; reflexivity.
Qed.

(* "the reported length is the length the structure should have" is false of four
   messages.  An enclosure of 8 bytes is told to have a minimum of 5 bytes. *)
Theorem C60_enclosure_length_refuted : exists r, length_ r = 4 + len (data r) /\ 5 <= length_ r /\
  forall c, dispatch c r = Val (Err (InvalidFormattedSectionLength InfoType_Enclosure (handle r) "minimum of " 5)).
Proof.
  exists (ex_struct 2 7 InfoType_Enclosure [1; 2; 3; 4] []). split; [reflexivity|]. split; [vm_compute; discriminate|]. reflexivity.
Qed.
Print Assumptions C60_enclosure_length_refuted.
(* A group association of 4 bytes is told that it should have 4 bytes. *)
Theorem C60_group_length_refuted : exists c r, length_ r = 4 + len (data r) /\
  dispatch c r = Val (Err (InvalidFormattedSectionLength InfoType_GroupAssociations (handle r) "" (length_ r))).
Proof. exists ex_flat, (ex_struct 2 7 InfoType_GroupAssociations [] []). split; reflexivity. Qed.
Print Assumptions C60_group_length_refuted.
(* An event log of 17h bytes with 128 descriptors of two bytes is told to have 17h bytes. *)
Theorem C60_event_log_length_refuted : exists r, length_ r = 4 + len (data r) /\ length_ r = 0x17 /\
  field_is r 0x15 1 128 /\ field_is r 0x16 1 2 /\
  forall c, dispatch c r = Val (Err (InvalidFormattedSectionLength InfoType_SystemEventLog (handle r) "17h+(x*y) = " 0x17)).
Proof.
  exists (ex_struct 2 7 InfoType_SystemEventLog [0;0; 0;0; 0;0; 0; 0; 0;0;0;0; 0;0;0;0; 0; 128; 2] []).
  split; [reflexivity|]. split; [reflexivity|]. split; [vm_compute; reflexivity|]. split; [vm_compute; reflexivity|].
  intros [[] [] []]; vm_compute; reflexivity.
Qed.
Print Assumptions C60_event_log_length_refuted.
(* "a reported string number has no string" is false of configuration options: string
   2 exists, but there are three strings. *)
Theorem C60_options_index_refuted : exists r t, text_number r 2 t /\
  forall c, dispatch c r = Val (Err (InvalidStringIndex InfoType_SystemConfigurationOptions (handle r) 2)).
Proof.
  exists (ex_options 2), [66; 67]. split; [|intros [[] [] []]; vm_compute; reflexivity].
  apply L_Strings.find_string_ok. vm_compute. reflexivity.
Qed.
Print Assumptions C60_options_index_refuted.
