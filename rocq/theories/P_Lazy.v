(* C67: the iterators over lists inside a structure and over bit fields. *)
From Coq Require Import String Lia.
From Verif Require Import Base G_Enums M_Raw M_Bitfield M_Enclosure M_SystemSlots M_GroupAssociations M_SystemEventLog.
From Verif Require Import Spec S_Decode S_Lists S_EventLog L_Lazy P_System P_EventLog.
Local Open Scope N_scope.

(* Once such an iterator has answered None it answers None ever after, from whatever
   state it is in.  (Structure iteration: C12.  The two exceptions: C20, C32.) *)
Theorem C67_group_items_finished : forall s s', lift_next GroupItems_next s = Val (None, s') ->
  none_forever (lift_next GroupItems_next) s'.
Proof. exact group_finished. Qed.
Print Assumptions C67_group_items_finished.
Theorem C67_peers_finished : forall s s', PeerDevices_next s = Val (None, s') -> none_forever PeerDevices_next s'.
Proof. exact peers_finished. Qed.
Print Assumptions C67_peers_finished.
Theorem C67_elements_finished : forall c s s', ContainedElements_next c s = Val (None, s') ->
  none_forever (ContainedElements_next c) s'.
Proof. exact elements_finished. Qed.
Print Assumptions C67_elements_finished.
Theorem C67_flags_finished : forall c s s', iter_next c s = Val (None, s') -> none_forever (iter_next c) s'.
Proof. exact iter_finished. Qed.
Print Assumptions C67_flags_finished.
Theorem C67_significants_finished : forall c s s', significants_next c s = Val (None, s') ->
  none_forever (significants_next c) s'.
Proof. exact significants_finished. Qed.
Print Assumptions C67_significants_finished.
Theorem C67_reserved_finished : forall c s s', reserved_next c s = Val (None, s') -> none_forever (reserved_next c) s'.
Proof. exact reserved_finished. Qed.
Print Assumptions C67_reserved_finished.

(* Event log descriptors: for the states that iterating a decoded log can reach. *)
Theorem C67_descriptors_finished : forall c r s d l d1 d2, all_bytes (data r) -> SystemEventLog_try_from c r = Val (Ok s) ->
  log_descriptors s = Some d -> steps (lift_next EventLogTypeDescriptors_next) d l d1 ->
  lift_next EventLogTypeDescriptors_next d1 = Val (None, d2) -> none_forever (lift_next EventLogTypeDescriptors_next) d2.
Proof. exact log_descriptors_finished. Qed.
Print Assumptions C67_descriptors_finished.

(* How many items there are: the bytes left over the size of a record, rounded down
   for group items.  Peer groups that are not a multiple of five bytes would be read
   past their end (C30: decoding never yields such a list). *)
Theorem C67_group_items_count : forall s, exists l s', drains (lift_next GroupItems_next) s l s' /\
  len l = (len (gi_data s) - gi_index s) / 3.
Proof. intros s. exact (group_count _ s (le_n _)). Qed.
Print Assumptions C67_group_items_count.
Theorem C67_peers_count : forall s, exists l e, runs PeerDevices_next s l e /\ len l = len (peer_chunks s) / 5 /\
  ((exists s', e = Exhausted s') <-> len (peer_chunks s) mod 5 = 0) /\ e <> Panicked.
Proof. intros s. exact (peers_count _ s (le_n _)). Qed.
Print Assumptions C67_peers_count.

(* Contained elements: rounded up, and fewer only if the iteration reads past the end
   of memory. *)
Theorem C67_elements_count : forall c s, 0 < ce_record_length s -> exists l e, runs (ContainedElements_next c) s l e /\
  e <> Panicked /\ len l * ce_record_length s < len (ce_chunks s) + ce_record_length s /\
  (forall s', e = Exhausted s' -> len (ce_chunks s) <= len l * ce_record_length s).
Proof. intros c s H. exact (elements_count c _ s H (le_n _)). Qed.
Print Assumptions C67_elements_count.

(* states in the middle of a list *)
Example C67_group_example : exists s s1 s2,
  s = {| gi_data := [4; 0x34; 0x12; 7; 0x78; 0x56; 9]; gi_index := 3 |} /\
  lift_next GroupItems_next s = Val (Some {| gi_type := 7; gi_handle := 0x5678 |}, s1) /\
  lift_next GroupItems_next s1 = Val (None, s2).
Proof. do 3 eexists. split; [reflexivity|]. split; reflexivity. Qed.
Example C67_descriptors_example : exists s d d1 d2, SystemEventLog_try_from ex_strict ex_log = Val (Ok s) /\
  all_bytes (data ex_log) /\ log_descriptors s = Some d /\
  steps (lift_next EventLogTypeDescriptors_next) d
    [Some {| log_type := EventLogType_SystemBoot; variable_data_format_type := VDF_None |};
     Some {| log_type := EventLogType_Available 0x80; variable_data_format_type := VDF_SystemManagementType (SMT_Reserved 0xFFFF) |}] d1 /\
  lift_next EventLogTypeDescriptors_next d1 = Val (None, d2).
Proof.
  do 4 eexists. split; [reflexivity|]. split; [repeat constructor|]. split; [reflexivity|].
  split; [eapply steps_cons; [reflexivity|]; eapply steps_cons; [reflexivity|]; apply steps_nil|reflexivity].
Qed.
Example C67_elements_example : exists s s1 s2,
  s = {| ce_chunks := [0x0A; 1; 2]; ce_after := []; ce_count := 1; ce_record_length := 3 |} /\
  ContainedElements_next ex_strict s = Val (Some {| cel_type := CE_BoardType BoardType_MotherBoard; cel_minimum := 1; cel_maximum := 2 |}, s1) /\
  ContainedElements_next ex_strict s1 = Val (None, s2).
Proof. do 3 eexists. split; [reflexivity|]. split; reflexivity. Qed.
