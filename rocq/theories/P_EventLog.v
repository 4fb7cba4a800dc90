(* C34 to C36: system event logs. *)
From Coq Require Import String.
From Verif Require Import Base G_Enums M_Raw M_SystemEventLog.
From Verif Require Import Spec S_Enums S_Decode S_EventLog L_Enums L_Decode L_EventLog P_System.
Local Open Scope N_scope.

(* ------------------------------------------------------------ C34, type 15 *)

(* The decoder answers Ok s exactly when the length is the one the version demands,
   the descriptor size is not zero, and s is what the table says. *)
Theorem C34_log_decodes : forall c r s, all_bytes (data r) ->
  (SystemEventLog_try_from c r = Val (Ok s) <-> log_length r /\ ~ field_is r 0x16 1 0 /\ SystemEventLog_says r s).
Proof. exact SystemEventLog_ok. Qed.
Print Assumptions C34_log_decodes.

Theorem C34_log_errors : forall c r e, all_bytes (data r) ->
  (SystemEventLog_try_from c r = Val (Err e) <->
   log_length_error r e \/ (log_length r /\ first_failure r SystemEventLog_needs e)).
Proof. exact SystemEventLog_err. Qed.
Print Assumptions C34_log_errors.

(* "decoding never panics" is false: a descriptor size of zero, and only that, does it *)
Theorem C34_log_panics_exactly : forall c r, all_bytes (data r) ->
  (SystemEventLog_try_from c r = Panic <-> log_length r /\ field_is r 0x16 1 0).
Proof. exact SystemEventLog_panic. Qed.
Print Assumptions C34_log_panics_exactly.

(* it never reads out of bounds *)
Theorem C34_log_in_bounds : forall c r, all_bytes (data r) ->
  SystemEventLog_try_from c r = Panic \/ exists o, SystemEventLog_try_from c r = Val o.
Proof. exact SystemEventLog_total. Qed.
Print Assumptions C34_log_in_bounds.

(* Descriptors of two bytes are yielded one by one, in order. *)
Theorem C34_descriptors : forall c r s d, all_bytes (data r) -> SystemEventLog_try_from c r = Val (Ok s) ->
  log_descriptors s = Some d -> field_is r 0x16 1 2 ->
  exists recs ds d' n, field_is r 0x15 1 n /\ bytes_at r 0x17 (2 * n) (concat recs) /\ len recs = n /\
    drains (lift_next EventLogTypeDescriptors_next) d ds d' /\ Forall2 descriptor_means recs ds.
Proof. exact log_descriptors_drain. Qed.
Print Assumptions C34_descriptors.

(* "every log's descriptors are yielded" is false: of descriptors of any other size
   (the standard allows more than two bytes) none ever is *)
Theorem C34_descriptors_size_refuted : forall c r s d, all_bytes (data r) -> SystemEventLog_try_from c r = Val (Ok s) ->
  log_descriptors s = Some d -> ~ field_is r 0x16 1 2 -> none_forever (lift_next EventLogTypeDescriptors_next) d.
Proof. exact log_descriptors_none. Qed.
Print Assumptions C34_descriptors_size_refuted.

Definition ex_log_data (x y : N) (l : list N) : list N :=
  [0; 1; 2; 3; 4; 5; 0; 9; 0x44; 0x33; 0x22; 0x11; 0x78; 0x56; 0x34; 0x12; 1; x; y] ++ l.
Definition ex_log := ex_struct 2 7 InfoType_SystemEventLog (ex_log_data 2 2 [0x17; 0; 0x80; 5]) [].
Example C34_example : exists s d,
  SystemEventLog_try_from ex_strict ex_log = Val (Ok s) /\
  log_log_area_length s = 0x0100 /\ log_log_header_start_offset s = 0x0302 /\ log_log_data_start_offset s = 0x0504 /\
  log_access_method s = AM_IndexedIoOne8bitIndexOne8bitData 0x78 0x34 /\ log_log_status s = 9 /\
  log_log_change_token s = 0x11223344 /\ log_log_header_format s = Some LogHeaderFormat_LogHeaderType1 /\
  log_descriptors s = Some d /\ field_is ex_log 0x16 1 2 /\ all_bytes (data ex_log) /\ log_length ex_log /\
  exists d', drains (lift_next EventLogTypeDescriptors_next) d [
    {| log_type := EventLogType_SystemBoot; variable_data_format_type := VDF_None |};
    {| log_type := EventLogType_Available 0x80; variable_data_format_type := VDF_SystemManagementType (SMT_Reserved 0xFFFF) |}] d'.
Proof.
  do 2 eexists. split; [reflexivity|]. do 7 (split; [reflexivity|]). split; [reflexivity|]. split; [reflexivity|].
  split; [repeat constructor|]. split.
  - split; [intros [? ?]; discriminate|]. intros _. exists 2, 2. repeat split; reflexivity.
  - eexists. repeat (eapply drains_cons; [reflexivity|]). apply drains_nil. reflexivity.
Qed.
(* a log of version 2.1 or later with descriptors of size zero panics *)
Example C34_panic_example :
  SystemEventLog_try_from ex_strict (ex_struct 2 7 InfoType_SystemEventLog (ex_log_data 0 0 []) []) = Panic.
Proof. reflexivity. Qed.
(* with descriptors of size three *)
Example C34_size_example : exists s d,
  SystemEventLog_try_from ex_strict (ex_struct 2 7 InfoType_SystemEventLog (ex_log_data 1 3 [0x17; 0; 0]) []) = Val (Ok s) /\
  log_descriptors s = Some d /\ descriptors_data d <> [].
Proof. do 2 eexists. split; [reflexivity|]. split; [reflexivity|]. cbn. discriminate. Qed.
(* a length that is not the announced one *)
Example C34_error_example :
  SystemEventLog_try_from ex_strict (ex_struct 2 7 InfoType_SystemEventLog (ex_log_data 2 2 [0x17; 0; 0]) []) =
  Val (Err (InvalidFormattedSectionLength InfoType_SystemEventLog 7 "17h+(x*y) = " 27)).
Proof. reflexivity. Qed.

(* --------------------------------------------------- C35, access methods *)

(* The address of a decoded access method is the stored one without the bits that
   the method does not use. *)
Theorem C35_address : forall m a, m < 256 -> a < 2 ^ 32 ->
  AccessMethod_address (AccessMethod_new m a) = N.land a (address_bits m).
Proof. exact address_kept. Qed.
Print Assumptions C35_address.
(* and of a decoded log, that of the structure *)
Theorem C35_log_address : forall c r s m a, all_bytes (data r) -> SystemEventLog_try_from c r = Val (Ok s) ->
  field_is r 0x0A 1 m -> field_is r 0x10 4 a ->
  AccessMethod_address (log_access_method s) = N.land a (address_bits m).
Proof.
  intros c r s m a HB H HM HA. apply SystemEventLog_ok in H; [|exact HB].
  destruct H as [_ [_ [_ _ _ _ [m' [a' [HM' [HA' E]]]] _ _ _ _]]]. unfold field_is in *.
  rewrite HM in HM'. injection HM' as <-. rewrite HA in HA'. injection HA' as <-.
  pose proof (field_lt _ _ _ _ HB HM) as LM. pose proof (field_lt _ _ _ _ HB HA) as LA.
  rewrite E, <- access_new by exact LM. apply address_kept; assumption.
Qed.
Print Assumptions C35_log_address.
Example C35_example :
  AccessMethod_address (AccessMethod_new 0 0x12345678) = 0x00340078 /\
  AccessMethod_address (AccessMethod_new 1 0x12345678) = 0x00345678 /\
  AccessMethod_address (AccessMethod_new 3 0x12345678) = 0x12345678 /\
  AccessMethod_address (AccessMethod_new 4 0x12345678) = 0x00005678.
Proof. repeat split; reflexivity. Qed.

(* --------------------------------------------------- C36, codes of the log *)

Theorem C36_type_round_trip : forall k, k < 256 -> EventLogType_to (EventLogType_from k) = k.
Proof. exact type_round. Qed.
Print Assumptions C36_type_round_trip.
Theorem C36_format_codes : forall k, k < 256 ->
  VariableDataFormatType_from k = meaning VariableDataFormatType_codes VariableDataFormatType_other k.
Proof. exact format_from_meaning. Qed.
Print Assumptions C36_format_codes.
Theorem C36_format_round_trip : forall k, k < 256 -> VariableDataFormatType_to (VariableDataFormatType_from k) = k.
Proof. exact format_round. Qed.
Print Assumptions C36_format_round_trip.
Theorem C36_descriptor_round_trip : forall a b, a < 256 -> b < 256 ->
  EventLogTypeDescriptor_to (EventLogTypeDescriptor_from a b) = (a, b).
Proof. exact descriptor_round. Qed.
Print Assumptions C36_descriptor_round_trip.
(* a 32-bit system management type means what the table says, and none is lost *)
Theorem C36_management_codes : forall k, k < 2 ^ 32 ->
  SystemManagementType_from k = meaning SystemManagementType_codes SystemManagementType_other k.
Proof. exact management_meaning. Qed.
Print Assumptions C36_management_codes.
Theorem C36_management_injective : forall a b, a < 2 ^ 32 -> b < 2 ^ 32 ->
  SystemManagementType_from a = SystemManagementType_from b -> a = b.
Proof. exact management_inj. Qed.
Print Assumptions C36_management_injective.
Example C36_example :
  EventLogTypeDescriptor_to (EventLogTypeDescriptor_from 0x17 0x05) = (0x17, 0x05) /\
  SystemManagementType_from 0x23 = SMT_OutOfRangeFan 3 /\
  SystemManagementType_from 0x11234 = SMT_OutOfRangeSystemManagementProbe 0x1234.
Proof. repeat split; reflexivity. Qed.
