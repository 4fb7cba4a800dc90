(* Properties C31-C33: OEM strings, configuration options, BIOS language and group
   associations (types 11 to 14).  Vocabulary: S_Lists.v, S_Decode.v, Spec.v. *)
From Coq Require Import String.
From Coq Require Import ZArith Lia ZifyBool ZifyNat ZifyN.
From Verif Require Import Base G_Enums M_Raw M_Strings M_GroupAssociations.
From Verif Require Import Spec S_Enums S_Decode S_Lists L_Base L_Strings L_Decode L_Lists P_System.
Local Open Scope N_scope.

(* every string area has one list of strings *)
Theorem C31_strings_of_unique : forall r : RawStructure, exists l,
  strings_of (strings r) l /\ forall l', strings_of (strings r) l' -> l' = l.
Proof. intros r. destruct (strings_of_total r) as [l H]. exists l. split; [exact H|]. intros l' H'. eapply strings_of_unique; eassumption. Qed.
Print Assumptions C31_strings_of_unique.

(* ----------------------------------------------------- C31, types 11 and 12 *)

Theorem C31_oem_strings : forall c r, exists s,
  OemStrings_try_from c r = Val (Ok s) /\ oem_handle s = handle r /\
  forall l, strings_of (strings r) l -> exists s', drains (lift_next strings_next) (oem_strings s) l s'.
Proof. exact OemStrings_ok. Qed.
Print Assumptions C31_oem_strings.

Theorem C31_options_succeeds : forall c r,
  (exists s, SystemConfigurationOptions_try_from c r = Val (Ok s)) <->
  exists l, strings_of (strings r) l /\ field_is r 0x04 1 (len l).
Proof. exact options_succeeds. Qed.
Print Assumptions C31_options_succeeds.

Theorem C31_options_content : forall c r s, SystemConfigurationOptions_try_from c r = Val (Ok s) ->
  options_handle s = handle r /\
  forall l, strings_of (strings r) l -> exists s', drains (lift_next strings_next) (options_strings s) l s'.
Proof. exact options_content. Qed.
Print Assumptions C31_options_content.

Theorem C31_options_errors : forall c r e, SystemConfigurationOptions_try_from c r = Val (Err e) <->
  (field r 0x04 1 = None /\ e = InvalidSlice) \/
  exists n l, field_is r 0x04 1 n /\ strings_of (strings r) l /\ n <> len l /\
    e = InvalidStringIndex InfoType_SystemConfigurationOptions (handle r) n.
Proof. exact options_errors. Qed.
Print Assumptions C31_options_errors.

Theorem C31_options_returns : forall c r, exists o, SystemConfigurationOptions_try_from c r = Val o.
Proof. exact options_returns. Qed.
Print Assumptions C31_options_returns.

Definition ex_options (n : N) := ex_struct 2 7 InfoType_SystemConfigurationOptions [n] [].
Lemma ex_strings_of n : strings_of (strings (ex_options n)) [[65]; [66; 67]; [68]].
Proof.
  apply (drains_strings_of (ex_options n) _ {| bytes := [65; 0; 66; 67; 0; 68; 0; 0]; start := 7 |}).
  repeat (eapply drains_cons; [reflexivity|]). apply drains_nil. reflexivity.
Qed.
Example C31_example :
  (exists s, SystemConfigurationOptions_try_from ex_strict (ex_options 3) = Val (Ok s)) /\
  SystemConfigurationOptions_try_from ex_strict (ex_options 2) =
    Val (Err (InvalidStringIndex InfoType_SystemConfigurationOptions 7 2)) /\
  strings_of (strings (ex_options 3)) [[65]; [66; 67]; [68]].
Proof. split; [eexists; reflexivity|]. split; [reflexivity|apply ex_strings_of]. Qed.

(* ------------------------------------------------------------ C32, type 13 *)

Theorem C32_language_decodes : forall c r s, BiosLanguage_area (version r) <= len (data r) ->
  (BiosLanguage_try_from c r = Val (Ok s) <-> BiosLanguage_says r s).
Proof. exact BiosLanguage_ok. Qed.
Print Assumptions C32_language_decodes.

(* with enough bytes there is no error and no crash *)
Theorem C32_language_succeeds : forall c r, BiosLanguage_area (version r) <= len (data r) ->
  exists s, BiosLanguage_try_from c r = Val (Ok s).
Proof. exact BiosLanguage_returns. Qed.
Print Assumptions C32_language_succeeds.

(* "the current language is the byte at 15h in every version" is false *)
Theorem C32_current_2_0_refuted : exists c r s, version_is (version r) 2 0 /\ len (data r) = 18 /\
  BiosLanguage_try_from c r = Val (Ok s) /\ ~ field_is r 0x15 1 (language_current_language s).
Proof.
  exists ex_strict, (ex_struct 2 0 InfoType_BiosLanguage [3; 0; 0; 0; 0; 0; 0; 0; 0; 0; 0; 0; 0; 0; 0; 0; 0; 2] []). eexists.
  split; [split; reflexivity|]. split; [reflexivity|]. split; [reflexivity|]. vm_compute. discriminate.
Qed.
Print Assumptions C32_current_2_0_refuted.

(* The languages iterator starts as the strings of the structure, index 1. *)
Theorem C32_languages_start : forall c r s, BiosLanguage_try_from c r = Val (Ok s) ->
  language_installable_languages s = langs r 1.
Proof.
  intros c r s. unfold BiosLanguage_try_from. destruct (version_ge _ _); unfold obind;
  match goal with |- context [read_packed c ?n r] => destruct (read_packed c n r) end; try discriminate; intros [= <-]; reflexivity.
Qed.
Print Assumptions C32_languages_start.

(* Fewer than 254 strings: it yields them all, in order, then None. *)
Theorem C32_languages_all : forall c r l, strings_of (strings r) l -> len l < 254 ->
  drains (InstallableLanguages_next c) (langs r 1) l (langs r (len l + 2)).
Proof. exact langs_drain. Qed.
Print Assumptions C32_languages_all.

(* 254 or more: with overflow checks the call after the 254th string panics *)
Theorem C32_languages_panic : forall c r l, strings_of (strings r) l -> 254 <= len l -> overflow_checks c = true ->
  runs (InstallableLanguages_next c) (langs r 1) (take 254 l) Panicked.
Proof. exact langs_panic. Qed.
Print Assumptions C32_languages_panic.

(* 254, without overflow checks: as with fewer *)
Theorem C32_languages_254 : forall c r l, strings_of (strings r) l -> len l = 254 -> overflow_checks c = false ->
  drains (InstallableLanguages_next c) (langs r 1) l (langs r 0).
Proof. exact langs_drain_254. Qed.
Print Assumptions C32_languages_254.

(* 255 or more, without overflow checks: 255 strings, the empty text, and the iterator
   is back in its first state: a loop over it never ends *)
Theorem C32_languages_cycle : forall c r l, strings_of (strings r) l -> 255 <= len l -> overflow_checks c = false ->
  steps (InstallableLanguages_next c) (langs r 1) (map Some (take 255 l ++ [[]])) (langs r 1).
Proof. exact langs_cycle. Qed.
Print Assumptions C32_languages_cycle.

(* "once it has answered None it does so for ever" is false: after some more calls
   it panics, or starts again *)
Theorem C32_fused_checked_refuted : forall c r l, strings_of (strings r) l -> len l < 254 -> overflow_checks c = true ->
  exists s, steps (InstallableLanguages_next c) (langs r (len l + 2)) (repeat None (N.to_nat (253 - len l))) s /\
            InstallableLanguages_next c s = Panic.
Proof. intros c r l H HL HC. eexists. split; [apply langs_after; assumption|]. apply lang_next_checked, HC. Qed.
Print Assumptions C32_fused_checked_refuted.
Theorem C32_fused_unchecked_refuted : forall c r l, strings_of (strings r) l -> len l < 254 -> overflow_checks c = false ->
  steps (InstallableLanguages_next c) (langs r (len l + 2)) (repeat None (N.to_nat (254 - len l)) ++ [Some []]) (langs r 1).
Proof. exact langs_after_wraps. Qed.
Print Assumptions C32_fused_unchecked_refuted.

Definition ex_language := ex_struct 2 7 InfoType_BiosLanguage [3; 1; 0; 0; 0; 0; 0; 0; 0; 0; 0; 0; 0; 0; 0; 0; 0; 2] [].
Example C32_example :
  BiosLanguage_try_from ex_strict ex_language = Val (Ok {|
    language_handle := 7; language_installable_languages := langs ex_language 1; language_flags := Some 1;
    language_current_language := 2 |}) /\
  BiosLanguage_area (version ex_language) <= len (data ex_language) /\
  strings_of (strings ex_language) [[65]; [66; 67]; [68]] /\
  drains (InstallableLanguages_next ex_strict) (langs ex_language 1) [[65]; [66; 67]; [68]] (langs ex_language 5).
Proof.
  split; [reflexivity|]. split; [vm_compute; discriminate|]. split; [apply (ex_strings_of 0)|].
  repeat (eapply drains_cons; [reflexivity|]). apply drains_nil. reflexivity.
Qed.
(* a structure with 300 strings "A" *)
Definition ex_many : RawStructure := {|
  version := {| major := 2; minor := 7 |}; info := InfoType_BiosLanguage; length_ := 22; handle := 7;
  data := data ex_language; strings := terminated (repeat [65] 300) ++ [0]; after := [] |}.
Lemma ex_many_strings : strings_of (strings ex_many) (repeat [65] 300).
Proof.
  destruct (drain_terminated_new (repeat [65] 300) [0]) as [s' [D _]].
  - apply Forall_forall. intros x H. apply repeat_spec in H. subst x. split; [discriminate|]. split.
    + intros [H|[]]. discriminate.
    + exists [65]. split; [constructor; [left; reflexivity|constructor]|reflexivity].
  - right. eauto.
  - eapply (drains_strings_of ex_many). exact D.
Qed.
Example C32_many_example : 255 <= len (repeat [65] 300) /\ strings_of (strings ex_many) (repeat [65] 300).
Proof. split; [vm_compute; discriminate|exact ex_many_strings]. Qed.

(* ------------------------------------------------------------ C33, type 14 *)

(* A structure as iteration yields it (length byte = 4 + formatted bytes) that has
   its name field decodes to the name and an iterator over the bytes after it. *)
Theorem C33_group_decodes : forall c r s, length_ r = 4 + len (data r) -> 5 <= length_ r < 256 ->
  (GroupAssociations_try_from c r = Val (Ok s) <->
   group_handle s = handle r /\ text_field r 0x04 (group_group_name s) /\
   group_items s = {| gi_data := drop 1 (data r); gi_index := 0 |}).
Proof. exact group_ok. Qed.
Print Assumptions C33_group_decodes.
Theorem C33_group_errors : forall c r e, length_ r = 4 + len (data r) -> 5 <= length_ r < 256 ->
  (GroupAssociations_try_from c r = Val (Err e) <-> bad_text_field r 0x04 e).
Proof. exact group_err. Qed.
Print Assumptions C33_group_errors.
Theorem C33_group_returns : forall c r, length_ r = 4 + len (data r) -> 5 <= length_ r < 256 ->
  exists o, GroupAssociations_try_from c r = Val o.
Proof. exact group_returns. Qed.
Print Assumptions C33_group_returns.

(* "decoding never panics" is false: without a name field the length computation
   underflows *)
Theorem C33_group_short_refuted : forall c r, length_ r = 4 + len (data r) -> length_ r < 5 ->
  GroupAssociations_try_from c r =
  if overflow_checks c then Panic
  else Val (Err (InvalidFormattedSectionLength InfoType_GroupAssociations (handle r) "" (length_ r))).
Proof. exact group_short. Qed.
Print Assumptions C33_group_short_refuted.

(* Iterating the items yields the three-byte records, in order; one or two left-over
   bytes are ignored. *)
Theorem C33_items : forall c r s, length_ r = 4 + len (data r) -> 5 <= length_ r < 256 ->
  GroupAssociations_try_from c r = Val (Ok s) ->
  exists name recs rest items s', data r = [name] ++ concat recs ++ rest /\ len rest < 3 /\
    drains (lift_next GroupItems_next) (group_items s) items s' /\ Forall2 item_means recs items.
Proof. exact group_items_drain. Qed.
Print Assumptions C33_items.

Definition ex_group := ex_struct 2 7 InfoType_GroupAssociations [2; 4; 0x34; 0x12; 7; 0x78; 0x56; 9] [].
Example C33_example :
  exists s, GroupAssociations_try_from ex_strict ex_group = Val (Ok s) /\ group_group_name s = [66; 67] /\
  (exists s', drains (lift_next GroupItems_next) (group_items s)
    [{| gi_type := 4; gi_handle := 0x1234 |}; {| gi_type := 7; gi_handle := 0x5678 |}] s') /\
  length_ ex_group = 4 + len (data ex_group) /\ 5 <= length_ ex_group < 256.
Proof.
  eexists. split; [reflexivity|]. split; [reflexivity|]. split.
  { eexists. repeat (eapply drains_cons; [reflexivity|]). apply drains_nil. reflexivity. }
  split; [reflexivity|]. vm_compute. split; [discriminate|reflexivity].
Qed.
