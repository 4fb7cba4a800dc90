(* Property C75: the text shown for a code is the name the standard gives it. *)
From Coq Require Import String Ascii.
From Coq Require Import ZArith Lia ZifyBool ZifyNat ZifyN.
From Verif Require Import Base G_Enums M_Raw M_Entry M_Enclosure M_Processor M_Cache M_SystemEventLog M_PortableBattery
  M_Display S_Enums S_Text S_TextValues S_Names L_Names.
Local Open Scope string_scope.
Local Open Scope N_scope.
Ltac Zify.zify_post_hook ::= Z.div_mod_to_equations.

(* For every enumeration, every code and both forms of display, the text is the one
   in the tables... *)
Theorem C75_names : forall alt e k, In e (named_codes alt) -> k < codes_below e ->
  written (as_shown e k) (text_shown e k).
Proof. exact names_right. Qed.
Print Assumptions C75_names.
(* ... which is the standard's except for the listed codes, and for those it is not. *)
Theorem C75_names_exact : forall alt e k, In e (named_codes alt) -> k < codes_below e ->
  (written (standard e k) (text_shown e k) <-> ~ In k (map fst (instead e))).
Proof. exact names_exact. Qed.
Print Assumptions C75_names_exact.

Definition example_entry (name : string) (alt : bool) : option named_code :=
  find (fun e => (enumeration e =? name)%string) (named_codes alt).
Example C75_names_example :
  option_map (fun e => (map (text_shown e) [0x07; 0x1A; 0x70], map fst (instead e), codes_below e)) (example_entry "EnclosureType" false) =
    Some (["Tower"; "Compact PCI"; "Undefined: 112"], [], 256) /\
  option_map (fun e => (map (standard e) [0x07; 0x70], map (text_shown e) [0x8000; 0xFF])) (example_entry "ProcessorFamily" true) =
    Some ([[Text "8087"]; [Text "Hobbit Family"]],
          ["Available 0x8000"; "Not used. FFh is the un-initialized value of Flash memory."]) /\
  option_map (fun e => (codes_below e, map (text_shown e) [0x23; 0x1ABCD; 0x80000001])) (example_entry "SystemManagementType" false) =
    Some (4294967296, ["Fan 3 Out of range"; "A system-management probe or cooling device with handle 0xABCD is out of range";
                       "OEM assigned: 2147483649"]).
Proof. vm_compute. repeat split. Qed.

(* The texts that are not the standard's: for each of these enumerations there is a
   code whose text is not the name the standard gives it. *)
Theorem C75_names_refuted : forall name,
  In name ["ProcessorFamily"; "PortType"; "SlotType"; "MemoryArrayLocation"; "EventLogType"; "Voltage"] ->
  exists e k, In e (named_codes false) /\ enumeration e = name /\ k < codes_below e /\ ~ written (standard e k) (text_shown e k).
Proof.
  intros name H.
  assert (A : forall e k, example_entry name false = Some e -> existsb (N.eqb k) (map fst (instead e)) = true -> k < codes_below e ->
    exists e k, In e (named_codes false) /\ enumeration e = name /\ k < codes_below e /\ ~ written (standard e k) (text_shown e k)).
  { intros e k E K L. apply find_some in E. destruct E as [I E]. apply String.eqb_eq in E. exists e, k.
    split; [exact I|]. split; [exact E|]. split; [exact L|]. apply (deviations_real false e k I).
    apply existsb_exists in K. destruct K as [x [X ->%N.eqb_eq]]. exact X. }
  cbn [In] in H. decompose [or] H; subst; try contradiction;
    [eapply (A _ 0x18)|eapply (A _ 0x12)|eapply (A _ 0x20)|eapply (A _ 0xA0)|eapply (A _ 0x05)|eapply (A _ 1)]; reflexivity.
Qed.
Print Assumptions C75_names_refuted.

(* The names in a cache configuration. *)
Theorem C75_cache : forall alt w x, CacheConfiguration_from w = Val x -> cache_names alt w x.
Proof. exact cache_right. Qed.
Print Assumptions C75_cache.
Example C75_cache_example : exists x, CacheConfiguration_from 0x01A1 = Val x /\ CacheLevel_display false (level x) = "L2" /\
  CacheLocation_display false (location x) = "External" /\ CacheOperationalMode_display false (operational_mode x) = "Write Back".
Proof. eexists. split; [vm_compute; reflexivity|]. repeat split. Qed.
(* 7.8: mode 2 is "Varies with Memory Address" *)
Theorem C75_cache_mode_refuted : exists x, CacheConfiguration_from 0x0200 = Val x /\
  named CacheOperationalMode_names (0x0200 / 256 mod 4) = Some "Varies with Memory Address" /\
  CacheOperationalMode_display false (operational_mode x) = "Values with Memory Address".
Proof. eexists. split; [vm_compute; reflexivity|]. split; reflexivity. Qed.
Print Assumptions C75_cache_mode_refuted.

(* A contained element names its board or structure type and its numbers. *)
Theorem C75_contained_element : forall t a b, t < 256 -> a < 256 -> b < 256 ->
  written (contained_element t a b)
    (ContainedElement_display {| cel_type := ContainedElementType_from t; cel_minimum := a; cel_maximum := b |}).
Proof. exact element_words. Qed.
Print Assumptions C75_contained_element.
Example C75_contained_element_example :
  ContainedElement_display {| cel_type := ContainedElementType_from 0x91; cel_minimum := 0; cel_maximum := 16 |} =
  "Structure type: Memory Device (0-16)".
Proof. vm_compute. reflexivity. Qed.

(* An access method says how to reach the log and at which ports or address. *)
Theorem C75_access_method : forall alt m a, m < 256 -> a < 2 ^ 32 ->
  written (access_words alt m a) (AccessMethod_display alt (AccessMethod_new m a)).
Proof. exact access_right. Qed.
Print Assumptions C75_access_method.
Example C75_access_method_example : AccessMethod_display true (AccessMethod_new 1 0x00720A70) =
  "Indexed I/O, two 8-bit index ports, one 8-bit data port: Index [70, A], Data 0x72".
Proof. vm_compute. reflexivity. Qed.

(* Error messages: the wording, the numbers, and the structure's type. *)
Theorem C75_entry_error : forall e, entry_error_byte e -> written (entry_error_words e) (InvalidEntryPointError_display e).
Proof. exact entry_error_right. Qed.
Print Assumptions C75_entry_error.
Theorem C75_structure_error : forall k e, structure_error_small e -> k < 256 ->
  (forall i, error_type e = Some i -> i = InfoType_from k) ->
  written (structure_error_words k e) (MalformedStructureError_display e).
Proof. exact structure_error_right. Qed.
Print Assumptions C75_structure_error.
Example C75_structure_error_example :
  error_type (InvalidStringIndex (InfoType_from 200) 7 3) = Some (InfoType_from 200) /\
  MalformedStructureError_display (InvalidStringIndex (InfoType_from 200) 7 3) =
  "Structure Oem(200) with handle 7 has invalid string index 3".
Proof. split; vm_compute; reflexivity. Qed.
