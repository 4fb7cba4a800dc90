(* Property C82: the developer texts of errors, which the documented program prints, say
   exactly which error it was.  Vocabulary: S_Debug.v (texts), S_Text.v (numerals). *)
From Coq Require Import String.
From Coq Require Import ZArith Lia ZifyBool ZifyNat ZifyN.
From Verif Require Import Base G_Enums M_Raw M_Entry M_Iter M_Display M_Debug Spec S_Iter S_Text S_TextValues S_Debug.
From Verif Require Import L_Base L_Debug P_Iter.
Local Open Scope string_scope.
Local Open Scope N_scope.

(* `{:?}`: the variant's name and its fields in order, numbers in decimal, the text in
   quotes. *)
Theorem C82_error_text : forall e, error_fits e ->
  error_text InfoType_debug e (render false 0 (MalformedStructureError_dbg e)).
Proof. exact error_rendered. Qed.
Print Assumptions C82_error_text.
(* `{:#?}`: the same, one field per line. *)
Theorem C82_error_lines : forall e, error_fits e ->
  exists l, error_lines InfoType_debug e l /\ render true 0 (MalformedStructureError_dbg e) = lines l.
Proof. exact error_rows. Qed.
Print Assumptions C82_error_lines.
Theorem C82_entry_error_text : forall e, entry_error_byte e ->
  entry_error_text e (render false 0 (InvalidEntryPointError_dbg e)).
Proof. exact entry_error_rendered. Qed.
Print Assumptions C82_entry_error_text.
Theorem C82_entry_error_lines : forall e, entry_error_byte e ->
  exists l, entry_error_lines e l /\ render true 0 (InvalidEntryPointError_dbg e) = lines l.
Proof. exact entry_error_rows. Qed.
Print Assumptions C82_entry_error_lines.

(* Different errors have different texts, in both forms. *)
Theorem C82_error_told : forall alt, distinct_on error_fits (fun e => render alt 0 (MalformedStructureError_dbg e)).
Proof. exact error_debug_distinct. Qed.
Print Assumptions C82_error_told.
Theorem C82_entry_error_told : forall alt, distinct_on entry_error_byte (fun e => render alt 0 (InvalidEntryPointError_dbg e)).
Proof. exact entry_error_debug_distinct. Qed.
Print Assumptions C82_entry_error_told.

(* Every error that iteration reports is of this kind: its numbers are in range and its
   text has no character that would be escaped. *)
Theorem C82_reported_errors : forall c s e s', sane s -> next c s = Val (Some (Err e), s') ->
  error_fits e /\ structure_error_small e.
Proof. exact reported_fits. Qed.
Print Assumptions C82_reported_errors.

(* The documented program prints one line per malformed structure, in order, and nothing
   for the others ... *)
Theorem C82_program_lines : forall items,
  complaints items = map complaint (errors_among items).
Proof. exact complaints_in_order. Qed.
Print Assumptions C82_program_lines.
Theorem C82_program_line : forall e, error_fits e -> exists t, error_text InfoType_debug e t /\
  complaint e = "DMI tables contain malformed structure: Err(" ++ t ++ ")".
Proof. intros e H. eexists. split; [apply error_rendered, H|]. apply complaint_shape. Qed.
Print Assumptions C82_program_line.
(* ... so that the lines of two tables are the same only if the errors are. *)
Theorem C82_program_told : forall items items',
  (forall e, In (Err e) (app items items') -> error_fits e) -> complaints items = complaints items' ->
  errors_among items = errors_among items'.
Proof. exact complaints_told. Qed.
Print Assumptions C82_program_told.
(* When there is no entry point it stops with a line that says why. *)
Theorem C82_program_stops : forall e, entry_error_byte e -> exists t, entry_error_text e t /\ failure e = "Error: " ++ t.
Proof. intros e H. eexists. split; [apply entry_error_rendered, H|reflexivity]. Qed.
Print Assumptions C82_program_stops.
Theorem C82_search_errors : forall b e, search b = Val (Err e) -> entry_error_byte e.
Proof. exact search_error_byte. Qed.
Print Assumptions C82_search_errors.

(* ------------------------------------------------------------------ examples *)

Example C82_example_text :
  render false 0 (MalformedStructureError_dbg (BadSize 12 3)) = "BadSize(12, 3)" /\
  render false 0 (MalformedStructureError_dbg (InvalidFormattedSectionLength InfoType_Cache 7 "minimum of " 15)) =
    "InvalidFormattedSectionLength(Cache, 7, ""minimum of "", 15)" /\
  render true 0 (MalformedStructureError_dbg (InvalidStringIndex (InfoType_Oem 200) 7 2)) =
    lines ["InvalidStringIndex("; "    Oem("; "        200,"; "    ),"; "    7,"; "    2,"; ")"] /\
  complaint (UnterminatedStrings 40) = "DMI tables contain malformed structure: Err(UnterminatedStrings(40))" /\
  failure (TooOldVersion 1) = "Error: TooOldVersion(1)" /\
  error_fits (InvalidFormattedSectionLength InfoType_Cache 7 "minimum of " 15) /\ error_fits (BadSize 12 3) /\
  error_fits (InvalidStringIndex (InfoType_Oem 200) 7 2).
Proof.
  do 5 (split; [vm_compute; reflexivity|]). split; [|split].
  - split; [intros t; discriminate|]. split; [reflexivity|]. split; reflexivity.
  - split; reflexivity.
  - split; [intros t [= <-]; reflexivity|]. split; reflexivity.
Qed.
Example C82_example_reported : exists s s' e, sane s /\ next ex_cfg s = Val (Some (Err e), s') /\
  e = BadSize 0 9 /\ complaints [Err e] = ["DMI tables contain malformed structure: Err(BadSize(0, 9))"].
Proof.
  exists (structures (ex_v2 8) [200; 9; 0; 0; 0; 0; 0; 0]). do 2 eexists.
  split; [split; [apply all_bytes_dec; vm_compute; reflexivity|split; vm_compute; discriminate]|].
  split; [vm_compute; reflexivity|]. split; [reflexivity|]. vm_compute. reflexivity.
Qed.
