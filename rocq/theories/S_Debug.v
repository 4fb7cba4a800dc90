(* What the `Debug` texts of the errors should look like. *)
From Coq Require Import String Ascii.
From Verif Require Import Base G_Enums M_Raw M_Entry S_Text.
Local Open Scope string_scope.
Local Open Scope N_scope.

Definition line_end : string := String (ascii_of_N 10) "".
Definition quotes : string := String (ascii_of_N 34) "".

(* the characters that a quoted text shows as they are *)
Fixpoint plain (s : string) : bool :=
  match s with
  | EmptyString => true
  | String c s => let n := N_of_ascii c in
      (32 <=? n) && (n <=? 126) && negb (n =? 34) && negb (n =? 92) && plain s
  end.

(* numbers in the range of their Rust types, and a plain text *)
Definition type_fits (i : InfoType) : Prop := forall t, i = InfoType_Oem t -> t < 256.
Definition error_fits (e : MalformedStructureError) : Prop :=
  match e with
  | BadSize offset length => offset < 2 ^ 32 /\ length < 256
  | UnterminatedStrings offset => offset < 2 ^ 32
  | InvalidStringIndex i h k => type_fits i /\ h < 65536 /\ k < 256
  | InvalidSlice => True
  | InvalidFormattedSectionLength i h spec n => type_fits i /\ h < 65536 /\ plain spec = true /\ n < 256
  end.

(* the structure type: its name, or Oem and the number *)
Definition type_text (name : InfoType -> string) (i : InfoType) (t : string) : Prop :=
  match i with
  | InfoType_Oem n => exists a, numeral 10 a n /\ t = "Oem(" ++ a ++ ")"
  | _ => t = name i
  end.
(* a field on a line of its own *)
Definition own_line (s : string) : string := "    " ++ s ++ ",".
(* the same in the form with one field per line, inside of an error *)
Definition type_lines (name : InfoType -> string) (i : InfoType) (l : list string) : Prop :=
  match i with
  | InfoType_Oem n => exists a, numeral 10 a n /\ l = ["    Oem("; "    " ++ own_line a; "    ),"]
  | _ => l = [own_line (name i)]
  end.

Definition error_text (name : InfoType -> string) (e : MalformedStructureError) (t : string) : Prop :=
  match e with
  | BadSize offset length => exists a b, numeral 10 a offset /\ numeral 10 b length /\
      t = "BadSize(" ++ a ++ ", " ++ b ++ ")"
  | UnterminatedStrings offset => exists a, numeral 10 a offset /\ t = "UnterminatedStrings(" ++ a ++ ")"
  | InvalidStringIndex i h k => exists x a b, type_text name i x /\ numeral 10 a h /\ numeral 10 b k /\
      t = "InvalidStringIndex(" ++ x ++ ", " ++ a ++ ", " ++ b ++ ")"
  | InvalidSlice => t = "InvalidSlice(TryFromSliceError(()))"
  | InvalidFormattedSectionLength i h spec n => exists x a b, type_text name i x /\ numeral 10 a h /\ numeral 10 b n /\
      t = "InvalidFormattedSectionLength(" ++ x ++ ", " ++ a ++ ", " ++ quotes ++ spec ++ quotes ++ ", " ++ b ++ ")"
  end.

(* the lines of a text *)
Fixpoint lines (l : list string) : string :=
  match l with
  | [] => ""
  | [s] => s
  | s :: l => s ++ line_end ++ lines l
  end.
Definition error_lines (name : InfoType -> string) (e : MalformedStructureError) (l : list string) : Prop :=
  match e with
  | BadSize offset length => exists a b, numeral 10 a offset /\ numeral 10 b length /\
      l = ["BadSize("; own_line a; own_line b; ")"]
  | UnterminatedStrings offset => exists a, numeral 10 a offset /\ l = ["UnterminatedStrings("; own_line a; ")"]
  | InvalidStringIndex i h k => exists x a b, type_lines name i x /\ numeral 10 a h /\ numeral 10 b k /\
      l = "InvalidStringIndex(" :: app x [own_line a; own_line b; ")"]
  | InvalidSlice => l = ["InvalidSlice("; "    TryFromSliceError("; "        (),"; "    ),"; ")"]
  | InvalidFormattedSectionLength i h spec n => exists x a b, type_lines name i x /\ numeral 10 a h /\ numeral 10 b n /\
      l = "InvalidFormattedSectionLength(" :: app x [own_line a; own_line (quotes ++ spec ++ quotes); own_line b; ")"]
  end.

Definition entry_error_text (e : InvalidEntryPointError) (t : string) : Prop :=
  match e with
  | NotFound => t = "NotFound"
  | TooOldVersion n => exists a, numeral 10 a n /\ t = "TooOldVersion(" ++ a ++ ")"
  | EpBadSize n => exists a, numeral 10 a n /\ t = "BadSize(" ++ a ++ ")"
  | BadChecksum n => exists a, numeral 10 a n /\ t = "BadChecksum(" ++ a ++ ")"
  end.
Definition entry_error_lines (e : InvalidEntryPointError) (l : list string) : Prop :=
  match e with
  | NotFound => l = ["NotFound"]
  | TooOldVersion n => exists a, numeral 10 a n /\ l = ["TooOldVersion("; own_line a; ")"]
  | EpBadSize n => exists a, numeral 10 a n /\ l = ["BadSize("; own_line a; ")"]
  | BadChecksum n => exists a, numeral 10 a n /\ l = ["BadChecksum("; own_line a; ")"]
  end.

(* the errors among the items of an iteration, in order *)
Definition errors_among {A} (items : list (res A)) : list MalformedStructureError :=
  flat_map (fun i => match i with Ok _ => [] | Err e => [e] end) items.
